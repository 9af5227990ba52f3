(** * Layout.v: the byte layout of the four accounts of a market

    Models the [repr(C)] structs and the [from_buffer] functions of
    program/src/state/critbit.rs, event_queue.rs and market_state.rs.

    In Rust the structs are views into the account's bytes (bytemuck casts): every
    write goes straight to the buffer.  Here a buffer is decoded into a value
    ([slab_from_buffer], [queue_from_buffer]), the typed code works on the value, and
    [slab_to_buffer], [queue_to_buffer] put it back into the buffer.  LayoutProofs.v
    shows that the two directions are inverse to each other.

    The casts have size conditions, which are modelled here, and alignment conditions,
    which are in Host.v; C68 shows that on chain the latter always hold. *)
From Verif Require Import Machine Bytes Critbit EventQueue.

(** A callback info is a [Pod] value: a fixed number of bytes. *)
Notation bytes := (list N).

(** program/src/state.rs:20-27 [AccountTag] discriminants. *)
Definition tag_uninitialized : N := 0.
Definition tag_market : N := 128.
Definition tag_event_queue : N := 129.
Definition tag_bids : N := 130.
Definition tag_asks : N := 131.
Definition tag_disabled : N := 132.

(** Cut [k] pieces of [n] bytes from the front of a byte string. *)
Fixpoint pieces (n k : nat) (l : bytes) : list bytes :=
  match k with
  | O => []
  | S k => take n l :: pieces n k (drop n l)
  end.

(** [bytemuck::cast_slice_mut] to elements of [n] bytes: panics when the length is not
    a multiple of [n] (and for [n = 0], which no [Pod] callback info has). *)
Definition cast_slice (n : nat) (l : bytes) : res (list bytes) :=
  if (n =? 0)%nat then Panic PCast
  else if (length l mod n =? 0)%nat then Ok (pieces n (length l / n) l)
  else Panic PCast.

(** ** Slab *)

(** critbit.rs:28-30 [SlabHeader::LEN], 51 [LeafNode::LEN], 92 [InnerNode::LEN]. *)
Definition slab_header_len : nat := 32.
Definition leaf_len : nat := 24.
Definition inner_len : nat := 32.

(** critbit.rs:13-26 [SlabHeader], [repr(C)]: eight u32. *)
Definition bytes_of_header (h : header) : bytes :=
  le_enc 4 (leaf_free_list_len h) ++ le_enc 4 (leaf_free_list_head h) ++
  le_enc 4 (leaf_bump_index h) ++ le_enc 4 (inner_node_free_list_len h) ++
  le_enc 4 (inner_node_free_list_head h) ++ le_enc 4 (inner_node_bump_index h) ++
  le_enc 4 (root_node h) ++ le_enc 4 (leaf_count h).
Definition header_of_bytes (b : bytes) : header :=
  mk_header (le_dec (slice b 0 4)) (le_dec (slice b 4 4)) (le_dec (slice b 8 4))
            (le_dec (slice b 12 4)) (le_dec (slice b 16 4)) (le_dec (slice b 20 4))
            (le_dec (slice b 24 4)) (le_dec (slice b 28 4)).

(** critbit.rs:38-48 [LeafNode], [repr(C)]: u128 (or two u64, same bytes), u64. *)
Definition bytes_of_leaf (l : leaf) : bytes := le_enc 16 (lf_key l) ++ le_enc 8 (lf_qty l).
Definition leaf_of_bytes (b : bytes) : leaf :=
  mk_leaf (le_dec (slice b 0 16)) (le_dec (slice b 16 8)).

(** critbit.rs:83-89 [InnerNode], [repr(C)]: u128, u64, two u32. *)
Definition bytes_of_inner (n : inner) : bytes :=
  le_enc 16 (in_key n) ++ le_enc 8 (in_plen n) ++ le_enc 4 (in_c0 n) ++ le_enc 4 (in_c1 n).
Definition inner_of_bytes (b : bytes) : inner :=
  mk_inner (le_dec (slice b 0 16)) (le_dec (slice b 16 8)) (le_dec (slice b 24 4))
           (le_dec (slice b 28 4)).

Section Layout.
(** [size_of::<C>()] *)
Context (cs : nat).

(** critbit.rs:128-134 [Slab::compute_allocation_size]; [checked_sub(1).unwrap()]
    panics for capacity 0.  Simplification: the products are not checked against
    2^64 (Solana accounts have at most 10 MiB). *)
Definition slab_allocation_size (n : nat) : res nat :=
  match n with
  | O => Panic PUnwrap
  | S n => Ok (8 + slab_header_len + leaf_len + cs + n * (leaf_len + inner_len + cs))%nat
  end.

(** critbit.rs:138-158 [Slab::from_buffer].  The subtraction on line 141 underflows on
    short buffers: a panic in the debug profile.  (In the release profile the capacity
    becomes huge and, unless the tag is wrong, [split_at_mut] panics.) *)
Definition slab_from_buffer (buf : bytes) (expected : N) : res (slab bytes) :=
  let leaf_size := (leaf_len + cs)%nat in
  if (length buf <? slab_header_len + 8 + leaf_size)%nat then Panic POverflow
  else
    let capacity :=
      ((length buf - slab_header_len - 8 - leaf_size) / (leaf_size + inner_len))%nat in
    if negb (hd 0 buf =? expected) then Err AccountTagMismatch
    else
      let rem := drop 8 buf in
      let hd_bytes := take slab_header_len rem in
      let rem := drop slab_header_len rem in
      let leaves := take ((capacity + 1) * leaf_len) rem in
      let rem := drop ((capacity + 1) * leaf_len) rem in
      let inners := take (capacity * inner_len) rem in
      let callbacks := drop (capacity * inner_len) rem in
      let? cbs := cast_slice cs callbacks in
      Ok (mk_slab (header_of_bytes hd_bytes)
                  (map leaf_of_bytes (pieces leaf_len (capacity + 1) leaves))
                  (map inner_of_bytes (pieces inner_len capacity inners))
                  cbs).

(** The buffer after writes through the view: the 8 tag bytes are not part of it. *)
Definition slab_to_buffer (s : slab bytes) (buf : bytes) : bytes :=
  take 8 buf ++ bytes_of_header (hdr s) ++ concat (map bytes_of_leaf (leaf_nodes s)) ++
  concat (map bytes_of_inner (inner_nodes s)) ++ concat (callback_infos s).

(** critbit.rs:117-126 [Slab::initialize]: the tag is a single byte; the rest of the
    buffer is left as it is. *)
Definition slab_initialize (asks_data bids_data : bytes) : res (bytes * bytes) :=
  let? a := idx asks_data 0 in
  if negb (a =? tag_uninitialized) then Err PE_AccountAlreadyInitialized
  else
    let? b := idx bids_data 0 in
    if negb (b =? tag_uninitialized) then Err PE_AccountAlreadyInitialized
    else Ok (setN asks_data 0 tag_asks, setN bids_data 0 tag_bids).

(** ** Event queue *)

(** event_queue.rs:134-137 [EventQueueHeader::LEN], 40-43 [FillEvent::LEN]. *)
Definition queue_header_len : nat := 24.
Definition fill_len : nat := 40.
Definition event_size : nat := (fill_len + 2 * cs)%nat.

(** event_queue.rs:208-212 [EventQueue::compute_allocation_size]. *)
Definition queue_allocation_size (n : nat) : nat :=
  (n * event_size + queue_header_len + 8)%nat.

(** event_queue.rs:214-227 [EventQueue::check_buffer_size]. *)
Definition queue_check_size (buf : bytes) : res unit :=
  if (length buf <? queue_header_len + 8 + 5 * event_size)%nat then Err PE_InvalidAccountData
  else if negb ((length buf - (queue_header_len + 8)) mod event_size =? 0)%nat
  then Err PE_InvalidAccountData
  else Ok tt.

(** The u64 tag at the front of an account; [buf[0..8]] panics on short buffers. *)
Definition read_tag (buf : bytes) : res N :=
  if (length buf <? 8)%nat then Panic PIndex else Ok (le_dec (take 8 buf)).
Definition write_tag (t : N) (buf : bytes) : bytes := le_enc 8 t ++ drop 8 buf.

(** event_queue.rs:151-174 [EventQueue::from_buffer].  Returns the queue and the buffer
    with its tag overwritten (line 164). *)
Definition queue_from_buffer (buf : bytes) (expected : N) : res (queue bytes * bytes) :=
  if (length buf <? 8 + queue_header_len)%nat then Panic POverflow
  else
    let capacity := ((length buf - 8 - queue_header_len) / event_size)%nat in
    let? t := read_tag buf in
    if negb (t =? expected) then Err AccountTagMismatch
    else
      let buf := write_tag tag_event_queue buf in
      let rem := drop 8 buf in
      let hd_bytes := take queue_header_len rem in
      let rem := drop queue_header_len rem in
      let events := take (capacity * fill_len) rem in
      let callbacks := drop (capacity * fill_len) rem in
      let? cbs := cast_slice cs callbacks in
      Ok (mk_queue (le_dec (slice hd_bytes 0 8)) (le_dec (slice hd_bytes 8 8))
                   (le_dec (slice hd_bytes 16 8))
                   (map fill_of_bytes (pieces fill_len capacity events)) cbs,
          buf).

(** The buffer after writes through the view. *)
Definition queue_to_buffer (q : queue bytes) (buf : bytes) : bytes :=
  take 8 buf ++ le_enc 8 (q_head q) ++ le_enc 8 (q_count q) ++ le_enc 8 (q_seq q) ++
  concat (map bytes_of_fill (q_events q)) ++ concat (q_cbs q).

End Layout.

(** ** Market account *)

(** market_state.rs:17-28 [MarketState], [repr(C)]: three public keys (32 bytes, here
    the number they denote) and two u64. *)
Record market_state := mk_market_state {
  ms_event_queue : N; ms_bids : N; ms_asks : N; ms_min : N; ms_tick : N }.
(** market_state.rs:32 [MarketState::LEN]. *)
Definition market_state_len : nat := 112.
Definition bytes_of_market_state (ms : market_state) : bytes :=
  le_enc 32 (ms_event_queue ms) ++ le_enc 32 (ms_bids ms) ++ le_enc 32 (ms_asks ms) ++
  le_enc 8 (ms_min ms) ++ le_enc 8 (ms_tick ms).
Definition market_state_of_bytes (b : bytes) : market_state :=
  mk_market_state (le_dec (slice b 0 32)) (le_dec (slice b 32 32)) (le_dec (slice b 64 32))
                  (le_dec (slice b 96 8)) (le_dec (slice b 104 8)).

(** market_state.rs:34-47 [MarketState::from_buffer]: the state and the buffer with its
    tag overwritten (line 42); the cast of line 46 panics unless exactly
    [market_state_len] bytes follow the tag. *)
Definition market_from_buffer (buf : bytes) (expected : N) : res (market_state * bytes) :=
  let? t := read_tag buf in
  if negb (t =? expected) then Err AccountTagMismatch
  else
    let buf := write_tag tag_market buf in
    if negb (length (drop 8 buf) =? market_state_len)%nat then Panic PCast
    else Ok (market_state_of_bytes (drop 8 buf), buf).

(** market_state.rs:50-56 [MarketState::check_buffer_size]. *)
Definition market_check_size (buf : bytes) : res unit :=
  if negb (length buf =? 8 + market_state_len)%nat then Err PE_InvalidAccountData else Ok tt.

(** ** Values of the Rust types *)

(** A byte string of [n] bytes. *)
Definition sized (n : nat) (b : bytes) : Prop := length b = n.

Definition header_typed (h : header) : Prop :=
  leaf_free_list_len h < p32 /\ leaf_free_list_head h < p32 /\ leaf_bump_index h < p32 /\
  inner_node_free_list_len h < p32 /\ inner_node_free_list_head h < p32 /\
  inner_node_bump_index h < p32 /\ root_node h < p32 /\ leaf_count h < p32.
Definition leaf_typed (l : leaf) : Prop := lf_key l < p128 /\ lf_qty l < p64.
Definition inner_typed (n : inner) : Prop :=
  in_key n < p128 /\ in_plen n < p64 /\ in_c0 n < p32 /\ in_c1 n < p32.
Definition market_state_typed (ms : market_state) : Prop :=
  ms_event_queue ms < 256 ^ 32 /\ ms_bids ms < 256 ^ 32 /\ ms_asks ms < 256 ^ 32 /\
  ms_min ms < p64 /\ ms_tick ms < p64.

(** All numbers have their Rust types, callback infos are [cs] bytes. *)
Record slab_typed (cs : nat) (s : slab bytes) : Prop := {
  st_hdr : header_typed (hdr s);
  st_leaves : Forall leaf_typed (leaf_nodes s);
  st_inners : Forall inner_typed (inner_nodes s);
  st_cbs : Forall (fun c => sized cs c /\ bytes_ok c) (callback_infos s);
}.
Record queue_typed (cs : nat) (q : queue bytes) : Prop := {
  qt_head : q_head q < p64;
  qt_count : q_count q < p64;
  qt_seq : q_seq q < p64;
  qt_events : Forall fill_typed (q_events q);
  qt_cbs : Forall (fun c => sized cs c /\ bytes_ok c) (q_cbs q);
}.
