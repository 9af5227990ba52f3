(** * Host.v: where account data lies in memory, and the build for other targets

    Models the alignment conditions of the casts in program/src/state/critbit.rs,
    event_queue.rs and market_state.rs (Layout.v models their size conditions), and the
    code under [#[cfg(not(target_os = "solana"))]]: off chain an order id is kept as two
    u64 words.

    The library is used in two builds.  On chain u128 is aligned on 8 bytes and the
    loader puts account data at a multiple of 8.  In a build for another target (a test,
    a crank, an indexer) u128 is aligned on 8 or on 16 bytes, depending on target and
    compiler, and the caller chooses where the bytes are. *)
From Verif Require Import Machine Bytes Critbit EventQueue Layout.

(** ** Casts *)

(** The address [base + off] is a multiple of the alignment [a]. *)
Definition aligned (a base : N) (off : nat) : bool := (base + N.of_nat off) mod a =? 0.

(** [bytemuck::from_bytes_mut], [bytemuck::cast_slice_mut] at an address: the address is
    checked, also when the slice is empty; a bad one is a panic. *)
Definition cast_at (a base : N) (off : nat) : res unit :=
  if aligned a base off then Ok tt else Panic PCast.

Section At.
(** [align_of::<u128>()], [align_of::<C>()], [size_of::<C>()] and the address of the
    first byte of the account's data. *)
Context (a128 ac : N) (cs : nat) (base : N).

(** critbit.rs:138-158 [Slab::from_buffer], with addresses.  [SlabHeader] has alignment 4
    (u32 fields, line 15), [LeafNode] 8 (on chain its u128 has alignment 8; off chain it
    has only u64 fields, lines 42-47), [InnerNode] that of u128 (line 86). *)
Definition slab_from_buffer_at (buf : bytes) (expected : N) : res (slab bytes) :=
  let leaf_size := (leaf_len + cs)%nat in
  if (length buf <? slab_header_len + 8 + leaf_size)%nat then Panic POverflow
  else
    let capacity :=
      ((length buf - slab_header_len - 8 - leaf_size) / (leaf_size + inner_len))%nat in
    if negb (hd 0 buf =? expected) then Err AccountTagMismatch
    else
      let rem := drop 8 buf in
      let hd_bytes := take slab_header_len rem in
      let rem := drop slab_header_len rem in
      let leaves := take ((capacity + 1) * leaf_len) rem in
      let rem := drop ((capacity + 1) * leaf_len) rem in
      let inners := take (capacity * inner_len) rem in
      let callbacks := drop (capacity * inner_len) rem in
      let? _ := cast_at 4 base 8 in
      let? _ := cast_at 8 base (8 + slab_header_len) in
      let? _ := cast_at a128 base (8 + slab_header_len + (capacity + 1) * leaf_len) in
      let? _ := cast_at ac base
        (8 + slab_header_len + (capacity + 1) * leaf_len + capacity * inner_len) in
      let? cbs := cast_slice cs callbacks in
      Ok (mk_slab (header_of_bytes hd_bytes)
                  (map leaf_of_bytes (pieces leaf_len (capacity + 1) leaves))
                  (map inner_of_bytes (pieces inner_len capacity inners))
                  cbs).

(** event_queue.rs:151-174 [EventQueue::from_buffer], with addresses: the tag (u64, line
    159), the header (three u64, line 170), the events (alignment 8 in both builds, line
    171) and the callback infos. *)
Definition queue_from_buffer_at (buf : bytes) (expected : N) : res (queue bytes * bytes) :=
  if (length buf <? 8 + queue_header_len)%nat then Panic POverflow
  else
    let capacity := ((length buf - 8 - queue_header_len) / event_size cs)%nat in
    let? t := read_tag buf in
    let? _ := cast_at 8 base 0 in
    if negb (t =? expected) then Err AccountTagMismatch
    else
      let buf := write_tag tag_event_queue buf in
      let rem := drop 8 buf in
      let hd_bytes := take queue_header_len rem in
      let rem := drop queue_header_len rem in
      let events := take (capacity * fill_len) rem in
      let callbacks := drop (capacity * fill_len) rem in
      let? _ := cast_at 8 base 8 in
      let? _ := cast_at 8 base (8 + queue_header_len) in
      let? _ := cast_at ac base (8 + queue_header_len + capacity * fill_len) in
      let? cbs := cast_slice cs callbacks in
      Ok (mk_queue (le_dec (slice hd_bytes 0 8)) (le_dec (slice hd_bytes 8 8))
                   (le_dec (slice hd_bytes 16 8))
                   (map fill_of_bytes (pieces fill_len capacity events)) cbs,
          buf).

(** market_state.rs:34-47 [MarketState::from_buffer], with addresses: the tag (u64, line
    38) and the state (alignment 8: three [Pubkey] of alignment 1 and two u64, line 46). *)
Definition market_from_buffer_at (buf : bytes) (expected : N) : res (market_state * bytes) :=
  let? t := read_tag buf in
  let? _ := cast_at 8 base 0 in
  if negb (t =? expected) then Err AccountTagMismatch
  else
    let buf := write_tag tag_market buf in
    let? _ := cast_at 8 base 8 in
    if negb (length (drop 8 buf) =? market_state_len)%nat then Panic PCast
    else Ok (market_state_of_bytes (drop 8 buf), buf).
End At.

(** ** Order ids as two words (off chain) *)

(** critbit.rs:44-45, event_queue.rs:36-38, 56-58: [[u64; 2]]. *)
Definition words : Type := N * N.
(** critbit.rs:68-71 [LeafNode::order_id]: the low word plus the high word shifted. *)
Definition order_id_of_words (k : words) : N := fst k + N.shiftl (snd k) 64.
(** orderbook.rs:199-200, 226-230, 253-254, 294-296, 323-325:
    [[o as u64, (o >> 64) as u64]]. *)
Definition words_of_order_id (o : N) : words := (o mod p64, N.shiftr o 64 mod p64).

(** critbit.rs:38-48 [LeafNode] off chain: two words and the quantity. *)
Record host_leaf := mk_host_leaf { hl_key : words; hl_qty : N }.
Definition host_leaf_of_bytes (b : bytes) : host_leaf :=
  mk_host_leaf (le_dec (slice b 0 8), le_dec (slice b 8 8)) (le_dec (slice b 16 8)).
Definition bytes_of_host_leaf (l : host_leaf) : bytes :=
  le_enc 8 (fst (hl_key l)) ++ le_enc 8 (snd (hl_key l)) ++ le_enc 8 (hl_qty l).

(** event_queue.rs:19-38 [FillEvent] off chain. *)
Record host_fill := mk_host_fill {
  hf_tag : N; hf_taker_side : N; hf_pad : N; hf_quote : N; hf_maker : words; hf_base : N }.
Definition host_fill_of_bytes (b : bytes) : host_fill :=
  mk_host_fill (le_dec (slice b 0 1)) (le_dec (slice b 1 1)) (le_dec (slice b 2 6))
               (le_dec (slice b 8 8)) (le_dec (slice b 16 8), le_dec (slice b 24 8))
               (le_dec (slice b 32 8)).
(** event_queue.rs:45-61 [OutEvent] off chain. *)
Record host_out := mk_host_out {
  ho_tag : N; ho_side : N; ho_pad : N; ho_id : words; ho_base : N }.
Definition host_out_of_bytes (b : bytes) : host_out :=
  mk_host_out (le_dec (slice b 0 1)) (le_dec (slice b 1 1)) (le_dec (slice b 2 14))
              (le_dec (slice b 16 8), le_dec (slice b 24 8)) (le_dec (slice b 32 8)).
(** critbit.rs:267 (off chain): two leaves have the same key when both words agree. *)
Definition words_eqb (k k' : words) : bool := (fst k =? fst k') && (snd k =? snd k').
