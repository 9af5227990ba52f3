(** * EventQueue.v: model of program/src/state/event_queue.rs *)
From Verif Require Import Machine Bytes.

(** program/src/state.rs:29-57 [Side], with its [repr(u8)] discriminants. *)
Inductive side := Bid | Ask.
Definition opposite (sd : side) : side := match sd with Bid => Ask | Ask => Bid end.
Definition side_u8 (sd : side) : N := match sd with Bid => 0 | Ask => 1 end.

(** event_queue.rs:93-98 [EventTag] discriminants. *)
Definition tag_fill : N := 0.
Definition tag_out : N := 1.

(** event_queue.rs:19-38 [FillEvent] (= [GenericEvent], line 100).  [fe_pad] is the
    value of the 6 padding bytes. *)
Record fill_event := mk_fill_event {
  fe_tag : N; fe_taker_side : N; fe_pad : N; fe_quote : N; fe_maker_id : N; fe_base : N }.

(** event_queue.rs:45-62 [OutEvent].  [oe_pad] is the value of the 14 padding bytes. *)
Record out_event := mk_out_event {
  oe_tag : N; oe_side : N; oe_pad : N; oe_id : N; oe_base : N }.

(** The [repr(C)] byte images of the two structs (40 bytes each). *)
Definition bytes_of_fill (e : fill_event) : list N :=
  le_enc 1 (fe_tag e) ++ le_enc 1 (fe_taker_side e) ++ le_enc 6 (fe_pad e) ++
  le_enc 8 (fe_quote e) ++ le_enc 16 (fe_maker_id e) ++ le_enc 8 (fe_base e).
Definition fill_of_bytes (b : list N) : fill_event :=
  mk_fill_event (le_dec (slice b 0 1)) (le_dec (slice b 1 1)) (le_dec (slice b 2 6))
                (le_dec (slice b 8 8)) (le_dec (slice b 16 16)) (le_dec (slice b 32 8)).
Definition bytes_of_out (e : out_event) : list N :=
  le_enc 1 (oe_tag e) ++ le_enc 1 (oe_side e) ++ le_enc 14 (oe_pad e) ++
  le_enc 16 (oe_id e) ++ le_enc 8 (oe_base e).
Definition out_of_bytes (b : list N) : out_event :=
  mk_out_event (le_dec (slice b 0 1)) (le_dec (slice b 1 1)) (le_dec (slice b 2 14))
               (le_dec (slice b 16 16)) (le_dec (slice b 32 8)).

(** The fields have their Rust types. *)
Definition fill_typed (e : fill_event) : Prop :=
  fe_tag e < 256 /\ fe_taker_side e < 256 /\ fe_pad e < 281474976710656 /\
  fe_quote e < p64 /\ fe_maker_id e < p128 /\ fe_base e < p64.
Definition out_typed (e : out_event) : Prop :=
  oe_tag e < 256 /\ oe_side e < 256 /\ oe_pad e < 5192296858534827628530496329220096 /\
  oe_id e < p128 /\ oe_base e < p64.

(** event_queue.rs:106-111 [FillEvent::to_generic]. *)
Definition fill_to_generic (e : fill_event) : fill_event :=
  mk_fill_event tag_fill (fe_taker_side e) (fe_pad e) (fe_quote e) (fe_maker_id e) (fe_base e).
(** event_queue.rs:113-118 [OutEvent::to_generic]: set the tag, then
    [bytemuck::cast_ref] to the 40-byte generic event. *)
Definition out_to_generic (e : out_event) : fill_event :=
  fill_of_bytes (bytes_of_out
    (mk_out_event tag_out (oe_side e) (oe_pad e) (oe_id e) (oe_base e))).

Section Queue.
Context {C : Type}.

(** event_queue.rs:64-91 [EventRef], [FillEventRef], [OutEventRef]. *)
Inductive event_ref :=
| EvFill (e : fill_event) (maker_cb taker_cb : C)
| EvOut (e : out_event) (cb : C).

(** event_queue.rs:123-132, 139-147: header and views. *)
Record queue := mk_queue {
  q_head : N;
  q_count : N;
  q_seq : N;
  q_events : list fill_event;
  q_cbs : list C;
}.

Definition q_cap (q : queue) : N := N.of_nat (length (q_events q)).

(** event_queue.rs:245-247 [EventQueue::full]. *)
Definition full (q : queue) : bool := q_count q =? q_cap q.

(** event_queue.rs:178-203 [EventQueue::push_back], on an event already turned
    into a generic event.  Every caller maps the returned event to
    EventQueueFull. *)
Definition push_back (ev : fill_event) (maker taker : option C) : M queue unit :=
  let! q := get in
  if full q then fail EventQueueFull
  else
    let! pos := lift (add_w p64 (q_head q) (q_count q)) in
    if q_cap q =? 0 then panic_with PDivZero
    else
      let i := pos mod q_cap q in
      let! evs := lift (upd (q_events q) i ev) in
      let! cnt := lift (add_w p64 (q_count q) 1) in
      do! put (mk_queue (q_head q) cnt (q_seq q) evs (q_cbs q)) in
      do! (match maker with
           | None => ret tt
           | Some c =>
               let! q := get in
               let! cbs := lift (upd (q_cbs q) (i * 2) c) in
               put (mk_queue (q_head q) (q_count q) (q_seq q) (q_events q) cbs)
           end) in
      match taker with
      | None => ret tt
      | Some c =>
          let! q := get in
          let! cbs := lift (upd (q_cbs q) (i * 2 + 1) c) in
          put (mk_queue (q_head q) (q_count q) (q_seq q) (q_events q) cbs)
      end.

(** event_queue.rs:239-243 [EventQueue::gen_seq_num]. *)
Definition gen_seq_num : M queue N :=
  let! q := get in
  let! s := lift (add_w p64 (q_seq q) 1) in
  do! put (mk_queue (q_head q) (q_count q) s (q_events q) (q_cbs q)) in
  ret (q_seq q).

(** event_queue.rs:229-237 [EventQueue::gen_order_id]. *)
Definition order_id_of (price seq : N) (sd : side) : N :=
  N.lor (N.shiftl price 64) (match sd with Bid => not64 seq | Ask => seq end).
Definition gen_order_id (price : N) (sd : side) : M queue N :=
  let! seq := gen_seq_num in
  ret (order_id_of price seq sd).

(** event_queue.rs:259-272 [EventQueue::get_event]. *)
Definition get_event (q : queue) (i : N) : res event_ref :=
  let? ev := idx (q_events q) i in
  if fe_tag ev =? tag_fill then
    let? m := idx (q_cbs q) (2 * i) in
    let? t := idx (q_cbs q) (2 * i + 1) in
    Ok (EvFill ev m t)
  else if fe_tag ev =? tag_out then
    let? m := idx (q_cbs q) (2 * i) in
    Ok (EvOut (out_of_bytes (bytes_of_fill ev)) m)
  else Panic PUnwrap.

(** event_queue.rs:250-257 [EventQueue::peek_at]. *)
Definition peek_at (q : queue) (index : N) : res (option event_ref) :=
  if q_count q <=? index then Ok None
  else
    if p64 <=? q_head q + index then Panic PUnwrap
    else if q_cap q =? 0 then Panic PDivZero
    else
      let? e := get_event q ((q_head q + index) mod q_cap q) in Ok (Some e).

(** event_queue.rs:275-281 [EventQueue::pop_n]. *)
Definition pop_n (n : N) : M queue unit :=
  let! q := get in
  let capped := N.min (q_count q) n in
  let! cnt := lift (sub_w (q_count q) capped) in
  let! h := lift (add_w p64 (q_head q) capped) in
  if q_cap q =? 0 then panic_with PDivZero
  else put (mk_queue (h mod q_cap q) cnt (q_seq q) (q_events q) (q_cbs q)).

(** event_queue.rs:310-322 [QueueIterator::next], collected: [remaining] counts down
    while [current_index] counts up.  [iter] starts at index 0 with
    [remaining = count] (lines 284-290). *)
Fixpoint iter_from (q : queue) (i : N) (remaining : nat) : res (list event_ref) :=
  match remaining with
  | O => Ok []
  | S r =>
      if q_cap q =? 0 then Panic PDivZero
      else
        let? pos := add_w p64 (q_head q) i in
        let? e := get_event q (pos mod q_cap q) in
        let? rest := iter_from q (i + 1) r in
        Ok (e :: rest)
  end.
Definition queue_iter (q : queue) : res (list event_ref) :=
  iter_from q 0 (N.to_nat (q_count q)).

(** event_queue.rs:293-300 [is_empty], [len]. *)
Definition queue_is_empty (q : queue) : bool := q_count q =? 0.
Definition queue_len (q : queue) : N := q_count q.

(** The queue that [EventQueue::from_buffer] (event_queue.rs:151-174) presents on a
    zeroed account with room for [n] events. *)
Definition zero_fill : fill_event := mk_fill_event 0 0 0 0 0 0.
Definition empty_queue (z : C) (n : nat) : queue :=
  mk_queue 0 0 0 (replicate n zero_fill) (replicate (2 * n) z).

End Queue.
Global Arguments event_ref : clear implicits.
Global Arguments queue : clear implicits.
