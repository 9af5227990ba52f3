(** * DataSpec.v: what a slab and an event queue should do (used to state C01-C10)

    The slab is compared with a finite map from order ids to (quantity, callback
    info), the queue with a list. *)
From Coq Require Import Sorting.Sorted.
From stdpp Require Import gmap.
From Verif Require Import Machine Critbit EventQueue.

(** Orders by id: quantity and callback info. *)
Notation omap_t C := (gmap N (N * C)).

Section DataSpec.
Context {C : Type}.

(** ** Slab operations, as the order book performs them on critbit.rs *)
Inductive slab_op :=
| SInsert (k q : N) (c : C)      (* insert_leaf, then *get_callback_info_mut(h) = c *)
| SSetQty (k q : N)              (* find_by_key, then leaf_nodes[h].base_quantity = q *)
| SSetCallback (k : N) (c : C)   (* find_by_key, then *get_callback_info_mut(h) = c *)
| SRemove (k : N).               (* remove_by_key *)

Inductive slab_answer :=
| ANew                           (* a fresh order was inserted *)
| AReplaced (k q : N)            (* the order replaced by the insertion *)
| AUpdated
| AAbsent
| ARemoved (k q : N) (c : C).

Definition slab_exec (o : slab_op) : M (slab C) slab_answer :=
  match o with
  | SInsert k q c =>
      let! r := insert_leaf (mk_leaf k q) in
      do! set_callback_info (fst r) c in
      ret (match snd r with None => ANew | Some l => AReplaced (lf_key l) (lf_qty l) end)
  | SSetQty k q =>
      let! s := get in
      let! r := lift (find_by_key s k) in
      match r with
      | None => ret AAbsent
      | Some h =>
          let! l := lift (idx (leaf_nodes s) h) in
          do! write_leaf h (mk_leaf (lf_key l) q) in ret AUpdated
      end
  | SSetCallback k c =>
      let! s := get in
      let! r := lift (find_by_key s k) in
      match r with
      | None => ret AAbsent
      | Some h => do! set_callback_info h c in ret AUpdated
      end
  | SRemove k =>
      let! r := remove_by_key k in
      ret (match r with None => AAbsent | Some (l, c) => ARemoved (lf_key l) (lf_qty l) c end)
  end.

(** Ids are u128. *)
Definition slab_op_typed (o : slab_op) : Prop :=
  match o with SInsert k _ _ | SSetQty k _ | SSetCallback k _ | SRemove k => k < p128 end.

(** [slab_run z n x log s]: a slab with [n] leaf slots (and [x] unused callback
    slots) starts zeroed and performs the operations of [log], with their answers;
    failed insertions are included, and the state they leave is kept as it is.  A
    panic ends the program, so it does not appear in a run. *)
Inductive slab_run (z : C) (n x : nat) : list (slab_op * res slab_answer) -> slab C -> Prop :=
| sr_nil : slab_run z n x [] (empty_slab z n x)
| sr_snoc log s o r s' :
    slab_run z n x log s -> slab_op_typed o -> slab_exec o s = (r, s') ->
    (forall p, r <> Panic p) ->
    slab_run z n x (log ++ [(o, r)]) s'.

(** ** The same operations on a finite map of bounded size *)
Definition map_exec (n : nat) (o : slab_op) (mp : omap_t C) : res slab_answer * omap_t C :=
  match o with
  | SInsert k q c =>
      match mp !! k with
      | Some (q0, _) => (Ok (AReplaced k q0), <[k := (q, c)]> mp)
      | None =>
          if (size mp <? n)%nat then (Ok ANew, <[k := (q, c)]> mp)
          else (Err SlabOutOfSpace, mp)
      end
  | SSetQty k q =>
      match mp !! k with
      | Some (_, c) => (Ok AUpdated, <[k := (q, c)]> mp)
      | None => (Ok AAbsent, mp)
      end
  | SSetCallback k c =>
      match mp !! k with
      | Some (q, _) => (Ok AUpdated, <[k := (q, c)]> mp)
      | None => (Ok AAbsent, mp)
      end
  | SRemove k =>
      match mp !! k with
      | Some (q, c) => (Ok (ARemoved k q c), delete k mp)
      | None => (Ok AAbsent, mp)
      end
  end.
(** Answers and final map of a list of operations from the empty map. *)
Definition map_run (n : nat) (os : list slab_op) : list (res slab_answer) * omap_t C :=
  fold_left (fun '(rs, mp) o => let '(r, mp') := map_exec n o mp in (rs ++ [r], mp')) os ([], ∅).

(** [shows s mp]: reading the slab [s] gives exactly the orders of [mp]: the
    reference traversal lists them in strictly increasing id order, and the order
    count is right. *)
Definition shows (s : slab C) (mp : omap_t C) : Prop :=
  exists l, traverse s = Ok l /\
    StronglySorted N.lt (map (fun o => lf_key (fst o)) l) /\
    (forall k q c, (mk_leaf k q, c) ∈ l <-> mp !! k = Some (q, c)) /\
    leaf_count (hdr s) = N.of_nat (size mp).

(** Handle [h] designates the order [k], [q], [c]. *)
Definition designates (s : slab C) (h k q : N) (c : C) : Prop :=
  getN (leaf_nodes s) h = Some (mk_leaf k q) /\ getN (callback_infos s) h = Some c.
(** The ids inserted in a run. *)
Definition inserted (log : list (slab_op * res slab_answer)) : list N :=
  omap (fun x => match fst x with SInsert k _ _ => Some k | _ => None end) log.
(** The slab holds exactly one order and the key stored in slot 0 is [k]. *)
Definition stale_slot (s : slab C) (k : N) : Prop :=
  leaf_count (hdr s) = 1 /\ exists q, getN (leaf_nodes s) 0 = Some (mk_leaf k q).

(** ** Queue operations *)
Inductive queue_op :=
| QFill (e : fill_event) (maker taker : C)   (* push_back(fill.to_generic(), Some, Some) *)
| QOut (e : out_event) (cb : C)              (* push_back(out.to_generic(), Some, None) *)
| QPop (n : N)                               (* pop_n *)
| QSeq.                                      (* gen_seq_num *)

Definition queue_exec (o : queue_op) : M (queue C) N :=
  match o with
  | QFill e m t => do! push_back (fill_to_generic e) (Some m) (Some t) in ret 0
  | QOut e c => do! push_back (out_to_generic e) (Some c) None in ret 0
  | QPop n => do! pop_n n in ret 0
  | QSeq => gen_seq_num
  end.

(** Rust types of the fields; the padding bytes are arbitrary. *)
Definition queue_op_typed (o : queue_op) : Prop :=
  match o with
  | QFill e _ _ => fe_taker_side e < 256 /\ fe_pad e < 281474976710656 /\ fe_quote e < p64 /\
      fe_maker_id e < p128 /\ fe_base e < p64
  | QOut e _ => oe_tag e < 256 /\ oe_side e < 256 /\
      oe_pad e < 5192296858534827628530496329220096 /\ oe_id e < p128 /\ oe_base e < p64
  | QPop n => n < p64
  | QSeq => True
  end.

Inductive queue_run (z : C) (n : nat) : list (queue_op * res N) -> queue C -> Prop :=
| qrun_nil : queue_run z n [] (empty_queue z n)
| qrun_snoc log q o r q' :
    queue_run z n log q -> queue_op_typed o -> queue_exec o q = (r, q') ->
    queue_run z n (log ++ [(o, r)]) q'.

(** The same operations on a list of at most [n] events and a counter.  Events are
    seen with the tag of their kind. *)
Definition list_exec (n : nat) (o : queue_op) (st : list (event_ref C) * N)
    : res N * (list (event_ref C) * N) :=
  let '(evs, sq) := st in
  let push ev :=
    if (length evs <? n)%nat then (Ok 0, (evs ++ [ev], sq)) else (Err EventQueueFull, (evs, sq)) in
  match o with
  | QFill e m t => push (EvFill (mk_fill_event tag_fill (fe_taker_side e) (fe_pad e) (fe_quote e)
                                   (fe_maker_id e) (fe_base e)) m t)
  | QOut e c => push (EvOut (mk_out_event tag_out (oe_side e) (oe_pad e) (oe_id e) (oe_base e)) c)
  | QPop k => (Ok 0, (drop (N.to_nat k) evs, sq))
  | QSeq => (Ok sq, (evs, sq + 1))
  end.
Definition list_run (n : nat) (os : list queue_op)
    : list (res N) * (list (event_ref C) * N) :=
  fold_left (fun '(rs, st) o => let '(r, st') := list_exec n o st in (rs ++ [r], st')) os ([], ([], 0)).
End DataSpec.
Global Arguments slab_op : clear implicits.
Global Arguments slab_answer : clear implicits.
Global Arguments queue_op : clear implicits.
