(** * WasmSpec.v: the accounts of the older program, which js/wasm reads *)
From Verif Require Import Machine Bytes Critbit EventQueue OrderBook Market Spec Layout.
From Coq Require Import Sorting.Sorted.

(** How the older program writes a node (js/wasm/src/critbit.rs:57-62, 138-156): a tag byte
    and the fields, little-endian.  It has no separate callback array. *)
Definition old_inner_bytes (prefix_len key c0 c1 : N) : bytes :=
  [1] ++ le_enc 4 prefix_len ++ le_enc 16 key ++ le_enc 4 c0 ++ le_enc 4 c1.
Definition old_leaf_bytes (o : order bytes) : bytes :=
  [2] ++ le_enc 16 (o_id o) ++ o_cb o ++ le_enc 8 (o_qty o).
(** The 65 bytes of the header (critbit.rs:193-204). *)
Definition old_header_bytes (tag bump free_len free_head root leaf_count : N) (market : bytes) : bytes :=
  [tag] ++ le_enc 8 bump ++ le_enc 8 free_len ++ le_enc 4 free_head ++ le_enc 4 root ++
  le_enc 8 leaf_count ++ market.

Section Old.
(** An account, the size of a callback info and the size of a slot. *)
Context (data : bytes) (cs slot : nat).

(** Slot [h] lies within the account and begins with [b]. *)
Definition slot_holds (h : N) (b : bytes) : Prop :=
  let off := (65 + N.to_nat h * slot)%nat in
  (off + slot <= length data)%nat /\ (length b <= slot)%nat /\ slice data off (length b) = b.
Definition old_order_ok (o : order bytes) : Prop :=
  o_id o < p128 /\ o_qty o < p64 /\ length (o_cb o) = cs.

(** [old_tree h os]: slot [h] is the root of a tree whose leaves are, from left to right,
    the orders [os], each with the number of its slot. *)
Inductive old_tree : N -> list (N * order bytes) -> Prop :=
| old_tree_leaf h o : slot_holds h (old_leaf_bytes o) -> old_order_ok o -> old_tree h [(h, o)]
| old_tree_inner h prefix_len key c0 c1 os0 os1 :
    slot_holds h (old_inner_bytes prefix_len key c0 c1) ->
    prefix_len < p32 -> key < p128 -> c0 < p32 -> c1 < p32 ->
    old_tree c0 os0 -> old_tree c1 os1 -> old_tree h (os0 ++ os1).

(** [old_book os]: the account holds the orders [os], by increasing id.  It has the tag of
    the bids or of the asks, and fits the memory of a wasm32 machine. *)
Record old_book (os : list (N * order bytes)) : Prop := mk_old_book {
  ob_header : exists tag bump free_len free_head root rest market,
    data = old_header_bytes tag bump free_len free_head root (N.of_nat (length os)) market ++ rest /\
    (tag = 3 \/ tag = 4) /\ length market = 32%nat /\ root < p32 /\ N.of_nat (length os) < p64 /\
    (os = [] \/ old_tree root os);
  ob_sorted : StronglySorted (fun x y => o_id (snd x) < o_id (snd y)) os;
  ob_memory : N.of_nat (length data) < p32;
}.
End Old.

(** Quantity of the first order of [os] at price [p]. *)
Definition first_at {C} (os : list (order C)) (p : N) : N :=
  match List.find (fun o => id_price (o_id o) =? p) os with Some o => o_qty o | None => 0 end.
