(** * WasmTreeSpec.v: the slabs of the older program, with their free slots

    WasmSpec.v says what a reader needs; here is the whole structure that a writer keeps:
    the tree, the chain of free slots, and the slots handed out but not linked. *)
From Verif Require Import Machine Bytes Critbit EventQueue OrderBook Market Spec Layout Wasm WasmSpec WasmTree.
From Coq Require Import Sorting.Sorted.

(** A crit-bit tree, each node with the number of its slot. *)
Inductive otree :=
| OLeaf (h : N) (o : order bytes)
| OInner (h prefix_len key : N) (l r : otree).
Definition oroot (t : otree) : N := match t with OLeaf h _ | OInner h _ _ _ _ => h end.
Fixpoint oslots (t : otree) : list N :=
  match t with OLeaf h _ => [h] | OInner h _ _ l r => h :: oslots l ++ oslots r end.
(** The orders from left to right, each with its slot. *)
Fixpoint oleaves (t : otree) : list (N * order bytes) :=
  match t with OLeaf h o => [(h, o)] | OInner _ _ _ l r => oleaves l ++ oleaves r end.
Definition oorders (t : otree) : list (order bytes) := map snd (oleaves t).
Definition okeys (t : otree) : list N := map o_id (oorders t).

(** The tree is stored in the account. *)
Fixpoint ostored (data : bytes) (cs slot : nat) (t : otree) : Prop :=
  match t with
  | OLeaf h o => slot_holds data slot h (old_leaf_bytes o) /\ old_order_ok cs o
  | OInner h prefix_len key l r =>
      slot_holds data slot h (old_inner_bytes prefix_len key (oroot l) (oroot r)) /\ key < p128 /\
      ostored data cs slot l /\ ostored data cs slot r
  end.
(** The crit-bit order: below an inner node of prefix length [n] all ids begin with the
    [n] bits of its key, and continue with 0 on the left and 1 on the right; prefix
    lengths grow on the way down. *)
Definition same_prefix (n a b : N) : Prop := forall i, 128 - n <= i -> N.testbit a i = N.testbit b i.
Fixpoint oshape (low : N) (t : otree) : Prop :=
  match t with
  | OLeaf _ _ => True
  | OInner _ n key l r =>
      low <= n < 128 /\
      (forall k, k ∈ okeys l -> same_prefix n k key /\ N.testbit k (127 - n) = false) /\
      (forall k, k ∈ okeys r -> same_prefix n k key /\ N.testbit k (127 - n) = true) /\
      oshape (n + 1) l /\ oshape (n + 1) r
  end.
(** The chain of free slots: each names the next one; the last is marked. *)
Fixpoint ofree (data : bytes) (slot : nat) (head : N) (free : list N) : Prop :=
  match free with
  | [] => True
  | h :: free =>
      h = head /\
      match free with
      | [] => exists x, slot_holds data slot h ([4] ++ le_enc 4 x)
      | h' :: _ => slot_holds data slot h ([3] ++ le_enc 4 h') /\ ofree data slot h' free
      end
  end.

(** [old_slab s os free loose]: the slab [s] holds the orders [os]; its free slots are
    [free], in the order in which they will be reused; [loose] are the slots that were
    handed out and are not part of the tree. *)
Record old_slab (s : w_slab) (os : list (order bytes)) (free loose : list N) : Prop := mk_old_slab {
  sl_room : N.of_nat (ws_cs s) + 25 <= ws_slot s /\ 32 <= ws_slot s;
  sl_memory : N.of_nat (length (ws_buffer s)) < p32;
  sl_used : 65 + wh_bump (ws_header s) * ws_slot s <= N.of_nat (length (ws_buffer s));
  sl_header : wh_tag (ws_header s) < 5 /\ length (wh_market (ws_header s)) = 32%nat /\
    wh_root (ws_header s) < p32 /\ wh_free_head (ws_header s) < p32;
  sl_count : wh_leaf_count (ws_header s) = N.of_nat (length os);
  sl_free_len : wh_free_len (ws_header s) = N.of_nat (length free);
  sl_free : ofree (ws_buffer s) (N.to_nat (ws_slot s)) (wh_free_head (ws_header s)) free;
  sl_tree : exists slots,
    (os = [] /\ slots = [] \/
     exists t, os = oorders t /\ slots = oslots t /\ oroot t = wh_root (ws_header s) /\
       ostored (ws_buffer s) (ws_cs s) (N.to_nat (ws_slot s)) t /\ oshape 0 t) /\
    NoDup (slots ++ free ++ loose) /\
    (forall h, h ∈ slots ++ free ++ loose <-> h < wh_bump (ws_header s));
}.

(** What no operation changes. *)
Definition same_account (s s' : w_slab) : Prop :=
  wh_tag (ws_header s') = wh_tag (ws_header s) /\ wh_market (ws_header s') = wh_market (ws_header s) /\
  length (ws_buffer s') = length (ws_buffer s) /\ ws_cs s' = ws_cs s /\ ws_slot s' = ws_slot s.
(** A node that fits a slot: its callback info has the size of the market, its numbers the
    size of their types. *)
Definition node_fits (s : w_slab) (n : w_node) : Prop :=
  match n with
  | WUninitialized => True
  | WInner n => wi_plen n < p32 /\ wi_key n < p128 /\ wi_c0 n < p32 /\ wi_c1 n < p32
  | WLeaf l => wl_key l < p128 /\ wl_qty l < p64 /\ length (wl_cb l) = ws_cs s
  | WFree next | WLastFree next => next < p32
  end.
(** Slot [x] contains the same in both slabs. *)
Definition slot_kept (s s' : w_slab) (x : N) : Prop :=
  forall b, slot_holds (ws_buffer s) (N.to_nat (ws_slot s)) x b -> slot_holds (ws_buffer s') (N.to_nat (ws_slot s)) x b.
(** The operations that write. *)
Inductive w_op :=
| OpRemove (k : N) | OpRemoveExtreme (find_max : bool) | OpInsert (val : w_node) | OpWriteHeader.
Definition w_run_op (fuel : nat) (op : w_op) : M w_slab unit :=
  match op with
  | OpRemove k => let! _ := w_remove_by_key fuel k in ret tt
  | OpRemoveExtreme find_max => let! _ := w_remove_extreme fuel find_max in ret tt
  | OpInsert val => let! _ := w_insert val in ret tt
  | OpWriteHeader => w_write_header
  end.
Fixpoint w_run (fuel : nat) (ops : list w_op) : M w_slab unit :=
  match ops with [] => ret tt | op :: ops => do! w_run_op fuel op in w_run fuel ops end.
