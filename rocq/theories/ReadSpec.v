(** * ReadSpec.v: vocabulary of C59 *)
From Verif Require Import Machine Critbit.

Section ReadSpec.
Context {C : Type}.

(** [at_depth s d h]: node [h] is reached from the root through [d] nodes, [h] included. *)
Inductive at_depth (s : slab C) : N -> N -> Prop :=
| at_root : leaf_count (hdr s) <> 0 -> at_depth s 1 (root_node (hdr s))
| at_child d h n (right : bool) :
    at_depth s d h -> is_inner h = true -> idx (inner_nodes s) (not32 h) = Ok n ->
    at_depth s (d + 1) (if right then in_c1 n else in_c0 n).

(** [tree_depth s d]: [d] is the number of nodes on the longest path from the root to an
    order, 0 without orders. *)
Definition tree_depth (s : slab C) (d : N) : Prop :=
  if leaf_count (hdr s) =? 0 then d = 0
  else (exists h, at_depth s d h /\ is_inner h = false) /\ (forall d' h, at_depth s d' h -> d' <= d).
End ReadSpec.
