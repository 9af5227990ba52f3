(** * CheckSpec.v: what a slab that passes its self-check should offer (used to state C58)

    Nothing here refers to how the tree is laid out: a slab "reads as" a list of orders
    when every read of the API answers as a sorted list of orders would. *)
From Coq Require Import Sorting.Sorted.
From stdpp Require Import list.
From Verif Require Import Machine Critbit.

Section CheckSpec.
Context {C : Type}.

(** The fields of a slab are of the widths critbit.rs:26-110 gives them, and there is
    room for the callback information of every slot. *)
Definition slab_typed (s : slab C) : Prop :=
  root_node (hdr s) < p32 /\
  Forall (fun l => lf_key l < p128) (leaf_nodes s) /\
  Forall (fun n => in_key n < p128 /\ in_plen n < p64 /\ in_c0 n < p32 /\ in_c1 n < p32) (inner_nodes s) /\
  (length (leaf_nodes s) <= length (callback_infos s))%nat.

(** A slab reads as the orders [os]: sorted by id, no id twice, as many as the header
    says; each search finds exactly the orders of the list; the traversal, both
    iterations and both extremes are those of the list. *)
Definition reads_as (s : slab C) (os : list (leaf * C)) : Prop :=
  StronglySorted N.lt (map (fun o => lf_key (fst o)) os) /\
  leaf_count (hdr s) = N.of_nat (length os) /\
  traverse s = Ok os /\
  iterate s true = Ok (map fst os) /\
  iterate s false = Ok (rev (map fst os)) /\
  (forall k, k < p128 ->
     (exists h l c, find_by_key s k = Ok (Some h) /\ getN (leaf_nodes s) h = Some l /\
        getN (callback_infos s) h = Some c /\ lf_key l = k /\ (l, c) ∈ os) \/
     (find_by_key s k = Ok None /\ k ∉ map (fun o => lf_key (fst o)) os)) /\
  match os with
  | [] => find_min s = Ok None /\ find_max s = Ok None
  | (l, _) :: _ =>
      exists h h' l', find_min s = Ok (Some h) /\ getN (leaf_nodes s) h = Some l /\
        find_max s = Ok (Some h') /\ getN (leaf_nodes s) h' = Some l' /\
        fst <$> last os = Some l'
  end.
End CheckSpec.
