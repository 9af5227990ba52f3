(** * BestSpec.v: other ways to take the same quantity (used by C87) *)
From Verif Require Import Machine Critbit EventQueue OrderBook Market Spec.

Section Best.
Context {C : Type} (same_id : C -> C -> bool).

(** A way to take [base] units from the orders that the new order [p] meets: from each
    order at most what it has, and nothing from own orders if those are withdrawn. *)
Record way (m : market C) (p : params C) (base : N) (t : order C -> N) : Prop := mk_way {
  w_size : forall o, o ∈ resting m (opposite (p_side p)) -> t o <= o_qty o;
  w_own : stb p = CancelProvide ->
    forall o, o ∈ resting m (opposite (p_side p)) -> same_id (p_callback p) (o_cb o) = true -> t o = 0;
  w_sum : sumN t (resting m (opposite (p_side p))) = base;
}.
(** The exact value, in quote units times [2^32], of a way and of what was traded. *)
Definition way_value (m : market C) (sd : side) (t : order C -> N) : N :=
  sumN (fun o => t o * id_price (o_id o)) (resting m sd).
Definition fills_value (E : list (event_ref C)) : N := sumN (fun ev => fill_base ev * id_price (event_id ev)) E.
Definition fills (E : list (event_ref C)) : N := N.of_nat (length (List.filter is_fill E)).
End Best.
