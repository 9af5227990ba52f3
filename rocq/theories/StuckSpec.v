(** * StuckSpec.v: orders worth less than one quote unit (used by C88) *)
From Verif Require Import Machine Critbit EventQueue OrderBook Market Spec.

Section Stuck.
Context {C : Type}.
(** What is left of the order is worth less than one quote unit at its price. *)
Definition worthless (o : order C) : Prop := o_qty o * id_price (o_id o) < 2 ^ 32.
(** [o] is the first order of its side. *)
Definition first (m : market C) (sd : side) (o : order C) : Prop :=
  o ∈ resting m sd /\ forall o', o' ∈ resting m sd -> o' <> o -> ahead sd (o_id o) (o_id o').
(** Order [id] left the book without being cancelled or dealt with: it was evicted. *)
Definition evicted (id : N) (log : list (entry C)) : Prop :=
  exists ev, ev ∈ events_about id log /\ is_fill ev = false.
End Stuck.
