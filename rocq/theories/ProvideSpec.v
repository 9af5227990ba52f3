(** * ProvideSpec.v: the own orders that a new order withdraws (used by C91) *)
From Verif Require Import Machine Critbit EventQueue OrderBook Market Spec LadderSpec SplitSpec.

Section Provide.
Context {C : Type} (same_id : C -> C -> bool).
(** The ids of the orders of the other side, best first, that belong to the owner of [p] and
    that are gone afterwards. *)
Definition gone_own (p : params C) (m m' : market C) : list N :=
  map o_id (List.filter (fun o => same_id (p_callback p) (o_cb o) &&
      negb (existsb (N.eqb (o_id o)) (map o_id (resting m' (opposite (p_side p)))))) (facing m (p_side p))).
(** The events that are not about these orders. *)
Definition not_about (ids : list N) (E : list (event_ref C)) : list (event_ref C) :=
  List.filter (fun ev => negb (existsb (N.eqb (event_id ev)) ids)) E.
End Provide.
