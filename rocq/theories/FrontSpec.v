(** * FrontSpec.v: the place of a resting order among those a new order meets (used by C97) *)
From Verif Require Import Machine Critbit EventQueue OrderBook Market Spec.

Section Front.
Context {C : Type}.
(** What a new order sees of a resting order: quantity, price, owner. *)
Definition seen (o : order C) : N * N * C := (o_qty o, id_price (o_id o), o_cb o).
(** [o2] is at least as attractive for a new order of side [sd] as [o1]: the same owner, at
    least the same quantity, at a price that is no higher for a buyer, no lower for a
    seller. *)
Definition as_attractive (sd : side) (o1 o2 : order C) : Prop :=
  o_cb o2 = o_cb o1 /\ o_qty o1 <= o_qty o2 /\
  match sd with
  | Bid => id_price (o_id o2) <= id_price (o_id o1)
  | Ask => id_price (o_id o1) <= id_price (o_id o2)
  end.
End Front.
