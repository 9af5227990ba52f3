(** * MoveSpec.v: instructions that take nothing from a side (used by C98) *)
From Verif Require Import Machine Critbit EventQueue OrderBook Market Spec.

Section Move.
Context {C : Type}.
(** An instruction that takes nothing from side [sd]: it fails, or consumes events, or is a
    new order of the same side. *)
Definition leaves_alone (sd : side) (e : entry C) : Prop :=
  is_ok (en_res e) = true ->
  match en_op e with
  | NewOrder p => p_side p = sd
  | ConsumeEvents _ => True
  | CancelOrder _ | MassCancelOrders _ => False
  end.
(** The price of a new order. *)
Definition asks_price (e : entry C) (price : N) : Prop :=
  exists p, en_op e = NewOrder p /\ limit_price p = price.
End Move.
