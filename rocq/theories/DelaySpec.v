(** * DelaySpec.v: requests that do not concern an order (C80) *)
From Verif Require Import Machine Critbit EventQueue OrderBook Market Spec.

Section Delay.
Context {C : Type}.
(** Request [o] does not concern the order with this id, which rests on side [sd]: a new
    order is on the same side, or its limit price does not reach the order; a cancellation
    names other orders. *)
Definition leaves_alone (sd : side) (id : N) (o : op C) : Prop :=
  match o with
  | NewOrder p =>
      p_side p = sd \/
      match sd with Bid => id_price id < limit_price p | Ask => limit_price p < id_price id end
  | CancelOrder id' => id' <> id
  | MassCancelOrders ids => id ∉ ids
  | ConsumeEvents _ => True
  end.
(** Requests that may add an order to side [sd]. *)
Definition may_join (sd : side) (o : op C) : bool :=
  match o with
  | NewOrder p => post_allowed p && match p_side p, sd with Bid, Bid | Ask, Ask => true | _, _ => false end
  | _ => false
  end.
Definition room_for (c : config C) (sd : side) : nat := match sd with Bid => c_bids c | Ask => c_asks c end.
(** [better sd a b]: on side [sd], the order with id [a] is ahead of the one with id [b]. *)
Definition better (sd : side) (a b : N) : Prop := match sd with Bid => b < a | Ask => a < b end.
End Delay.
