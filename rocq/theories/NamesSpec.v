(** * NamesSpec.v: arrival numbers are only names (C79)

    Every order that joins the book takes the next arrival number; its id is made of its
    price and that number.  This file says what it means to give the orders of an exchange
    other arrival numbers. *)
From Verif Require Import Machine OrderBook Market Spec ExchangeSpec.

(** [t] gives other numbers to the arrivals before [clock], and to no others. *)
Definition renames (clock : N) (t : N -> N) : Prop :=
  (forall a b, t a = t b -> a = b) /\ (forall a, a < clock -> t a < clock) /\
  (forall a, clock <= a -> t a = a).

(** The same in ids: the lower half is the arrival number, complemented for bids, so it is
    below [2^63] for asks only. *)
Definition rename_id (t : N -> N) (id : N) : N :=
  let low := id mod 2 ^ 64 in
  id / 2 ^ 64 * 2 ^ 64 + if low <? 2 ^ 63 then t low else 2 ^ 64 - 1 - t (2 ^ 64 - 1 - low).

Section Names.
Context {C : Type} (t : N -> N).
Definition rename_order (o : xorder C) : xorder C :=
  mk_xorder (x_price o) (t (x_time o)) (x_size o) (x_owner o).
Definition rename_notice (n : notice C) : notice C :=
  match n with
  | Traded taker maker base quote mo to => Traded taker (rename_id t maker) base quote mo to
  | Removed sd id size owner => Removed sd (rename_id t id) size owner
  end.
(** The orders stay where they are in their lists. *)
Definition rename_exchange (x : exchange C) : exchange C :=
  mk_exchange (map rename_order (x_bids x)) (map rename_order (x_asks x))
    (map rename_notice (x_notices x)) (x_clock x).
Definition rename_op (o : op C) : op C :=
  match o with
  | CancelOrder id => CancelOrder (rename_id t id)
  | MassCancelOrders ids => MassCancelOrders (map (rename_id t) ids)
  | NewOrder _ | ConsumeEvents _ => o
  end.
End Names.

(** Two arrivals in the other order. *)
Definition swap (a b x : N) : N := if x =? a then b else if x =? b then a else x.

(** The same answer, up to the id. *)
Definition same_amounts (s s' : summary) : Prop :=
  total_base_qty s = total_base_qty s' /\ total_quote_qty s = total_quote_qty s' /\
  total_base_qty_posted s = total_base_qty_posted s'.
