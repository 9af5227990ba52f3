(** * ReachSpec.v: the orders within reach of a new order (used by C90)

    [view], [notice_of] and [answer_of] read a market as an exchange (ExchangeSpec.v). *)
From Verif Require Import Machine Critbit EventQueue OrderBook Market Spec LadderSpec ExchangeSpec.

Section Reach.
Context {C : Type}.
(** The orders of the other side that are within the limit price, best first, as many as
    the match limit allows to meet. *)
Definition reach (m : market C) (p : params C) : list (order C) :=
  take (N.to_nat (match_limit p)) (List.filter (within_limit p) (facing m (p_side p))).
(** There is room for another order on a side. *)
Definition has_room (c : config C) (m : market C) (sd : side) : Prop :=
  (length (resting m sd) < capacity c sd)%nat.
(** Two summaries that may differ in the id of the posted order, but not in its price. *)
Definition same_summary (s s' : summary) : Prop :=
  total_base_qty s = total_base_qty s' /\ total_quote_qty s = total_quote_qty s' /\
  total_base_qty_posted s = total_base_qty_posted s' /\
  option_map id_price (posted_order_id s) = option_map id_price (posted_order_id s').
(** A new order [p] answered alike in two markets: refused for the same reason, or accepted
    with the same amounts and, when the next ids are the same, the same id; the same events;
    and the other side ends with the same orders in front of those that it did not reach. *)
Definition alike (p : params C) (m1 : market C) (r1 : res (option summary)) (m1' m2 : market C) (r2 : res (option summary)) (m2' : market C) : Prop :=
  match r1, r2 with
  | Ok (Some s1), Ok (Some s2) =>
      same_summary s1 s2 /\ (x_clock (view m1) = x_clock (view m2) -> s1 = s2) /\
      map notice_of (emitted m1 m1') = map notice_of (emitted m2 m2') /\
      exists met, forall m m', (m = m1 /\ m' = m1') \/ (m = m2 /\ m' = m2') ->
        x_side (view m') (opposite (p_side p)) = met ++ drop (length (reach m p)) (x_side (view m) (opposite (p_side p)))
  | Ok (Some _), _ | _, Ok (Some _) => False
  | _, _ => answer_of r1 = answer_of r2
  end.
End Reach.
