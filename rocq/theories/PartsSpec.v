(** * PartsSpec.v: buying or selling in parts (used by C86) *)
From Verif Require Import Machine Critbit EventQueue OrderBook Market Spec.

Section Parts.
Context {C : Type}.

(** During [log] nothing happens but new orders of side [sd] and consumption of events. *)
Definition one_sided (sd : side) (log : list (entry C)) : Prop :=
  forall e, e ∈ log ->
  match en_op e with NewOrder p => p_side p = sd | ConsumeEvents _ => True | _ => False end.

(** What was traded during [log], in base and in quote units. *)
Definition log_base (log : list (entry C)) : N := sumN fill_base (flat_map en_events log).
Definition log_quote (log : list (entry C)) : N := sumN fill_quote (flat_map en_events log).

(** The number of orders of the side [sd] that were taken off the book although something
    was left of them: less than the smallest order, or the order of the taker itself. *)
Definition left_over (sd : side) (ev : event_ref C) : bool :=
  match ev with
  | EvOut e _ => (oe_side e =? side_u8 sd) && (0 <? oe_base e)
  | EvFill _ _ _ => false
  end.
Definition leftovers (sd : side) (log : list (entry C)) : N :=
  N.of_nat (length (List.filter (left_over sd) (flat_map en_events log))).

(** What all orders of a side are worth, each rounded up. *)
Definition worth (sd : side) (m : market C) : N :=
  sumN (fun o => quote_amount Bid (o_qty o) (id_price (o_id o))) (resting m sd).
End Parts.
