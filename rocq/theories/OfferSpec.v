(** * OfferSpec.v: two markets, one with more orders on a side (used by C92) *)
From Verif Require Import Machine Critbit EventQueue OrderBook Market Spec PartsSpec LadderSpec.

Section Offer.
Context {C : Type}.
(** Every order that rests on the side in the first market also rests in the second, with
    the same id and owner and at least the same quantity. *)
Definition more_on_offer (m1 m2 : market C) (sd : side) : Prop :=
  forall o, o ∈ resting m1 sd ->
  exists o', o' ∈ resting m2 sd /\ o_id o' = o_id o /\ o_cb o' = o_cb o /\ o_qty o <= o_qty o'.
(** A sell order (as in C89) that is not limited in quote units: it accepts at least what
    all buyers together offer.  Nothing is asked of a buy order. *)
Definition free_to_sell (m : market C) (p : params C) : Prop :=
  p_side p = Ask -> worth Bid m <= max_quote_qty p.
End Offer.
(** The exact value of some trades, quantity times price, in quote units times [2^32]. *)
Definition exact_value (l : list (N * N)) : N := sumN (fun s => fst s * snd s) l.
