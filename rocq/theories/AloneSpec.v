(** * AloneSpec.v: what a group of participants trades with the others (used by C77) *)
From Verif Require Import Machine Critbit EventQueue OrderBook Market Spec.

Section Alone.
Context {C : Type} (mine : C -> bool).

(** All orders placed during [log] are the group's; other instructions are anybody's. *)
Definition only_mine (log : list (entry C)) : Prop :=
  forall e p, e ∈ log -> en_op e = NewOrder p -> mine (p_callback p) = true.

(** A trade in which the taker, on side [taker], met an order of somebody else. *)
Definition with_others (taker : side) (ev : event_ref C) : bool :=
  match ev with
  | EvFill e maker _ => (fe_taker_side e =? match taker with Bid => 0 | Ask => 1 end) && negb (mine maker)
  | EvOut _ _ => false
  end.
Definition trades (taker : side) (log : list (entry C)) : list (event_ref C) :=
  List.filter (with_others taker) (flat_map en_events log).
(** Base units bought from others and the quote units paid for them; base units sold to
    others and the quote units received for them. *)
Definition bought (log : list (entry C)) : N := sumN fill_base (trades Bid log).
Definition paid (log : list (entry C)) : N := sumN fill_quote (trades Bid log).
Definition sold (log : list (entry C)) : N := sumN fill_base (trades Ask log).
Definition received (log : list (entry C)) : N := sumN fill_quote (trades Ask log).
End Alone.
