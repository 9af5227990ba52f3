(** * CatchSpec.v: following the book from a loaded side (used by C100)

    [replay_entry] (Spec.v, C39) applies one entry of a log to a list of orders: its events,
    its cancellations and the order that it posted. *)
From Verif Require Import Machine Critbit EventQueue OrderBook Market Spec.

Section Catch.
Context {C : Type}.
(** Start with the orders of one side, as loaded, and apply the entries that come after. *)
Definition follow (loaded : list (order C)) (log : list (entry C)) : list (order C) :=
  fold_left replay_entry log loaded.
End Catch.
