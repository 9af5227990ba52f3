(** * WaitSpec.v: a stretch of the log in which nobody joins a side (used by C96) *)
From Verif Require Import Machine Critbit EventQueue OrderBook Market Spec.

Section Wait.
Context {C : Type}.
(** No instruction of the log has left a new order on the side.  (What it may contain: orders
    that trade, orders that join the other side, cancellations, consumed events, failures.) *)
Definition nobody_joins (sd : side) (log : list (entry C)) : Prop :=
  forall e id, e ∈ log -> posted_id e = Some id -> side_of_id id <> sd.
End Wait.
