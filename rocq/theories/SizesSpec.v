(** * SizesSpec.v: markets that do not run out of room (C81) *)
From Verif Require Import Machine Critbit EventQueue OrderBook Market Spec DelaySpec.

Section Sizes.
Context {C : Type} (same_id : C -> C -> bool).
(** The same smallest order and tick; at least as much room in each account. *)
Definition roomier (c c' : config C) : Prop :=
  c_min c = c_min c' /\ c_tick c = c_tick c' /\
  (forall sd, (room_for c sd <= room_for c' sd)%nat) /\ (c_events c <= c_events c')%nat.
(** In this history no order that might join a side found that side full, and the event
    queue never was too small. *)
Definition never_short (c : config C) (log : list (entry C)) : Prop :=
  (forall l1 e l2 m sd, log = l1 ++ e :: l2 -> history same_id c l1 m -> may_join sd (en_op e) = true ->
     (length (resting m sd) < room_for c sd)%nat) /\
  Forall (fun e => en_res e <> Err EventQueueFull) log.
End Sizes.
