(** * InterleaveSpec.v: orders that only take (used by C95) *)
From Verif Require Import Machine Critbit EventQueue OrderBook Market Spec.

Section Interleave.
Context {C : Type}.
(** A new order that is not allowed to join the book. *)
Definition only_takes (o : op C) : Prop := match o with NewOrder p => post_allowed p = false | _ => False end.
Definition is_side (sd : side) (o : op C) : bool :=
  match o, sd with
  | NewOrder p, Bid => match p_side p with Bid => true | Ask => false end
  | NewOrder p, Ask => match p_side p with Ask => true | Bid => false end
  | _, _ => false
  end.
(** The part of a log that is about new orders of one side: requests, answers and events. *)
Definition part (sd : side) (log : list (entry C)) : list (entry C) :=
  List.filter (fun e => is_side sd (en_op e)) log.
Definition granted (e : entry C) : Prop := exists s, en_res e = Ok (Some s).
End Interleave.
