(** * MoreSpec.v: vocabulary of the properties C55-C58 *)
From Verif Require Import Machine Critbit EventQueue OrderBook Market Spec.

Section MoreSpec.
Context {C : Type}.

(** The instructions of a log other than the consumption of events. *)
Definition trading (log : list (entry C)) : list (entry C) :=
  List.filter (fun e => match en_op e with ConsumeEvents _ => false | _ => true end) log.

(** Two markets in which an observer reads the same: orders, waiting events, sequence
    number. *)
Definition same_view (m1 m2 : market C) : Prop :=
  (forall sd, resting m1 sd = resting m2 sd) /\ pending m1 = pending m2 /\
  q_seq (evq (m_book m1)) = q_seq (evq (m_book m2)).
(** The same answer; an absent order may be reported by an error or by the panic of C30. *)
Definition same_answer (r1 r2 : res (option summary)) : Prop :=
  r1 = r2 \/ (r1 = Err OrderNotFound /\ r2 = Panic PIndex) \/
  (r1 = Panic PIndex /\ r2 = Err OrderNotFound).
End MoreSpec.
