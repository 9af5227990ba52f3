(** * PropsAlone.v: nobody makes a profit by trading alone with the book (C77) *)
From Verif Require Import Machine Critbit EventQueue OrderBook Market Spec AloneSpec AloneProofs HistoryProps ExampleRuns.

(** While only a group of participants places orders (any number of them, on both sides,
    also among themselves, with any cancellations and any consumption of events by
    anybody), what it buys from the others' resting orders costs more than a fixed price,
    and what it sells to them brings at most that price.  Prices are in quote units per
    base unit, times [2^32]. *)
Theorem C77_wrong_side : forall (C : Type) (same_id : C -> C -> bool) (mine : C -> bool) c log0 m0 log m,
  config_ok c -> history same_id c log0 m0 -> steps same_id m0 log m ->
  N.of_nat (length (log0 ++ log)) < p63 -> only_mine mine log ->
  exists price, received mine log * p32 <= sold mine log * price /\
    bought mine log * price <= paid mine log * p32 /\
    (0 < bought mine log -> bought mine log * price < paid mine log * p32).
Proof. intros C same_id mine c log0 m0 log m. apply wrong_side. Qed.

(** So the group cannot end with as many base units and more quote units: if it has not
    sold more than it bought, it has not received more than it paid, and less if it traded
    at all.  No rounding can be exploited. *)
Theorem C77_no_profit : forall (C : Type) (same_id : C -> C -> bool) (mine : C -> bool) c log0 m0 log m,
  config_ok c -> history same_id c log0 m0 -> steps same_id m0 log m ->
  N.of_nat (length (log0 ++ log)) < p63 -> only_mine mine log ->
  sold mine log <= bought mine log ->
  received mine log <= paid mine log /\ (0 < bought mine log -> received mine log < paid mine log).
Proof. intros C same_id mine c log0 m0 log m. apply no_profit. Qed.

(** Others rest at 2.5 and 3; participant 9 buys 20 at 3, sells 11 at 2.5, rests an ask
    at 3 and a bid at 2.5, and sells 9 more. *)
Definition al_mine (cb : N) : bool := cb =? 9.
Definition al_ops0 : list (op N) :=
  [ex_new Ask 50 100000 6 10 1 false true DecrementTake; ex_new Bid 40 100000 5 10 2 false true DecrementTake].
Definition al_ops : list (op N) :=
  [ex_new Bid 20 100000 6 10 9 false true DecrementTake; ex_new Ask 11 100000 5 10 9 false true DecrementTake;
   ex_new Ask 15 100000 6 10 9 false true DecrementTake; ex_new Bid 13 100000 5 10 9 false true DecrementTake;
   ConsumeEvents 3; ex_new Ask 9 100000 5 10 9 false true CancelProvide].
Definition al_m0 : market N := Eval vm_compute in after N.eqb ex_cfg al_ops0.
Definition al_log : list (entry N) := Eval vm_compute in fst (run_log N.eqb al_ops [] al_m0).
Definition al_m : market N := Eval vm_compute in snd (run_log N.eqb al_ops [] al_m0).
Example C77_example :
  history N.eqb ex_cfg (log_of N.eqb ex_cfg al_ops0) al_m0 /\ steps N.eqb al_m0 al_log al_m /\
  only_mine al_mine al_log /\
  (bought al_mine al_log, paid al_mine al_log, sold al_mine al_log, received al_mine al_log) = (20, 60, 20, 49).
Proof.
  split. { change al_m0 with (after N.eqb ex_cfg al_ops0). by apply after_history. }
  split. { change al_log with (fst (run_log N.eqb al_ops [] al_m0)). change al_m with (snd (run_log N.eqb al_ops [] al_m0)).
    apply run_log_steps; [by vm_compute|constructor]. }
  split; [|by vm_compute].
  intros e p He Hp. unfold al_log in He.
  repeat (apply elem_of_cons in He as [->|He]; [cbn in Hp; first [done|by injection Hp as <-]|]). by apply elem_of_nil in He.
Qed.

(** That only the group places orders is needed: when somebody else bids 4 for what the
    group bought at 3, it makes a profit. *)
Definition al_ops2 : list (op N) :=
  [ex_new Bid 50 100000 6 10 9 false true DecrementTake; ex_new Bid 50 100000 8 10 3 false true DecrementTake;
   ex_new Ask 50 100000 8 10 9 false true DecrementTake].
Definition al_log2 : list (entry N) := Eval vm_compute in fst (run_log N.eqb al_ops2 [] al_m0).
Example C77_alone_needed : steps N.eqb al_m0 al_log2 (snd (run_log N.eqb al_ops2 [] al_m0)) /\
  (bought al_mine al_log2, paid al_mine al_log2, sold al_mine al_log2, received al_mine al_log2) = (50, 150, 50, 200).
Proof.
  split. { change al_log2 with (fst (run_log N.eqb al_ops2 [] al_m0)). apply run_log_steps; [by vm_compute|constructor]. }
  by vm_compute.
Qed.

Print Assumptions C77_wrong_side.
Print Assumptions C77_no_profit.
