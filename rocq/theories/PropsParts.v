(** * PropsParts.v: splitting an order does not pay (C86) *)
From Verif Require Import Machine Critbit EventQueue OrderBook Market Spec PartsSpec PartsProofs
  ExampleRuns PropsMarket PropsOrder.
From Coq Require Import ZifyBool ZifyNat ZifyN.

(** Market [m] once takes the single buy order [p], and once any series [log] of requests
    of which all orders are buy orders, of anybody, at any prices and limits, accepted or
    refused, with events consumed in between.  If both buy the same number of base units,
    the single order pays at most what the series pays, plus one quote unit for each sell
    order that the series made leave the book with something left of it. *)
Theorem C86_buy : forall (C : Type) (same_id : C -> C -> bool) c log0 m log m' p sm m1,
  config_ok c -> history same_id c log0 m -> steps same_id m log m' ->
  N.of_nat (length (log0 ++ log)) < p63 -> one_sided Bid log ->
  accepted same_id c m p sm m1 -> p_side p = Bid -> stb p <> CancelProvide ->
  sumN fill_base (emitted m m1) = log_base log ->
  sumN fill_quote (emitted m m1) <= log_quote log + leftovers Ask log.
Proof.
  intros C same_id c log0 m log m' p sm m1 Hc Hh Hs Hl Ho Ha Hp Hstb Hb.
  rewrite <- Hp in Ho. pose proof (in_parts _ _ _ _ _ _ _ _ _ Hc Hh Hs Hl Ho Ha Hstb ltac:(by rewrite Hp) Hb) as H.
  by rewrite Hp in H.
Qed.
(** The same for selling: the series receives at most one quote unit more for each buy
    order that it made leave the book with something left.  The single order must not be
    limited in its quote units. *)
Theorem C86_sell : forall (C : Type) (same_id : C -> C -> bool) c log0 m log m' p sm m1,
  config_ok c -> history same_id c log0 m -> steps same_id m log m' ->
  N.of_nat (length (log0 ++ log)) < p63 -> one_sided Ask log ->
  accepted same_id c m p sm m1 -> p_side p = Ask -> stb p <> CancelProvide ->
  worth Bid m <= max_quote_qty p ->
  sumN fill_base (emitted m m1) = log_base log ->
  log_quote log <= sumN fill_quote (emitted m m1) + leftovers Bid log.
Proof.
  intros C same_id c log0 m log m' p sm m1 Hc Hh Hs Hl Ho Ha Hp Hstb Hw Hb.
  rewrite <- Hp in Ho. pose proof (in_parts _ _ _ _ _ _ _ _ _ Hc Hh Hs Hl Ho Ha Hstb ltac:(done) Hb) as H.
  by rewrite Hp in H.
Qed.

(** ** The bounds are reached *)
Ltac sided := intros e He;
  repeat (apply elem_of_cons in He as [->|He]; [cbn; first [done|by vm_compute]|]); by apply elem_of_nil in He.

(** Two sellers at 0.5 ask 21 and 20.  Buying 20 and then 2 costs 10 + 1: what is left of
    the first seller after the first part, 1, is less than the smallest order and leaves
    the book.  Buying 22 at once costs 11 + 1. *)
Definition pt_asks : list (op N) :=
  [ex_new Ask 21 1000 1 10 1 false true DecrementTake; ex_new Ask 20 1000 1 10 2 false true DecrementTake].
Definition pt_m : market N := Eval vm_compute in after N.eqb ex_cfg pt_asks.
Definition pt_buys : list (op N) :=
  [ex_new Bid 20 1000 1 10 3 false false DecrementTake; ConsumeEvents 1; ex_new Bid 2 1000 1 10 3 false false DecrementTake].
Definition pt_log : list (entry N) := Eval vm_compute in fst (run_log N.eqb pt_buys [] pt_m).
Definition pt_end : market N := Eval vm_compute in snd (run_log N.eqb pt_buys [] pt_m).
Definition pt_p : params N := mk_params 22 1000 2147483648 Bid 10 3 false false DecrementTake.
Definition pt_m1 : market N := Eval vm_compute in snd (exec N.eqb (NewOrder pt_p) pt_m).
Example C86_buy_example : exists sm,
  history N.eqb ex_cfg (log_of N.eqb ex_cfg pt_asks) pt_m /\ steps N.eqb pt_m pt_log pt_end /\
  one_sided Bid pt_log /\ accepted N.eqb ex_cfg pt_m pt_p sm pt_m1 /\
  (sumN fill_base (emitted pt_m pt_m1), log_base pt_log) = (22, 22) /\
  (sumN fill_quote (emitted pt_m pt_m1), log_quote pt_log, leftovers Ask pt_log) = (12, 11, 1).
Proof.
  eexists. split. { change pt_m with (after N.eqb ex_cfg pt_asks). by apply after_history. }
  split. { change pt_log with (fst (run_log N.eqb pt_buys [] pt_m)). change pt_end with (snd (run_log N.eqb pt_buys [] pt_m)).
    apply run_log_steps; [by vm_compute|constructor]. }
  split. { unfold pt_log. sided. }
  split; [|by vm_compute]. split; [|split; [apply op_typedb_ok; by vm_compute|vm_compute; reflexivity]].
  change pt_m with (after N.eqb ex_cfg pt_asks). apply after_reachable; [exact ex_cfg_ok|by vm_compute..].
Qed.
(** Two buyers at 0.5 bid for 21 and 20: 20 and then 4 bring 10 + 2, 24 at once 10 + 1. *)
Definition pt_bids : list (op N) :=
  [ex_new Bid 21 1000 1 10 1 false true DecrementTake; ex_new Bid 20 1000 1 10 2 false true DecrementTake].
Definition pt_mb : market N := Eval vm_compute in after N.eqb ex_cfg pt_bids.
Definition pt_sells : list (op N) :=
  [ex_new Ask 20 1000 1 10 3 false false DecrementTake; ex_new Ask 4 1000 1 10 4 false false DecrementTake].
Definition pt_logb : list (entry N) := Eval vm_compute in fst (run_log N.eqb pt_sells [] pt_mb).
Definition pt_endb : market N := Eval vm_compute in snd (run_log N.eqb pt_sells [] pt_mb).
Definition pt_pb : params N := mk_params 24 1000 2147483648 Ask 10 3 false false DecrementTake.
Definition pt_mb1 : market N := Eval vm_compute in snd (exec N.eqb (NewOrder pt_pb) pt_mb).
Example C86_sell_example : exists sm,
  history N.eqb ex_cfg (log_of N.eqb ex_cfg pt_bids) pt_mb /\ steps N.eqb pt_mb pt_logb pt_endb /\
  one_sided Ask pt_logb /\ accepted N.eqb ex_cfg pt_mb pt_pb sm pt_mb1 /\
  worth Bid pt_mb <= max_quote_qty pt_pb /\
  (sumN fill_base (emitted pt_mb pt_mb1), log_base pt_logb) = (24, 24) /\
  (log_quote pt_logb, sumN fill_quote (emitted pt_mb pt_mb1), leftovers Bid pt_logb) = (12, 11, 1).
Proof.
  eexists. split. { change pt_mb with (after N.eqb ex_cfg pt_bids). by apply after_history. }
  split. { change pt_logb with (fst (run_log N.eqb pt_sells [] pt_mb)). change pt_endb with (snd (run_log N.eqb pt_sells [] pt_mb)).
    apply run_log_steps; [by vm_compute|constructor]. }
  split. { unfold pt_logb. sided. }
  split; [|split; [by vm_compute|by vm_compute]]. split; [|split; [apply op_typedb_ok; by vm_compute|vm_compute; reflexivity]].
  change pt_mb with (after N.eqb ex_cfg pt_bids). apply after_reachable; [exact ex_cfg_ok|by vm_compute..].
Qed.

(** So "splitting never pays at all" is false of the program. *)
Theorem C86_never_pays_refuted : ~ forall (C : Type) (same_id : C -> C -> bool) c log0 m log m' p sm m1,
  config_ok c -> history same_id c log0 m -> steps same_id m log m' ->
  N.of_nat (length (log0 ++ log)) < p63 -> one_sided Bid log ->
  accepted same_id c m p sm m1 -> p_side p = Bid -> stb p <> CancelProvide ->
  sumN fill_base (emitted m m1) = log_base log ->
  sumN fill_quote (emitted m m1) <= log_quote log.
Proof.
  intros H. destruct C86_buy_example as (sm&Hh&Hs&Ho&Ha&_).
  specialize (H N N.eqb ex_cfg _ _ _ _ _ _ _ ex_cfg_ok Hh Hs ltac:(by vm_compute) Ho Ha eq_refl ltac:(done) ltac:(by vm_compute)).
  apply N.leb_le in H. by vm_compute in H.
Qed.

(** A sell order limited in its quote units may trade with one buy order in several
    pieces, each rounded down: 5 quote units at 1.75 are 2 units for 3, then 1 for 1;
    three units in an order without that limit bring 5, and nothing is left over. *)
Definition pt_ops3 : list (op N) := [ex_new2 Bid 20 1000 28 2 true].
Definition pt_m3 : market N := Eval vm_compute in after N.eqb ex_cfg2 pt_ops3.
Definition pt_sells3 : list (op N) := [ex_new2 Ask 3 1000 28 3 false].
Definition pt_log3 : list (entry N) := Eval vm_compute in fst (run_log N.eqb pt_sells3 [] pt_m3).
Definition pt_end3 : market N := Eval vm_compute in snd (run_log N.eqb pt_sells3 [] pt_m3).
Definition pt_p3 : params N := mk_params 3 5 (28 * 268435456) Ask 10 3 false false DecrementTake.
Definition pt_m31 : market N := Eval vm_compute in snd (exec N.eqb (NewOrder pt_p3) pt_m3).
Theorem C86_limited_sell_refuted : ~ forall (C : Type) (same_id : C -> C -> bool) c log0 m log m' p sm m1,
  config_ok c -> history same_id c log0 m -> steps same_id m log m' ->
  N.of_nat (length (log0 ++ log)) < p63 -> one_sided Ask log ->
  accepted same_id c m p sm m1 -> p_side p = Ask -> stb p <> CancelProvide ->
  sumN fill_base (emitted m m1) = log_base log ->
  log_quote log <= sumN fill_quote (emitted m m1) + leftovers Bid log.
Proof.
  intros H. assert (Hcfg : config_ok ex_cfg2) by (unfold config_ok; cbn; lia).
  assert (Hh : history N.eqb ex_cfg2 (log_of N.eqb ex_cfg2 pt_ops3) pt_m3).
  { change pt_m3 with (after N.eqb ex_cfg2 pt_ops3). by apply after_history. }
  assert (Hs : steps N.eqb pt_m3 pt_log3 pt_end3).
  { change pt_log3 with (fst (run_log N.eqb pt_sells3 [] pt_m3)). change pt_end3 with (snd (run_log N.eqb pt_sells3 [] pt_m3)).
    apply run_log_steps; [by vm_compute|constructor]. }
  assert (Ho : one_sided Ask pt_log3) by (unfold pt_log3; sided).
  assert (Ha : exists sm, accepted N.eqb ex_cfg2 pt_m3 pt_p3 sm pt_m31).
  { eexists. split; [|split; [apply op_typedb_ok; by vm_compute|vm_compute; reflexivity]].
    change pt_m3 with (after N.eqb ex_cfg2 pt_ops3). apply after_reachable; [exact Hcfg|by vm_compute..]. }
  destruct Ha as (sm&Ha).
  specialize (H N N.eqb ex_cfg2 _ _ _ _ _ _ _ Hcfg Hh Hs ltac:(by vm_compute) Ho Ha eq_refl ltac:(done) ltac:(by vm_compute)).
  apply N.leb_le in H. by vm_compute in H.
Qed.

Print Assumptions C86_buy.
Print Assumptions C86_sell.
Print Assumptions C86_never_pays_refuted.
Print Assumptions C86_limited_sell_refuted.
