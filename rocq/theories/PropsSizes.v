(** * PropsSizes.v: the sizes of the accounts matter only when they run out (C81) *)
From Verif Require Import Machine Critbit EventQueue OrderBook Market Spec MarketProofs MarketFacts HistoryProps
  ExchangeSpec ExchangeProofs NamesProofs DelaySpec DelayProofs SizesSpec ExampleRuns PropsExchange PropsNames PropsDelay.
From Coq Require Import ZifyBool ZifyNat ZifyN.

Section Rules.
Context {C : Type} (same_id : C -> C -> bool) (r r' : rules).

Lemma trade_min (p : params C) : r_min r = r_min r' -> forall n base quote os,
  trade same_id r' p n base quote os = trade same_id r p n base quote os.
Proof.
  intros E. induction n as [|n IH]; intros base quote os; [done|]. destruct os as [|o os]; [done|].
  cbn [trade]. rewrite !IH, E. done.
Qed.
Lemma rule_roomier o (x : exchange C) : r_min r = r_min r' -> r_tick r = r_tick r' ->
  (r_bids r <= r_bids r')%nat -> (r_asks r <= r_asks r')%nat -> (r_room r <= r_room r')%nat ->
  (forall sd, may_join sd o = true -> (length (x_side x sd) < match sd with Bid => r_bids r | Ask => r_asks r end)%nat) ->
  fst (rule same_id r o x) <> NoRoom -> rule same_id r' o x = rule same_id r o x.
Proof.
  intros Em Et Hb Ha He Hroom. destruct o as [p|id|ids|n]; try done. cbn [rule may_join] in *.
  unfold new_order_rule. rewrite <- Et. destruct (negb _ || _); [done|].
  rewrite (trade_min p Em). destruct (trade same_id r p _ _ _ _) as [n1 [[[[base quote] makers] free]|]].
  2:{ destruct (Nat.leb_spec (length (x_notices x) + length n1) (r_room r)); [|done]. intros _.
      destruct (Nat.leb_spec (length (x_notices x) + length n1) (r_room r')); [done|lia]. }
  assert (Ep : (if free then post_rest r' p (x_clock x) base quote (x_side x (p_side p)) else ([], None, x_side x (p_side p), x_clock x)) =
    (if free then post_rest r p (x_clock x) base quote (x_side x (p_side p)) else ([], None, x_side x (p_side p), x_clock x))).
  { destruct free; [|done]. unfold post_rest. rewrite <- Em. destruct (post_allowed p) eqn:Epa; [|done]. cbn [negb orb].
    destruct (_ <? r_min r); [done|]. specialize (Hroom (p_side p)). cbn [andb] in Hroom.
    assert (Hr : (length (x_side x (p_side p)) < side_room r p)%nat) by (unfold side_room; revert Hroom; destruct (p_side p); intros H; by apply H).
    assert (Hr' : (side_room r p <= side_room r' p)%nat) by (unfold side_room; by destruct (p_side p)).
    destruct (Nat.ltb_spec (length (x_side x (p_side p))) (side_room r p)); [|lia].
    destruct (Nat.ltb_spec (length (x_side x (p_side p))) (side_room r' p)); [done|lia]. }
  rewrite Ep. destruct (if free then post_rest r p (x_clock x) base quote (x_side x (p_side p)) else ([], None, x_side x (p_side p), x_clock x)) as [[[n2 posted] own] clock].
  destruct (Nat.leb_spec (length (x_notices x) + length (n1 ++ n2)) (r_room r)); [|cbn; congruence]. intros _.
  destruct (Nat.leb_spec (length (x_notices x) + length (n1 ++ n2)) (r_room r')); [done|lia].
Qed.
End Rules.

(** Take a market that never runs out of room: no order finds its side full and no event
    finds the queue full.  A market with larger accounts (and whatever spare bytes at their
    end) gives the same answers and the same ids to the same requests, and has the same
    orders and the same waiting events at the end. *)
Theorem C81_sizes : forall (C : Type) (same_id : C -> C -> bool) c c' log m,
  config_ok c -> config_ok c' -> roomier c c' ->
  history same_id c log m -> N.of_nat (length log) < p63 -> never_short same_id c log ->
  exists log' m', history same_id c' log' m' /\ map en_op log' = map en_op log /\
    map (fun e => answer_of (en_res e)) log' = map (fun e => answer_of (en_res e)) log /\
    view m' = view m.
Proof.
  intros C same_id c c' log m Hc Hc' (Em&Et&Hsd&Hev) Hh.
  induction Hh as [|log m o r m1 Hh IH Hty He]; intros Hl [Hf Hq].
  { exists [], (init_market c'). split_and!; [constructor|done..|]. by rewrite !view_init. }
  rewrite app_length in Hl. cbn [length] in Hl. apply Forall_app in Hq as [Hq Hq1]. apply Forall_cons in Hq1 as [Hq1 _]. cbn [en_res] in Hq1.
  destruct IH as (log'&m'&Hh'&Hop&Hans&Hv); [lia| |].
  { split; [|done]. intros l1 e l2 m0 sd E. apply (Hf l1 e (l2 ++ [mk_entry o r (emitted m m1)]) m0 sd). by rewrite E, <- app_assoc. }
  assert (Hl2 : length log' = length log).
  { apply (f_equal length) in Hop. by rewrite !map_length in Hop. }
  assert (Rm : reachable same_id c m) by (split; [done|]; exists log; split; [done|lia]).
  assert (Rn : reachable same_id c' m') by (split; [done|]; exists log'; split; [done|lia]).
  destruct (exec same_id o m') as [r' m1'] eqn:He'.
  destruct (view_step _ _ _ _ _ _ Rm Hty He) as (a&Ha&Hrule).
  destruct (view_step _ _ _ _ _ _ Rn Hty He') as (a'&Ha'&Hrule').
  rewrite Hv, (rule_roomier same_id (rules_of c) (rules_of c')), Hrule in Hrule'; [|done|done|exact (Hsd Bid)|exact (Hsd Ask)|done| |].
  2:{ intros sd Hj. rewrite (resting_len same_id c) by done.
      pose proof (Hf log _ [] m sd eq_refl Hh Hj) as H. unfold room_for in H. by destruct sd. }
  2:{ rewrite Hrule. cbn [fst]. intros ->. destruct r as [[?|]|[]|[]|]; cbn in Ha; try done. }
  apply (f_equal fst) in Hrule' as Ea. apply (f_equal snd) in Hrule' as Hv2. cbn [fst snd] in Ea, Hv2. subst a'.
  exists (log' ++ [mk_entry o r' (emitted m' m1')]), m1'. split_and!.
  - by econstructor.
  - by rewrite !map_app, Hop.
  - rewrite !map_app, Hans. cbn [map en_res]. by rewrite Ha, Ha'.
  - by symmetry.
Qed.

(** ** A concrete case *)
Section Check.
Context {C : Type} (same_id : C -> C -> bool).
Lemma steps_run (m0 : market C) log m : steps same_id m0 log m -> m = run same_id m0 (map en_op log).
Proof.
  intros H. induction H as [|log m o r m' H IH Hty He]; [done|]. rewrite map_app. cbn [map en_op].
  assert (E : forall l m, run same_id m (l ++ [o]) = snd (exec same_id o (run same_id m l))).
  { induction l as [|o' l IHl]; intros k; cbn [app run]; [done|apply IHl]. }
  by rewrite E, <- IH, He.
Qed.
(** Decides [never_short] along a run. *)
Fixpoint enough (c : config C) (os : list (op C)) (m : market C) : bool :=
  match os with
  | [] => true
  | o :: os =>
      forallb (fun sd => negb (may_join sd o) || (length (resting m sd) <? room_for c sd)%nat) [Bid; Ask] &&
      match fst (exec same_id o m) with Err EventQueueFull => false | _ => true end &&
      enough c os (snd (exec same_id o m))
  end.
Lemma enough_at c : forall os1 o os2 m, enough c (os1 ++ o :: os2) m = true ->
  enough c (o :: os2) (run same_id m os1) = true.
Proof.
  induction os1 as [|o1 os1 IH]; intros o os2 m H; [done|]. cbn [app run] in *. apply IH.
  cbn [enough] in H. by apply andb_prop in H as [_ H].
Qed.
Lemma enough_short c log m : history same_id c log m -> enough c (map en_op log) (init_market c) = true -> never_short same_id c log.
Proof.
  intros Hh H. split.
  - intros l1 e l2 k sd -> Hk Hj. apply steps_run in Hk. rewrite map_app in H. cbn [map] in H.
    apply enough_at in H. rewrite <- Hk in H. cbn [enough] in H.
    apply andb_prop in H as [H _]. apply andb_prop in H as [H _]. rewrite forallb_forall in H.
    assert (Hs : In sd [Bid; Ask]) by (destruct sd; cbn; auto). apply H in Hs. rewrite Hj in Hs. cbn [negb orb] in Hs. by apply Nat.ltb_lt.
  - induction Hh as [|log m o r m' Hh IH Hty He]; [constructor|]. apply Forall_app. split.
    + apply IH. clear -H. rewrite map_app in H. revert H. generalize (init_market c). generalize (map en_op log).
      intros l. induction l as [|o' l IHl]; intros k H; [done|]. cbn [app enough] in *.
      apply andb_prop in H as [H1 H2]. rewrite H1. cbn. by apply IHl.
    + apply Forall_cons. split; [|constructor]. cbn [en_res]. rewrite map_app in H. cbn [map en_op] in H.
      apply enough_at in H. rewrite <- (steps_run _ _ _ Hh) in H. cbn [enough] in H. rewrite He in H. cbn [fst] in H.
      intros ->. apply andb_prop in H as [H _]. by apply andb_prop in H as [_ H].
Qed.
End Check.

Definition sz_big : config N := mk_config (c_min ex_cfg) (c_tick ex_cfg) 0 7 9 40 1 0.
Definition sz_ops : list (op N) := nm_ops ++ dl_later.
Definition sz_m : market N := Eval vm_compute in after N.eqb ex_cfg sz_ops.
Definition sz_m' : market N := Eval vm_compute in after N.eqb sz_big sz_ops.
Example C81_example :
  config_ok ex_cfg /\ config_ok sz_big /\ roomier ex_cfg sz_big /\
  history N.eqb ex_cfg (log_of N.eqb ex_cfg sz_ops) sz_m /\ never_short N.eqb ex_cfg (log_of N.eqb ex_cfg sz_ops) /\
  map (fun e => answer_of (en_res e)) (log_of N.eqb sz_big sz_ops) =
    map (fun e => answer_of (en_res e)) (log_of N.eqb ex_cfg sz_ops) /\
  view sz_m' = view sz_m /\ x_bids (view sz_m) <> [] /\ x_asks (view sz_m) <> [] /\ sz_m' <> sz_m.
Proof.
  split; [exact ex_cfg_ok|]. split; [repeat split; (by vm_compute) || (cbn; lia)|].
  split. { split; [done|]. split; [done|]. split; [intros [|]; cbn; lia|cbn; lia]. }
  assert (Hh : history N.eqb ex_cfg (log_of N.eqb ex_cfg sz_ops) sz_m).
  { change sz_m with (after N.eqb ex_cfg sz_ops). by apply after_history. }
  split; [done|]. split; [apply (enough_short _ _ _ _ Hh); by vm_compute|]. split_and!; by vm_compute.
Qed.
(** When room runs out it does matter: with room for two bids, a third one, better than both,
    pushes the last one out; with more room it does not. *)
Definition sz_three : list (op N) :=
  [ex_new Bid 50 100000 4 10 1 false true DecrementTake; ex_new Bid 50 100000 5 10 1 false true DecrementTake;
   ex_new Bid 50 100000 6 10 1 false true DecrementTake].
Example C81_needed :
  length (x_bids (view (after N.eqb ex_cfg sz_three))) = 2%nat /\ length (x_notices (view (after N.eqb ex_cfg sz_three))) = 1%nat /\
  length (x_bids (view (after N.eqb sz_big sz_three))) = 3%nat /\ x_notices (view (after N.eqb sz_big sz_three)) = [].
Proof. split_and!; by vm_compute. Qed.

Print Assumptions C81_sizes.
