(** * PropsDelay.v: a withdrawal can come early or late (C80) *)
From Verif Require Import Machine Critbit EventQueue OrderBook Market Spec MarketProofs MarketFacts HistoryProps
  ExchangeSpec ExchangeProofs NamesSpec NamesProofs DelaySpec DelayProofs BookProofs Engine ExampleRuns PropsExchange PropsNames.
From Coq Require Import Sorting.Sorted ZifyBool ZifyNat ZifyN.

Section View.
Context {C : Type} (same_id : C -> C -> bool).

Lemma resting_in c m L pend sd o : minv (C:=C) c m L pend -> o ∈ resting m sd <-> o ∈ L sd.
Proof.
  intros H. rewrite (minv_resting _ _ _ _ _ H). destruct sd; cbn [prio]; [|done].
  rewrite !elem_of_list_In. symmetry. apply in_rev.
Qed.
Lemma resting_len c m sd : reachable same_id c m -> length (x_side (view m) sd) = length (resting m sd).
Proof. intros _. destruct sd; cbn; by rewrite ?rev_length, map_length. Qed.
Lemma view_line c m sd : reachable same_id c m -> lined_up sd (x_side (view m) sd).
Proof.
  intros Hr. destruct (reachable_minv _ _ _ Hr) as (L&pend&Hm&_). destruct (view_minv _ _ _ _ Hm) as (V&_&_).
  rewrite V. pose proof (minv_sorted _ _ _ _ sd Hm) as Hs. unfold sorted in Hs. unfold lined_up.
  induction Hs as [|o os Hs IH Hall]; [constructor|]. cbn [map]. constructor; [done|].
  apply Forall_map. eapply Forall_impl; [exact Hall|]. intros y Hy. unfold before in Hy. cbn.
  unfold id_price. destruct sd; apply N.div_le_mono; lia.
Qed.
Lemma view_ids c m sd : reachable same_id c m -> map (x_id sd) (x_side (view m) sd) = prio sd (map o_id (resting m sd)).
Proof.
  intros Hr. destruct (reachable_minv _ _ _ Hr) as (L&pend&Hm&Hsq). destruct (view_minv _ _ _ _ Hm) as (V&_&_).
  rewrite V, (minv_resting _ _ _ _ _ Hm), map_map.
  assert (E : map (fun o => x_id sd (xorder_of sd o)) (L sd) = map o_id (L sd)).
  { apply map_ext_in. intros o Ho. apply elem_of_list_In in Ho.
    pose proof (minv_ok _ _ _ _ _ _ Hm Ho) as Hok. destruct (order_ok_price _ _ _ _ Hsq Hok) as (_&_&_&_&Hid&_).
    by apply x_id_of. }
  rewrite E. destruct sd; cbn [prio]; [|done]. by rewrite map_rev, rev_involutive.
Qed.
Lemma view_about c log m sd o : config_ok c -> history same_id c log m -> N.of_nat (length log) < p63 ->
  o ∈ resting m sd -> about sd (o_id o) (view m) /\ o_id o < p128.
Proof.
  intros Hc Hh Hl Ho. assert (Hr : reachable same_id c m) by (split; [done|]; by exists log).
  destruct (view_past _ _ _ _ _ Hc Hh Hl) as [Hp Hk].
  destruct (reachable_minv _ _ _ Hr) as (L&pend&Hm&Hsq). destruct (view_minv _ _ _ _ Hm) as (V&_&Vc).
  apply (resting_in _ _ _ _ _ _ Hm) in Ho. pose proof (minv_ok _ _ _ _ _ _ Hm Ho) as Hok.
  destruct (order_ok_price _ _ _ _ Hsq Hok) as (_&_&_&_&Hid&_&_&Hsq'&_).
  split; [|done]. constructor.
  - apply past_times_ok; [done|lia].
  - intros s. by apply (view_line c).
  - exists (xorder_of sd o). split; [by rewrite x_id_of|]. cbn [xorder_of x_time]. by rewrite Vc.
Qed.
Lemma clock_mono c log m log1 m1 : config_ok c -> history same_id c log m -> steps same_id m log1 m1 ->
  N.of_nat (length (log ++ log1)) < p63 -> x_clock (view m) <= x_clock (view m1).
Proof.
  intros Hc Hm Hs Hl. induction Hs as [|l m1 o r m2 Hs IH Hty He]; [done|]. rewrite app_assoc, app_length in Hl. cbn [length] in Hl.
  assert (reachable same_id c m1) by (split; [done|]; exists (log ++ l); split; [by eapply steps_app|lia]).
  pose proof (seq_mono _ _ _ _ _ _ H Hty He) as Hg. specialize (IH ltac:(lia)).
  unfold seq_of in Hg. unfold view in *. cbn [x_clock] in *. lia.
Qed.
Lemma answer_none (r : res (option summary)) i b q s : answer_of r = Some (Accepted i b q s) -> r = Ok (Some (mk_summary i b q s)).
Proof. destruct r as [[[]|]|[]|[]|]; cbn; intros E; try done. by injection E as -> -> -> ->. Qed.
Lemma room_side (c : config C) (p : params C) : side_room (rules_of c) p = room_for c (p_side p).
Proof. unfold side_room. by destruct (p_side p). Qed.

(** The requests before a withdrawal, without the order that it withdraws. *)
Lemma delay c log m sd o m0 log1 m1 : config_ok c -> history same_id c log m ->
  N.of_nat (length (log ++ log1)) + 1 < p63 -> o ∈ resting m sd ->
  history same_id c (log ++ [mk_entry (CancelOrder (o_id o)) (fst (exec same_id (CancelOrder (o_id o)) m)) (emitted m m0)]) m0 ->
  view m0 = x_remove (o_id o) (view m) ->
  steps same_id m log1 m1 -> Forall (fun e => leaves_alone sd (o_id o) (en_op e)) log1 ->
  (length (resting m sd) + length (List.filter (may_join sd) (map en_op log1)) <= room_for c sd)%nat ->
  exists log2 n, steps same_id m0 log2 n /\ map en_op log2 = map en_op log1 /\
    map (fun e => answer_of (en_res e)) log2 = map (fun e => answer_of (en_res e)) log1 /\
    view n = x_remove (o_id o) (view m1) /\ x_lookup (o_id o) (view m1) = x_lookup (o_id o) (view m) /\
    (length (resting m1 sd) <= length (resting m sd) + length (List.filter (may_join sd) (map en_op log1)))%nat.
Proof.
  intros Hc Hm Hl Ho Hm0 Hv0 Hs. revert Hl. set (id := o_id o) in *.
  induction Hs as [|log1 m1 q r m2 Hs IH Hty He]; intros Hl Hal Hroom.
  { exists [], m0. split_and!; [constructor|done..|cbn; lia]. }
  apply Forall_app in Hal as [Hal Hal1]. apply Forall_cons in Hal1 as [Hal1 _]. cbn [en_op] in Hal1.
  rewrite !app_length in Hl. cbn [length] in Hl.
  rewrite map_app, List.filter_app, app_length in Hroom |- *. cbn [map List.filter en_op] in Hroom |- *.
  destruct IH as (log2&n&Hs2&Hop&Hans&Hv&Hlk&Hlen); [rewrite app_length; lia|done|lia|].
  assert (Hl2 : length log2 = length log1).
  { apply (f_equal length) in Hop. by rewrite !map_length in Hop. }
  assert (Hm1 : history same_id c (log ++ log1) m1) by by eapply steps_app.
  assert (Hn1 : history same_id c ((log ++ [mk_entry (CancelOrder id) (fst (exec same_id (CancelOrder id) m)) (emitted m m0)]) ++ log2) n)
    by by eapply steps_app.
  assert (Rm : reachable same_id c m1) by (split; [done|]; exists (log ++ log1); split; [done|rewrite app_length; lia]).
  assert (Rn : reachable same_id c n).
  { split; [done|]. eexists. split; [exact Hn1|]. rewrite !app_length. cbn [length]. lia. }
  destruct (exec same_id q n) as [r' n2] eqn:He'.
  destruct (view_step _ _ _ _ _ _ Rm Hty He) as (a&Ha&Hrule).
  destruct (view_step _ _ _ _ _ _ Rn Hty He') as (a'&Ha'&Hrule').
  assert (Hab : about sd id (view m1)).
  { destruct (view_about c log m sd o Hc Hm ltac:(lia) Ho) as [[_ _ (xo&Ei&Ht)] _].
    destruct (view_past _ _ _ _ _ Hc Hm1 ltac:(rewrite app_length; lia)) as [Hp Hk]. rewrite app_length in Hk.
    constructor.
    - apply past_times_ok; [done|lia].
    - intros s. by apply (view_line c).
    - exists xo. split; [done|]. pose proof (clock_mono c log m log1 m1 Hc Hm Hs ltac:(rewrite app_length; lia)). lia. }
  assert (Hrm : room_now (rules_of c) q sd (view m1)).
  { destruct q as [p| | |]; try done. cbn [room_now may_join] in *. intros Es. unfold has_room. rewrite room_side, Es.
    rewrite (resting_len c) by done. destruct (post_allowed p); [right|by left].
    destruct (p_side p); subst sd; cbn [andb length] in Hroom; lia. }
  destruct (rule_without same_id (rules_of c) sd id q (view m1) Hab Hal1 Hrm) as [W1 W2].
  pose proof (rule_length same_id (rules_of c) sd q (view m1)) as W3.
  rewrite Hv, W1, Hrule in Hrule'. rewrite Hrule in W2, W3. cbn [fst snd] in *.
  apply (f_equal fst) in Hrule' as Ea. apply (f_equal snd) in Hrule' as Hv2. cbn [fst snd] in Ea, Hv2. subst a'.
  exists (log2 ++ [mk_entry q r' (emitted n n2)]), n2. split_and!.
  - by econstructor.
  - by rewrite !map_app, Hop.
  - rewrite !map_app, Hans. cbn [map en_res]. by rewrite Ha, Ha'.
  - by symmetry.
  - by rewrite W2, Hlk.
  - assert (Rm2 : reachable same_id c m2).
    { split; [done|]. exists ((log ++ log1) ++ [mk_entry q r (emitted m1 m2)]). split; [by econstructor|].
      rewrite !app_length. cbn [length]. lia. }
    rewrite !(resting_len c) in W3 by done. destruct (may_join sd q); cbn [length]; lia.
Qed.

(** The early withdrawal. *)
Lemma early_cancel c log m sd o s m0 : config_ok c -> history same_id c log m -> N.of_nat (length log) + 1 < p63 ->
  o ∈ resting m sd -> exec same_id (CancelOrder (o_id o)) m = (Ok (Some s), m0) ->
  history same_id c (log ++ [mk_entry (CancelOrder (o_id o)) (fst (exec same_id (CancelOrder (o_id o)) m)) (emitted m m0)]) m0 /\
  view m0 = x_remove (o_id o) (view m) /\ exists xo, x_lookup (o_id o) (view m) = Some xo /\
    s = mk_summary None (x_size xo) (x_size xo * x_price xo / 2 ^ 32) 0 /\
    (x_size xo <? 2 ^ 64) && (x_size xo * x_price xo / 2 ^ 32 <? 2 ^ 64) = true.
Proof.
  intros Hc Hh Hl Ho He. destruct (view_about c log m sd o Hc Hh ltac:(lia) Ho) as [Hab Hid].
  assert (Rm : reachable same_id c m) by (split; [done|]; exists log; split; [done|lia]).
  split. { rewrite He. cbn [fst]. by econstructor. }
  destruct (view_step _ _ _ _ _ _ Rm (Hid : op_typed (CancelOrder (o_id o))) He) as (a&Ha&Hr).
  cbn [answer_of] in Ha. injection Ha as <-. revert Hr. cbn [rule cancel_rule]. unfold all_or_nothing.
  destruct (x_lookup (o_id o) (view m)) as [xo|]; [|done]. rewrite !N.add_0_l.
  destruct (_ && _) eqn:Eb; [|done]. cbn [fst]. intros E.
  apply (f_equal snd) in E as Ev. apply (f_equal fst) in E as Ea. cbn [fst snd] in Ev, Ea.
  injection Ea as E1 E2 E3 E4.
  split; [by symmetry|]. exists xo. split; [done|]. split; [|done]. destruct s. cbn in *. by subst.
Qed.
(** The late one. *)
Lemma late_cancel c m1 id xo r m2 : reachable same_id c m1 -> id < p128 -> x_lookup id (view m1) = Some xo ->
  (x_size xo <? 2 ^ 64) && (x_size xo * x_price xo / 2 ^ 32 <? 2 ^ 64) = true ->
  exec same_id (CancelOrder id) m1 = (r, m2) ->
  r = Ok (Some (mk_summary None (x_size xo) (x_size xo * x_price xo / 2 ^ 32) 0)) /\ view m2 = x_remove id (view m1).
Proof.
  intros Rm Hid Hlk Hb He. destruct (view_step _ _ _ _ _ _ Rm (Hid : op_typed (CancelOrder id)) He) as (a&Ha&Hr).
  cbn [rule cancel_rule] in Hr. unfold all_or_nothing in Hr. rewrite Hlk, !N.add_0_l, Hb in Hr. cbn [fst] in Hr.
  apply (f_equal snd) in Hr as Ev. apply (f_equal fst) in Hr as Ea. cbn [fst snd] in Ev, Ea. subst a.
  split; [by apply answer_none|by symmetry].
Qed.
End View.

(** Withdraw an order at once, or only after any number of other requests that do not
    concern it: orders of its own side (as long as the side has room for them), orders of
    the other side whose limit does not reach its price, cancellations of other orders,
    consumption of events.  The withdrawal returns the same amounts, all other requests have
    the same answers, and the two markets end with the same orders, the same waiting events
    and the same next id. *)
Theorem C80_delay : forall (C : Type) (same_id : C -> C -> bool) c log m sd o s m0 log1 m1,
  config_ok c -> history same_id c log m -> N.of_nat (length (log ++ log1)) + 1 < p63 ->
  o ∈ resting m sd -> exec same_id (CancelOrder (o_id o)) m = (Ok (Some s), m0) ->
  steps same_id m log1 m1 -> Forall (fun e => leaves_alone sd (o_id o) (en_op e)) log1 ->
  (length (resting m sd) + length (List.filter (may_join sd) (map en_op log1)) <= room_for c sd)%nat ->
  exists m2 log2 n,
    exec same_id (CancelOrder (o_id o)) m1 = (Ok (Some s), m2) /\
    steps same_id m0 log2 n /\ map en_op log2 = map en_op log1 /\
    map (fun e => answer_of (en_res e)) log2 = map (fun e => answer_of (en_res e)) log1 /\
    view n = view m2.
Proof.
  intros C same_id c log m sd o s m0 log1 m1 Hc Hh Hl Ho He Hs Hal Hroom. pose proof Hl as Hl'. rewrite app_length in Hl'.
  destruct (early_cancel same_id c log m sd o s m0 Hc Hh ltac:(lia) Ho He) as (Hh0&Hv0&xo&Hlk&->&Hb).
  destruct (delay same_id c log m sd o m0 log1 m1 Hc Hh Hl Ho Hh0 Hv0 Hs Hal Hroom) as (log2&n&Hs2&Hop&Hans&Hv&Hlk1&_).
  destruct (exec same_id (CancelOrder (o_id o)) m1) as [r m2] eqn:He1.
  assert (Rm1 : reachable same_id c m1).
  { split; [done|]. exists (log ++ log1). split; [by eapply steps_app|]. rewrite app_length. lia. }
  destruct (view_about same_id c log m sd o Hc Hh ltac:(lia) Ho) as [_ Hid].
  rewrite Hlk in Hlk1. destruct (late_cancel same_id c m1 _ xo r m2 Rm1 Hid Hlk1 Hb He1) as [-> Hv2].
  exists m2, log2, n. split_and!; try done. by rewrite Hv, Hv2.
Qed.

(** A new order that would reach the price, but leaves another order of that side in front
    of this one, does not notice whether this one is withdrawn before or after. *)
Theorem C80_behind : forall (C : Type) (same_id : C -> C -> bool) c log m p sm m1 o o' s m0,
  let sd := opposite (p_side p) in
  config_ok c -> history same_id c log m -> N.of_nat (length log) + 2 < p63 -> op_typed (NewOrder p) ->
  o ∈ resting m sd -> exec same_id (CancelOrder (o_id o)) m = (Ok (Some s), m0) ->
  exec same_id (NewOrder p) m = (Ok (Some sm), m1) ->
  o_id o ∈ map o_id (resting m1 sd) -> o' ∈ resting m1 sd -> better sd (o_id o') (o_id o) ->
  exists m2 n,
    exec same_id (CancelOrder (o_id o)) m1 = (Ok (Some s), m2) /\
    exec same_id (NewOrder p) m0 = (Ok (Some sm), n) /\ view n = view m2.
Proof.
  intros C same_id c log m p sm m1 o o' s m0 sd Hc Hh Hl Hty Ho He Hp Hin Ho' Hbt.
  destruct (early_cancel same_id c log m sd o s m0 Hc Hh ltac:(lia) Ho He) as (Hh0&Hv0&xo&Hlk&->&Hb).
  destruct (view_about same_id c log m sd o Hc Hh ltac:(lia) Ho) as [Hab Hid].
  assert (Rm : reachable same_id c m) by (split; [done|]; exists log; split; [done|lia]).
  assert (Rm0 : reachable same_id c m0).
  { split; [done|]. eexists. split; [exact Hh0|]. rewrite app_length. cbn. lia. }
  assert (Rm1 : reachable same_id c m1).
  { split; [done|]. exists (log ++ [mk_entry (NewOrder p) (Ok (Some sm)) (emitted m m1)]). split; [by econstructor|].
    rewrite app_length. cbn. lia. }
  destruct (view_step _ _ _ _ _ _ Rm Hty Hp) as (a&Ha&Hr). cbn [rule answer_of] in Ha, Hr. injection Ha as <-.
  assert (Hids : forall s, map (x_id s) (x_side (view m1) s) = prio s (map o_id (resting m1 s))) by (intros s; by apply (view_ids same_id c)).
  assert (Hsort : StronglySorted (fun a b => better sd a b) (map (x_id sd) (x_side (view m1) sd))).
  { destruct (reachable_minv _ _ _ Rm1) as (L&pend&Hm&_).
    rewrite Hids, (minv_resting _ _ _ _ _ Hm). pose proof (minv_sorted _ _ _ _ sd Hm) as Hs. unfold sorted in Hs.
    assert (E : prio sd (map o_id (prio sd (L sd))) = map o_id (L sd)).
    { destruct sd; cbn [prio]; [|done]. by rewrite map_rev, rev_involutive. }
    rewrite E. clear E Hm. induction Hs as [|x l Hs IH Hall]; [constructor|]. cbn [map]. constructor; [done|].
    apply Forall_map. eapply Forall_impl; [exact Hall|]. intros y Hy. unfold before in Hy. unfold better. cbn beta.
    destruct sd; lia. }
  assert (Hin' : forall i, i ∈ map o_id (resting m1 sd) -> i ∈ map (x_id sd) (x_side (view m1) sd)).
  { intros i. rewrite Hids. destruct sd; cbn [prio]; [|done]. rewrite !elem_of_list_In. apply in_rev. }
  apply Hin' in Hin. assert (Hio : o_id o' ∈ map (x_id sd) (x_side (view m1) sd)).
  { apply Hin'. apply elem_of_list_fmap. by exists o'. }
  destruct (x_side (view m1) sd) as [|h t] eqn:Es; [by apply elem_of_nil in Hin|]. cbn [map] in *.
  apply StronglySorted_inv in Hsort as [_ Hall]. rewrite Forall_forall in Hall.
  apply elem_of_cons in Hin as [Ehd|Hin].
  { exfalso. apply elem_of_cons in Hio as [Eio|Hio].
    - rewrite Eio, Ehd in Hbt. unfold better in Hbt. destruct sd; lia.
    - specialize (Hall _ Hio). rewrite Ehd in Hbt. unfold better in *. destruct sd; lia. }
  assert (Hnd : NoDup (map (x_id sd) (x_side (view m) sd))).
  { rewrite (view_ids same_id c) by done. destruct (reachable_minv _ _ _ Rm) as (L&pend&Hm&_).
    rewrite (minv_resting _ _ _ _ _ Hm). pose proof (minv_nodup _ _ _ _ sd Hm) as Hn.
    destruct sd; cbn [prio]; [|done]. by rewrite map_rev, rev_involutive. }
  destruct (new_behind same_id (rules_of c) p (o_id o) (view m) _ _ h t Hab Hnd Hr) as [N1 N2]; [by eexists _, _, _, _|done|done|].
  destruct (exec same_id (CancelOrder (o_id o)) m1) as [r m2] eqn:He1. rewrite Hlk in N2.
  destruct (late_cancel same_id c m1 _ xo r m2 Rm1 Hid N2 Hb He1) as [-> Hv2].
  destruct (exec same_id (NewOrder p) m0) as [r' n] eqn:Hp'.
  destruct (view_step _ _ _ _ _ _ Rm0 Hty Hp') as (a'&Ha'&Hr'). cbn [rule] in Hr'. rewrite Hv0, N1 in Hr'.
  apply (f_equal snd) in Hr' as Ev. apply (f_equal fst) in Hr' as Ea. cbn [fst snd] in Ev, Ea. subst a'.
  apply answer_none in Ha'. subst r'. exists m2, n. split; [done|]. split; [by destruct sm|]. by rewrite Hv2, <- Ev.
Qed.

(** ** Concrete cases *)
(** A bid at 2 and an ask at 6 rest.  The ask is withdrawn, before or after four other
    requests: an ask at 5, a bid at 5 that trades with it, a consumption of events, and a
    cancellation of what is left of the ask at 5. *)
Definition dl_later : list (op N) :=
  [ex_new Ask 40 100000 10 10 4 false true DecrementTake; ex_new Bid 25 100000 10 10 5 false true DecrementTake;
   ConsumeEvents 1; CancelOrder (x_ask_id 10 2)].
Definition dl_id : N := x_ask_id 12 1.
Definition dl_log : list (entry N) := Eval vm_compute in fst (run_log N.eqb dl_later [] nm_m).
Definition dl_m1 : market N := Eval vm_compute in snd (run_log N.eqb dl_later [] nm_m).
Definition dl_m0 : market N := Eval vm_compute in snd (exec N.eqb (CancelOrder dl_id) nm_m).
Example C80_example :
  history N.eqb ex_cfg (log_of N.eqb ex_cfg nm_ops) nm_m /\
  map o_id (resting nm_m Ask) = [dl_id] /\
  exec N.eqb (CancelOrder dl_id) nm_m = (Ok (Some (mk_summary None 60 360 0)), dl_m0) /\
  steps N.eqb nm_m dl_log dl_m1 /\ Forall (fun e => leaves_alone Ask dl_id (en_op e)) dl_log /\
  (length (resting nm_m Ask) + length (List.filter (may_join Ask) (map en_op dl_log)) <= room_for ex_cfg Ask)%nat /\
  map (fun e => answer_of (en_res e)) dl_log =
    [Some (Accepted (Some (x_ask_id 10 2)) 40 200 40); Some (Accepted None 25 125 0); Some Consumed;
     Some (Accepted None 15 75 0)] /\
  fst (exec N.eqb (CancelOrder dl_id) dl_m1) = Ok (Some (mk_summary None 60 360 0)) /\
  view (snd (exec N.eqb (CancelOrder dl_id) dl_m1)) = view (snd (run_log N.eqb dl_later [] dl_m0)).
Proof.
  split. { change nm_m with (after N.eqb ex_cfg nm_ops). by apply after_history. }
  split; [by vm_compute|].
  split; [by vm_compute|].
  split. { change dl_log with (fst (run_log N.eqb dl_later [] nm_m)). change dl_m1 with (snd (run_log N.eqb dl_later [] nm_m)).
    apply run_log_steps; [by vm_compute|constructor]. }
  split. { repeat (apply Forall_cons; split); try (by apply Forall_nil); try done; cbn [en_op leaves_alone].
    - by left.
    - right. by vm_compute. }
  split; [vm_compute; lia|]. split_and!; by vm_compute.
Qed.
(** Asks at 5 and 6; a bid at 6 takes a part of the first only. *)
Definition dl_front : market N := Eval vm_compute in
  after N.eqb ex_cfg (nm_ops ++ [ex_new Ask 40 100000 10 10 4 false true DecrementTake]).
Definition dl_take : params N := mk_params 25 100000 (half 12) Bid 10 5 false true DecrementTake.
Example C80_behind_example :
  history N.eqb ex_cfg (log_of N.eqb ex_cfg (nm_ops ++ [ex_new Ask 40 100000 10 10 4 false true DecrementTake])) dl_front /\
  map o_id (resting dl_front Ask) = [x_ask_id 10 2; dl_id] /\
  fst (exec N.eqb (NewOrder dl_take) dl_front) = Ok (Some (mk_summary None 25 125 0)) /\
  map o_id (resting (snd (exec N.eqb (NewOrder dl_take) dl_front)) Ask) = [x_ask_id 10 2; dl_id] /\
  better Ask (x_ask_id 10 2) dl_id /\ limit_price dl_take = id_price dl_id.
Proof.
  split. { change dl_front with (after N.eqb ex_cfg (nm_ops ++ [ex_new Ask 40 100000 10 10 4 false true DecrementTake])).
    by apply after_history. }
  split_and!; by vm_compute.
Qed.
(** It does matter otherwise: a post_only bid that reaches the ask is turned away, but joins
    the book when the ask has been withdrawn. *)
Definition dl_post : op N := ex_new Bid 25 100000 12 10 5 true true DecrementTake.
Example C80_needed :
  fst (exec N.eqb dl_post nm_m) = Ok (Some (mk_summary None 0 0 0)) /\
  fst (exec N.eqb dl_post dl_m0) = Ok (Some (mk_summary (Some (x_bid_id 12 2)) 25 150 25)).
Proof. split; by vm_compute. Qed.

Print Assumptions C80_delay.
Print Assumptions C80_behind.
