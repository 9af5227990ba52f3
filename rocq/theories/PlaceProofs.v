(** * PlaceProofs.v: a resting order keeps its place (C71) *)
From Verif Require Import Machine Bytes Critbit EventQueue OrderBook Market Spec MachineProofs
  TreeProofs SlabProofs SlabProofs2 QueueProofs IdProofs Engine BookProofs EngineProofs
  MarketProofs MarketFacts NewOrderProps NewOrderProps2 SelfTradeProps InstrProps HistoryProps
  LifeProps MarketReads ClientSpec EventProps CustodySpec CustodyProofs PlaceSpec.
From Coq Require Import ZifyBool ZifyNat ZifyN.

Section Place.
Context {C : Type} (same_id : C -> C -> bool).
Implicit Types m : market C.
Implicit Types c : config C.
Implicit Types p : params C.
Implicit Types os : list (order C).
Implicit Types E F D : list (event_ref C).
Implicit Types log : list (entry C).

Lemma ahead_asym sd id1 id2 : ahead sd id1 id2 -> ahead sd id2 id1 -> False.
Proof. unfold ahead, better_price. destruct sd; lia. Qed.
Lemma ahead_irrefl sd id : ~ ahead sd id id.
Proof. intros H. by eapply ahead_asym. Qed.

(** An instruction that produced an event is an accepted new order. *)
Lemma emits_new c m o r m' ev : reachable same_id c m -> op_typed o -> exec same_id o m = (r, m') ->
  ev ∈ emitted m m' -> exists p sm, o = NewOrder p /\ r = Ok (Some sm) /\ accepted same_id c m p sm m'.
Proof.
  intros Hr Hty He Hev. destruct (is_ok r) eqn:Hok.
  2:{ pose proof (exec_failed _ _ _ _ _ He Hok) as ->. rewrite emitted_same in Hev by done.
      by apply elem_of_nil in Hev. }
  destruct r as [r| | |]; try done. clear Hok. destruct o as [p|id|ids|n].
  - destruct (new_order_outcomes _ _ _ _ _ _ Hr Hty He) as [(sm&[= ->])|(_&[?|[?|?]])]; try done.
    exists p, sm. done.
  - destruct (cancel_ok_inv _ _ _ _ _ _ Hr He) as (o&_&_&_&Hres&Hevq).
    rewrite (emitted_same m m') in Hev by by apply pending_evq. by apply elem_of_nil in Hev.
  - destruct (mass_cancel_exact same_id c m ids Hr) as [(_&_&_&_&m1&Hx&Hres&Hevq)|(_&r1&Hx&Hr1)].
    2:{ rewrite Hx in He. destruct Hr1 as [->|[->| ->]]; done. }
    rewrite Hx in He. simplify_eq.
    rewrite (emitted_same m m') in Hev by by apply pending_evq. by apply elem_of_nil in Hev.
  - destruct (consume_ok same_id c m n Hr) as (m1&Hx&Hp&Hb&Ha&_). rewrite Hx in He. simplify_eq.
    rewrite (emitted_drop m m' _ Hp) in Hev. by apply elem_of_nil in Hev.
Qed.

Lemma act1_le ev (o o' : order C) : act1 ev o = Some o' -> o_cb o' = o_cb o /\ o_qty o' <= o_qty o.
Proof.
  destruct ev as [e ? ?|e ?]; cbn [act1].
  - intros [= <-]. destruct (_ =? _); cbn; [|done]. unfold o_qty. cbn. split; [done|lia].
  - destruct (_ =? _); by intros [= <-].
Qed.
Lemma acts_le E : forall (o o' : order C), acts E o = Some o' -> o_cb o' = o_cb o /\ o_qty o' <= o_qty o.
Proof.
  induction E as [|ev E IH]; intros o o'; cbn; [by intros [= <-]|].
  destruct (act1 ev o) as [o1|] eqn:H1; [|done]. intros H2. apply IH in H2 as [??].
  apply act1_le in H1 as [??]. split; [congruence|lia].
Qed.

(** Where an order of the next state comes from. *)
Lemma origin c m o r m' sd z : reachable same_id c m -> op_typed o -> exec same_id o m = (r, m') ->
  z ∈ resting m' sd ->
  (exists z0, z0 ∈ resting m sd /\ o_id z0 = o_id z /\ o_cb z0 = o_cb z /\ o_qty z <= o_qty z0) \/
  (exists p sm, accepted same_id c m p sm m' /\ posted_order_id sm = Some (o_id z) /\ p_side p = sd).
Proof.
  intros Hr Hty He Hz. apply (step_effect _ _ _ _ _ _ Hr Hty He) in Hz as [[Hz _]|[Hz Hs]].
  - left. apply elem_apply_events in Hz as (z0&Hz0&Ha). exists z0.
    apply acts_le in Ha as Hb. apply acts_id in Ha as Hi. destruct Hb. split_and!; try done; congruence.
  - right. unfold posted_order in Hz. cbn [en_op en_res] in Hz.
    destruct o as [p| | |]; try (by apply elem_of_nil in Hz).
    destruct r as [[sm|]| | |]; try (by apply elem_of_nil in Hz).
    destruct (posted_order_id sm) as [id|] eqn:Hp; [|by apply elem_of_nil in Hz].
    apply elem_of_list_singleton in Hz as ->. exists p, sm.
    assert (Hacc : accepted same_id c m p sm m') by done.
    split_and!; [done|done|]. destruct (posted_side _ _ _ _ _ _ _ Hacc Hp) as [Hs' _].
    rewrite <- Hs'. exact Hs.
Qed.

(** Sequence numbers of resting orders are those already given out. *)
Lemma resting_seq c log m sd x : config_ok c -> history same_id c log m -> N.of_nat (length log) < p63 ->
  x ∈ resting m sd -> id_seq sd (o_id x) < seq_of m.
Proof.
  intros Hc Hh Hl Hx.
  pose proof (proj1 (replay_ok _ _ _ _ Hc Hh Hl sd x) Hx) as [_ Hs].
  assert (Hp : o_id x ∈ posted_ids log).
  { eapply resting_posted; [exact Hc|exact Hh|exact Hl|]. by apply elem_of_list_fmap_1. }
  destruct (posted_seq same_id c [] _ _ _ _ Hc ltac:(constructor) Hh Hl Hp) as (price&s&sd'&Hid&Hpr&Hsq).
  pose proof (history_seq_lt _ _ _ _ Hc Hh Hl) as Hlt.
  rewrite Hid in Hs. rewrite side_of_order_id in Hs by lia. subst sd'.
  rewrite Hid, id_seq_order by lia. lia.
Qed.
Lemma posted_seq_of c m p sm m' id : accepted same_id c m p sm m' -> posted_order_id sm = Some id ->
  id_seq (p_side p) id = seq_of m.
Proof.
  intros Ha Hp. destruct (posted_id_new _ _ _ _ _ _ _ Ha Hp) as (->&_&Hl&_).
  destruct Ha as ((Hc&log&Hh&Hlen)&_). pose proof (history_seq_lt _ _ _ _ Hc Hh Hlen).
  apply id_seq_order; [done|]. lia.
Qed.

(** ** The place of an order *)
Lemma place c log0 m0 log m sd x : config_ok c -> history same_id c log0 m0 ->
  steps same_id m0 log m -> N.of_nat (length (log0 ++ log)) < p63 -> x ∈ resting m0 sd ->
  forall y, y ∈ resting m sd -> o_id y = o_id x ->
  o_cb y = o_cb x /\ o_qty y <= o_qty x /\
  forall z, z ∈ resting m sd -> ahead sd (o_id z) (o_id y) ->
    better_price sd (id_price (o_id z)) (id_price (o_id y)) \/
    exists z0, z0 ∈ resting m0 sd /\ o_id z0 = o_id z /\ o_cb z0 = o_cb z /\ o_qty z <= o_qty z0.
Proof.
  intros Hc Hh Hs. induction Hs as [|log m o r m' Hs IH Hty He]; intros Hl Hx y Hy Hid.
  - assert (y = x) as ->.
    { eapply in_id_unique; [|exact Hy|exact Hx|done].
      eapply resting_nodup. split; [exact Hc|]. exists log0. rewrite app_nil_r in Hl. eauto. }
    split_and!; [done|done|]. intros z Hz _. right. by exists z.
  - rewrite !app_length in *. cbn [length] in Hl.
    assert (Hh1 : history same_id c (log0 ++ log) m) by by eapply steps_app.
    assert (Hl1 : N.of_nat (length (log0 ++ log)) < p63) by (rewrite app_length; lia).
    assert (Hr : reachable same_id c m) by (split; eauto).
    specialize (IH ltac:(lia) Hx).
    pose proof (resting_seq c log0 m0 sd x Hc Hh ltac:(lia) Hx) as Hsx.
    pose proof (steps_seq same_id c log0 m0 log m Hc Hh Hs Hl1) as Hsq.
    destruct (origin _ _ _ _ _ _ _ Hr Hty He Hy) as [(y0&Hy0&Hi0&Hc0&Hq0)|(p&sm&Hacc&Hp&<-)].
    2:{ pose proof (posted_seq_of _ _ _ _ _ _ Hacc Hp). rewrite Hid in *. lia. }
    destruct (IH y0 Hy0 ltac:(congruence)) as (Hcb&Hq&Hz). split_and!; [congruence|lia|].
    intros z Hz' Ha.
    destruct (origin _ _ _ _ _ _ _ Hr Hty He Hz') as [(z0&Hz0&Hzi&Hzc&Hzq)|(p&sm&Hacc&Hp&<-)].
    + destruct (Hz z0 Hz0 ltac:(congruence)) as [?|(z1&?&?&?&?)].
      * left. congruence.
      * right. exists z1. split_and!; try done; try congruence. lia.
    + pose proof (posted_seq_of _ _ _ _ _ _ Hacc Hp) as Hsz.
      left. destruct Ha as [?|[_ Hlt]]; [done|]. rewrite Hid in Hlt. lia.
Qed.

(** ** Nobody overtakes *)
Lemma apply_events_ids E os id : id ∈ map o_id (apply_events os E) -> id ∈ map o_id os.
Proof.
  intros H. apply elem_of_list_fmap in H as (x&->&Hx). apply elem_apply_events in Hx as (o&Ho&Ha).
  apply acts_id in Ha. rewrite Ha. by apply elem_of_list_fmap_1.
Qed.
Lemma fill_of c m o r m' ev : reachable same_id c m -> op_typed o -> exec same_id o m = (r, m') ->
  ev ∈ emitted m m' -> is_fill ev = true ->
  exists p sm, o = NewOrder p /\ accepted same_id c m p sm m' /\
    event_id ev ∈ map o_id (resting m (opposite (p_side p))) /\
    side_of_id (event_id ev) = opposite (p_side p).
Proof.
  intros Hr Hty He Hev Hf. destruct (emits_new _ _ _ _ _ _ Hr Hty He Hev) as (p&sm&->&_&Hacc).
  exists p, sm. destruct ev as [e mk tk|]; [|done].
  destruct (fill_limit _ _ _ _ _ _ Hacc _ _ _ Hev) as [Hin _]. split_and!; try done.
  destruct Hr as (Hc&log&Hh&Hl). apply elem_of_list_fmap in Hin as (y&Hy&Hin).
  cbn. rewrite Hy. by apply (replay_ok _ _ _ _ Hc Hh Hl) in Hin as [_ ?].
Qed.
Lemma overtake_step c m o r m' sd x w ev : reachable same_id c m -> op_typed o ->
  exec same_id o m = (r, m') -> x ∈ resting m sd -> w ∈ resting m sd -> ahead sd (o_id w) (o_id x) ->
  ev ∈ emitted m m' -> is_fill ev = true -> event_id ev = o_id x ->
  o_id w ∉ map o_id (resting m' sd).
Proof.
  intros Hr Hty He Hx Hw Ha Hev Hf Hid Hin.
  destruct (fill_of _ _ _ _ _ _ Hr Hty He Hev Hf) as (p&sm&->&Hacc&Hopp&Hs).
  pose proof Hr as (Hc&log&Hh&Hl).
  assert (sd = opposite (p_side p)) as ->.
  { rewrite <- Hs, Hid. by apply (replay_ok _ _ _ _ Hc Hh Hl) in Hx as [_ ?]. }
  rewrite (opposite_replay _ _ _ _ _ _ Hacc) in Hin.
  apply elem_of_list_split in Hev as (E1&E2&HE). rewrite HE in Hin.
  unfold apply_events in Hin. rewrite fold_left_app in Hin.
  assert (Hin1 : o_id w ∈ map o_id (apply_events (resting m (opposite (p_side p))) E1)).
  { by apply (apply_events_ids (ev :: E2)) in Hin. }
  destruct (priority _ _ _ _ _ _ Hacc E1 ev E2 HE ltac:(by rewrite Hid; apply elem_of_list_fmap_1))
    as (b&Hb&Hbid&Hbest).
  apply elem_of_list_fmap in Hin1 as (w'&Hw'&Hin1).
  specialize (Hbest w' Hin1). rewrite Hbid, Hid, <- Hw' in Hbest.
  eapply (ahead_asym (opposite (p_side p))); [exact Ha|]. apply Hbest. intros ->.
  rewrite Hw', Hbid, <- Hid in Ha. by apply ahead_irrefl in Ha.
Qed.
Lemma overtake c log0 m0 log m sd x w ev : config_ok c -> history same_id c log0 m0 ->
  steps same_id m0 log m -> N.of_nat (length (log0 ++ log)) < p63 ->
  x ∈ resting m0 sd -> w ∈ resting m0 sd -> ahead sd (o_id w) (o_id x) ->
  ev ∈ events_about (o_id x) log -> is_fill ev = true -> gone m (o_id w).
Proof.
  intros Hc Hh Hs. induction Hs as [|log m o r m' Hs IH Hty He]; intros Hl Hx Hw Ha Hev Hf.
  { by apply elem_of_nil in Hev. }
  assert (Hh1 : history same_id c (log0 ++ log) m) by by eapply steps_app.
  assert (Hl1 : N.of_nat (length (log0 ++ log)) < p63) by (rewrite !app_length in *; cbn in *; lia).
  assert (Hr : reachable same_id c m) by (split; eauto).
  assert (Hl0 : N.of_nat (length log0) < p63) by (rewrite !app_length in *; cbn in *; lia).
  assert (Hwp : o_id w ∈ posted_ids (log0 ++ log)).
  { rewrite posted_ids_app. apply elem_of_app. left. eapply resting_posted; [exact Hc|exact Hh|exact Hl0|].
    by apply elem_of_list_fmap_1. }
  assert (Hse : steps same_id m [mk_entry o r (emitted m m')] m').
  { change [mk_entry o r (emitted m m')] with ([] ++ [mk_entry o r (emitted m m')]).
    econstructor; [constructor|done|done]. }
  assert (Hgone : gone m (o_id w) -> gone m' (o_id w)).
  { intros Hg. unfold gone. eapply gone_forever; [exact Hc|exact Hh1|exact Hse| |exact Hwp|exact Hg].
    rewrite !app_length in *. cbn in *. lia. }
  rewrite events_about_app in Hev. apply elem_of_app in Hev as [Hev|Hev].
  { apply Hgone. by apply IH. }
  rewrite events_about_one in Hev. cbn [en_events] in Hev. unfold about in Hev.
  apply elem_of_list_In, filter_In in Hev as [Hev Hid]. apply elem_of_list_In in Hev.
  apply N.eqb_eq in Hid.
  (* both orders are still there, or w is gone already *)
  destruct (life_steps same_id c log0 m0 log m sd w Hc Hh Hs Hl1) as (fl&_&Hw1); [|exact Hw|].
  { eapply resting_posted; [exact Hc|exact Hh|exact Hl0|]. by apply elem_of_list_fmap_1. }
  destruct Hw1 as [(w1&_&_&Hw1&Hwi&_)|[(q&_&_&Hg&_)|(la&e&lb&ma&y&_&_&_&_&_&_&_&Hg&_)]];
    [|by apply Hgone..].
  destruct (fill_of _ _ _ _ _ _ Hr Hty He Hev Hf) as (p&sm&->&Hacc&Hopp&Hsd).
  assert (Hsx : side_of_id (o_id x) = sd) by by apply (replay_ok _ _ _ _ Hc Hh Hl0) in Hx as [_ ?].
  rewrite Hid, Hsx in Hsd. rewrite Hid, <- Hsd in Hopp.
  apply elem_of_list_fmap in Hopp as (x1&Hxi&Hx1).
  assert (Hn : o_id w1 ∉ map o_id (resting m' sd)).
  { eapply (overtake_step c m _ _ m' sd x1 w1 ev Hr Hty He Hx1 Hw1); [|exact Hev|exact Hf|congruence].
    by rewrite Hwi, <- Hxi. }
  rewrite Hwi in Hn. intros sd' Hin.
  (* an order rests on the side its id names *)
  assert (sd' = sd) as ->; [|done].
  apply elem_of_list_fmap in Hin as (w2&Hw2&Hin).
  assert (Hh2 : history same_id c ((log0 ++ log) ++ [mk_entry (NewOrder p) r (emitted m m')]) m')
    by by eapply steps_app.
  assert (Hl2 : N.of_nat (length ((log0 ++ log) ++ [mk_entry (NewOrder p) r (emitted m m')])) < p63)
    by (rewrite !app_length in *; cbn in *; lia).
  apply (replay_ok _ _ _ _ Hc Hh2 Hl2) in Hin as [_ <-]. rewrite <- Hw2.
  by apply (replay_ok _ _ _ _ Hc Hh Hl0) in Hw as [_ ?].
Qed.

(** ** The line in front of an order *)
Lemma sumN_filter {A} (f : A -> N) (g : A -> bool) l :
  sumN f (List.filter g l) = sumN (fun x => if g x then f x else 0) l.
Proof. induction l as [|x l IH]; cbn; [done|]. destruct (g x); cbn; lia. Qed.
Lemma sumN_incl {A} (f : A -> N) (l1 l2 : list A) : NoDup l1 -> (forall x, x ∈ l1 -> x ∈ l2) ->
  sumN f l1 <= sumN f l2.
Proof.
  intros H1 Hin. destruct (submseteq_Permutation l1 l2) as (k&Hk).
  { by apply NoDup_submseteq. }
  rewrite (sumN_perm f l2 _ Hk), sumN_app. lia.
Qed.
Lemma sum_about_fills (ids : list N) E : NoDup ids ->
  sumN (fun id => sumN fill_base (about id E)) ids =
  sumN (fun ev => if existsb (N.eqb (event_id ev)) ids then fill_base ev else 0) E.
Proof.
  intros Hnd. induction E as [|ev E IH].
  - cbn [sumN]. rewrite <- (sumN_zero ids). apply sumN_ext. done.
  - cbn [sumN]. rewrite <- IH, <- (sum_about_one (fun id => fill_base ev)) by done.
    rewrite <- sumN_add. apply sumN_ext. intros id _. unfold about. cbn [List.filter].
    destruct (event_id ev =? id); cbn [sumN]; lia.
Qed.
Lemma nodup_filter_ids (f : order C -> bool) os : NoDup (map o_id os) ->
  NoDup (map o_id (List.filter f os)).
Proof.
  induction os as [|o os IH]; cbn; [done|]. intros H. apply NoDup_cons in H as [Ho H].
  destruct (f o); [|by apply IH]. cbn. apply NoDup_cons. split; [|by apply IH].
  intros Hin. apply Ho. apply elem_of_list_fmap in Hin as (y&->&Hy).
  apply elem_of_list_In, filter_In in Hy as [Hy _]. apply elem_of_list_fmap_1. by apply elem_of_list_In.
Qed.
Lemma qty_in_absent os id : id ∉ map o_id os -> qty_in os id = 0.
Proof.
  intros H. unfold qty_in. destruct (List.find _ os) as [o|] eqn:Hf; [|done].
  apply find_some in Hf as [Hin Heq]. apply N.eqb_eq in Heq. exfalso. apply H. rewrite <- Heq.
  apply elem_of_list_fmap_1. by apply elem_of_list_In.
Qed.
Lemma line_ids m sd id : NoDup (map o_id (resting m sd)) ->
  line m sd id = sumN (qty_in (resting m sd)) (map o_id (List.filter (in_line sd id) (resting m sd))).
Proof.
  intros Hnd. unfold line. rewrite sumN_map. apply sumN_ext. intros o Ho.
  apply elem_of_list_In, filter_In in Ho as [Ho _]. rewrite qty_in_in; [done|done|by apply elem_of_list_In].
Qed.
Lemma fills_ahead_step c m o r m' sd x ev : reachable same_id c m -> op_typed o ->
  exec same_id o m = (r, m') -> x ∈ resting m sd -> about (o_id x) (emitted m m') = [] ->
  ev ∈ emitted m m' -> is_fill ev = true -> side_of_id (event_id ev) = sd ->
  event_id ev ∈ map o_id (resting m sd) /\ ahead sd (event_id ev) (o_id x).
Proof.
  intros Hr Hty He Hx Hab Hev Hf Hsd.
  destruct (fill_of _ _ _ _ _ _ Hr Hty He Hev Hf) as (p&sm&->&Hacc&Hopp&Hs).
  rewrite Hs in Hsd. subst sd. split; [done|].
  by eapply (untouched_behind same_id c m p sm m' Hacc).
Qed.
Lemma side_u8_inj sd1 sd2 : side_u8 sd1 = side_u8 sd2 -> sd1 = sd2.
Proof. by destruct sd1, sd2. Qed.
Lemma line_step c m o r m' sd x y : reachable same_id c m -> op_typed o ->
  exec same_id o m = (r, m') -> NoDup (map o_id (resting m' sd)) ->
  x ∈ resting m sd -> y ∈ resting m' sd -> o_id y = o_id x ->
  (forall log, history same_id c log m -> N.of_nat (length log) < p63 -> id_seq sd (o_id x) < seq_of m) ->
  about (o_id x) (emitted m m') = [] ->
  sumN fill_base (List.filter (trade_at sd (id_price (o_id x))) (emitted m m')) + line m' sd (o_id x)
    <= line m sd (o_id x).
Proof.
  intros Hr Hty He Hnd' Hx Hy Hid Hseq Hab.
  assert (Hsx : id_seq sd (o_id x) < seq_of m).
  { destruct Hr as (_&log&Hh&Hl). by eapply Hseq. }
  pose proof (resting_nodup same_id c m sd Hr) as Hnd.
  rewrite !line_ids by done. set (ids := map o_id (List.filter (in_line sd (o_id x)) (resting m sd))).
  assert (Hids : NoDup ids) by by apply nodup_filter_ids.
  (* the orders in line afterwards were in line before *)
  assert (H1 : sumN (qty_in (resting m' sd))
      (map o_id (List.filter (in_line sd (o_id x)) (resting m' sd))) <= sumN (qty_in (resting m' sd)) ids).
  { apply sumN_incl; [by apply nodup_filter_ids|]. intros i Hi.
    apply elem_of_list_fmap in Hi as (z&->&Hz). apply elem_of_list_In, filter_In in Hz as [Hz Hl].
    apply elem_of_list_In in Hz.
    destruct (origin _ _ _ _ _ _ _ Hr Hty He Hz) as [(z0&Hz0&Hzi&_)|(p&sm&Hacc&Hp&<-)].
    - rewrite <- Hzi. apply elem_of_list_fmap_1. apply elem_of_list_In, filter_In.
      split; [by apply elem_of_list_In|]. unfold in_line in *. by rewrite Hzi.
    - pose proof (posted_seq_of _ _ _ _ _ _ Hacc Hp). unfold in_line in Hl. lia. }
  (* the trades at this price are against orders in line *)
  assert (H2 : sumN fill_base (List.filter (trade_at sd (id_price (o_id x))) (emitted m m')) <=
               sumN (fun i => sumN fill_base (about i (emitted m m'))) ids).
  { rewrite sum_about_fills, sumN_filter by done. apply sumN_le. intros ev Hev.
    destruct (trade_at _ _ ev) eqn:Ht; [|lia]. unfold trade_at in Ht.
    apply andb_true_iff in Ht as [Ht Hpr]. apply andb_true_iff in Ht as [Hf Hs].
    apply N.eqb_eq in Hs, Hpr. apply side_u8_inj in Hs.
    destruct (fills_ahead_step _ _ _ _ _ _ _ _ Hr Hty He Hx Hab Hev Hf Hs) as [Hin Ha].
    assert (existsb (N.eqb (event_id ev)) ids = true) as ->; [|done].
    apply existsb_exists. exists (event_id ev). split; [|apply N.eqb_refl].
    apply elem_of_list_In. apply elem_of_list_fmap in Hin as (w&Hw&Hin). unfold ids. rewrite Hw in *.
    apply elem_of_list_fmap_1. apply elem_of_list_In, filter_In. split; [by apply elem_of_list_In|].
    unfold in_line. destruct Ha as [Ha|[_ Ha]]; [|lia].
    unfold better_price in Ha. destruct sd; lia. }
  (* each of them loses what it trades *)
  assert (H3 : sumN (fun i => sumN fill_base (about i (emitted m m')) + qty_in (resting m' sd) i) ids <=
               sumN (qty_in (resting m sd)) ids).
  { apply sumN_le. intros i Hi. apply elem_of_list_fmap in Hi as (w&->&Hw).
    apply elem_of_list_In, filter_In in Hw as [Hw _]. apply elem_of_list_In in Hw.
    rewrite (qty_in_in (resting m sd)) by done.
    destruct (life_step same_id c m o r m' sd w Hr Hty He Hw)
      as [(_&_&w'&Hw'&Hi&_&Hq)|[(F1&q&HF&_&Hq&_&Hg)|(HF&_&Hg)]].
    - rewrite <- Hi, (qty_in_in (resting m' sd)) by done. rewrite Hi. lia.
    - rewrite HF, sumN_app, qty_in_absent by apply Hg. cbn. lia.
    - rewrite HF, qty_in_absent by apply Hg. cbn. lia. }
  rewrite sumN_add in H3. lia.
Qed.
Lemma line_steps c log0 m0 log m sd x : config_ok c -> history same_id c log0 m0 ->
  steps same_id m0 log m -> N.of_nat (length (log0 ++ log)) < p63 ->
  x ∈ resting m0 sd -> o_id x ∈ map o_id (resting m sd) -> events_about (o_id x) log = [] ->
  x ∈ resting m sd /\
  traded_at sd (id_price (o_id x)) log + line m sd (o_id x) <= line m0 sd (o_id x) /\
  forall ev, ev ∈ flat_map en_events log -> is_fill ev = true -> side_of_id (event_id ev) = sd ->
    ahead sd (event_id ev) (o_id x).
Proof.
  intros Hc Hh Hs. induction Hs as [|log m o r m' Hs IH Hty He]; intros Hl Hx Hin Hab.
  { split_and!; [done|cbn; lia|]. intros ev Hev. by apply elem_of_nil in Hev. }
  assert (Hh1 : history same_id c (log0 ++ log) m) by by eapply steps_app.
  assert (Hl1 : N.of_nat (length (log0 ++ log)) < p63) by (rewrite !app_length in *; cbn in *; lia).
  assert (Hl0 : N.of_nat (length log0) < p63) by (rewrite !app_length in *; cbn in *; lia).
  assert (Hr : reachable same_id c m) by (split; eauto).
  assert (Hr' : reachable same_id c m').
  { split; [done|]. exists (log0 ++ log ++ [mk_entry o r (emitted m m')]). split; [|done].
    eapply steps_app; [exact Hh|]. by econstructor. }
  rewrite events_about_app, events_about_one in Hab. apply app_nil in Hab as [Hab1 Hab2].
  cbn [en_events] in Hab2.
  apply elem_of_list_fmap in Hin as (y&Hid&Hy).
  destruct (origin _ _ _ _ _ _ _ Hr Hty He Hy) as [(y0&Hy0&Hyi&Hyc&Hyq)|(p&sm&Hacc&Hp&<-)].
  2:{ pose proof (posted_seq_of _ _ _ _ _ _ Hacc Hp). rewrite <- Hid in *.
      pose proof (resting_seq _ _ _ _ _ Hc Hh Hl0 Hx).
      pose proof (steps_seq same_id c log0 m0 log m Hc Hh Hs Hl1). lia. }
  destruct IH as (Hxm&Hln&Hah); [done|done| |done|].
  { rewrite Hid, <- Hyi. by apply elem_of_list_fmap_1. }
  assert (Hx' : x ∈ resting m' sd).
  { destruct (life_step same_id c m o r m' sd x Hr Hty He Hxm)
      as [(_&_&x'&Hx'&Hi&Hcb&Hq)|[(F1&q&HF&_)|(_&_&Hg)]].
    - rewrite Hab2 in Hq. cbn in Hq.
      assert (x' = x) as <-; [|done].
      destruct x' as [[k' q'] c'], x as [[k q] c1]. unfold o_id, o_qty, o_cb in *. cbn in *.
      f_equal; [f_equal; [done|lia]|done].
    - rewrite Hab2 in HF. by destruct F1.
    - exfalso. apply (Hg sd). rewrite Hid. by apply elem_of_list_fmap_1. }
  split_and!; [done| |].
  - pose proof (line_step c m o r m' sd x x Hr Hty He (resting_nodup same_id c m' sd Hr') Hxm Hx' eq_refl) as Hst.
    specialize (Hst ltac:(intros log1 Hlg Hlen; exact (resting_seq _ _ _ _ _ Hc Hlg Hlen Hxm)) Hab2).
    unfold traded_at in *. rewrite flat_map_app, List.filter_app, sumN_app. cbn [flat_map en_events].
    rewrite app_nil_r. lia.
  - intros ev Hev Hf Hsd. rewrite flat_map_app in Hev. apply elem_of_app in Hev as [Hev|Hev]; [by apply Hah|].
    cbn [flat_map en_events] in Hev. rewrite app_nil_r in Hev.
    by destruct (fills_ahead_step _ _ _ _ _ _ _ _ Hr Hty He Hxm Hab2 Hev Hf Hsd).
Qed.

(** ** Evictions take the last in line *)
Lemma rests_on_its_side c log m sd x : config_ok c -> history same_id c log m ->
  N.of_nat (length log) < p63 -> x ∈ resting m sd -> side_of_id (o_id x) = sd.
Proof. intros Hc Hh Hl Hx. by apply (replay_ok _ _ _ _ Hc Hh Hl) in Hx as [_ ?]. Qed.
Lemma evicted_last c log0 m0 la e lb m p sd x w ev : config_ok c -> history same_id c log0 m0 ->
  steps same_id m0 (la ++ e :: lb) m -> N.of_nat (length (log0 ++ la ++ e :: lb)) < p63 ->
  x ∈ resting m0 sd -> w ∈ resting m0 sd -> ahead sd (o_id x) (o_id w) ->
  en_op e = NewOrder p -> p_side p = sd -> ev ∈ en_events e -> event_id ev = o_id x ->
  gone m (o_id w).
Proof.
  intros Hc Hh Hs Hl Hx Hw Ha Hop Hsd Hev Hid.
  change (e :: lb) with ([e] ++ lb) in *.
  apply steps_split in Hs as (m1&H1&H2). apply steps_split in H2 as (m2&H2&H3).
  rewrite !app_length in Hl. cbn [length] in Hl.
  assert (Hh1 : history same_id c (log0 ++ la) m1) by by eapply steps_app.
  assert (Hl0 : N.of_nat (length log0) < p63) by lia.
  assert (Hl1 : N.of_nat (length (log0 ++ la)) < p63) by (rewrite app_length; lia).
  assert (Hr1 : reachable same_id c m1) by (split; eauto).
  pose proof (rests_on_its_side _ _ _ _ _ Hc Hh Hl0 Hx) as Hsx.
  pose proof (rests_on_its_side _ _ _ _ _ Hc Hh Hl0 Hw) as Hsw.
  assert (Hwp : o_id w ∈ posted_ids (log0 ++ la)).
  { rewrite posted_ids_app. apply elem_of_app. left. eapply resting_posted; [exact Hc|exact Hh|exact Hl0|].
    by apply elem_of_list_fmap_1. }
  assert (Hgone : gone m1 (o_id w) -> gone m (o_id w)).
  { intros Hg. unfold gone. eapply gone_forever; [exact Hc|exact Hh1| | |exact Hwp|exact Hg].
    - eapply steps_app; [exact H2|exact H3].
    - rewrite !app_length. cbn [length]. lia. }
  apply Hgone. apply steps_one in H2 as (Hty&He&Hevs). rewrite Hop in *. rewrite Hevs in Hev.
  destruct (emits_new _ _ _ _ _ _ Hr1 Hty He Hev) as (p'&sm&[= <-]&_&Hacc).
  assert (Hown : event_id ev ∈ map o_id (resting m1 (p_side p))).
  { destruct (event_sources _ _ _ _ _ _ Hacc _ Hev) as [Hin|[_ Hin]]; [|done].
    apply elem_of_list_fmap in Hin as (y&Hy&Hin).
    apply (rests_on_its_side _ _ _ _ _ Hc Hh1 Hl1) in Hin. rewrite <- Hy, Hid, Hsx, Hsd in Hin.
    by destruct sd. }
  destruct (eviction _ _ _ _ _ _ Hacc) as [Hev1 Hev2].
  destruct (Hev1 ev Hev Hown) as [Hfull Hpost].
  destruct (Hev2 Hfull Hpost) as (w0&E&Hw0&Hworst&_&HE&Hother&_).
  assert (Hw0x : o_id w0 = o_id x).
  { rewrite HE in Hev. apply elem_of_app in Hev as [Hev|Hev]; [by apply Hother in Hev|].
    apply elem_of_list_singleton in Hev as ->. exact Hid. }
  intros sd' Hin. apply elem_of_list_fmap in Hin as (w1&Hw1&Hin).
  pose proof (rests_on_its_side _ _ _ _ _ Hc Hh1 Hl1 Hin) as Hs1. rewrite <- Hw1, Hsw in Hs1. subst sd'.
  rewrite <- Hsd in Hin. specialize (Hworst w1 Hin).
  rewrite Hw0x, <- Hw1, Hsd in Hworst. eapply (ahead_asym sd); [exact Ha|]. apply Hworst.
  intros ->. rewrite Hw1, Hw0x in Ha. by apply ahead_irrefl in Ha.
Qed.
End Place.
