(** * HistoryProps.v: properties of whole histories *)
From Verif Require Import Machine Bytes Critbit EventQueue OrderBook Market Spec MachineProofs
  TreeProofs SlabProofs SlabProofs2 QueueProofs IdProofs Engine BookProofs EngineProofs
  MarketProofs MarketFacts NewOrderProps NewOrderProps2 InstrProps.
From Coq Require Import ZifyBool ZifyNat ZifyN.
From Coq Require Import Sorting.Sorted.

Section History.
Context {C : Type} (same_id : C -> C -> bool).
Implicit Types m : market C.
Implicit Types c : config C.
Implicit Types p : params C.
Implicit Types os : list (order C).
Implicit Types E : list (event_ref C).
Implicit Types log : list (entry C).

Ltac placed H :=
  let Hn := fresh "Hn" in
  apply accepted_newo in H as (L&pend&l1&l&E1&E2&own'&opp'&Hn).

(** ** Steps *)
Lemma steps_app m0 log1 m1 : steps same_id m0 log1 m1 -> forall log2 m2,
  steps same_id m1 log2 m2 -> steps same_id m0 (log1 ++ log2) m2.
Proof.
  intros H1 log2 m2. induction 1 as [|log m o r m' Hs IH Hty He].
  - by rewrite app_nil_r.
  - rewrite app_assoc. by econstructor.
Qed.
Lemma steps_split m0 log2 : forall log1 m2, steps same_id m0 (log1 ++ log2) m2 ->
  exists m1, steps same_id m0 log1 m1 /\ steps same_id m1 log2 m2.
Proof.
  induction log2 as [|e log2 IH] using rev_ind; intros log1 m2 H.
  - rewrite app_nil_r in H. exists m2. split; [done|constructor].
  - rewrite app_assoc in H. inversion H as [Hnil|log m o r m' Hs Hty He Heq].
    { by destruct (log1 ++ log2). }
    apply app_inj_tail in Heq as [-> <-]. subst m'.
    apply IH in Hs as (m1&H1&H2). exists m1. split; [done|]. by econstructor.
Qed.
Lemma steps_one m0 e m : steps same_id m0 [e] m ->
  op_typed (en_op e) /\ exec same_id (en_op e) m0 = (en_res e, m) /\ en_events e = emitted m0 m.
Proof.
  intros H. inversion H as [|log m1 o r m' Hs Hty He Heq].
  destruct log as [|x log]; [|by destruct log]. cbn in Heq. simplify_eq.
  inversion Hs as [|? ? ? ? ? ? ? ? Hx]; subst; [done|by destruct log].
Qed.
Lemma history_reachable c log m log' m' : config_ok c -> history same_id c log m ->
  steps same_id m log' m' -> N.of_nat (length (log ++ log')) < p63 -> reachable same_id c m.
Proof.
  intros Hc Hh Hs Hl. split; [done|]. exists log. split; [done|]. rewrite app_length in Hl. lia.
Qed.

(** ** The sequence number *)
Lemma posted_id_new c m p sm m' id : accepted same_id c m p sm m' -> posted_order_id sm = Some id ->
  id = order_id_of (limit_price p) (seq_of m) (p_side p) /\ seq_of m' = seq_of m + 1 /\
  limit_price p < p64 /\ 0 < limit_price p.
Proof.
  intros H Hp. placed H. destruct (no_ty _ _ _ _ _ _ _ _ _ _ _ _ _ _ Hn) as (_&_&Hl&_).
  pose proof (no_price _ _ _ _ _ _ _ _ _ _ _ _ _ _ Hn) as Hpb. unfold price_bad in Hpb.
  destruct (no_cfg _ _ _ _ _ _ _ _ _ _ _ _ _ _ Hn) as (_&Ht&_).
  apply orb_false_iff in Hpb as [_ Hpb].
  destruct (no_post _ _ _ _ _ _ _ _ _ _ _ _ _ _ Hn) as [| ? ? Hpa|? ? ? ? Hpa]; cbn in *; simplify_eq;
    rewrite Hpa in Hpb; cbn in Hpb; split_and!; done || lia.
Qed.
Lemma seq_mono c m o r m' : reachable same_id c m -> op_typed o -> exec same_id o m = (r, m') ->
  seq_of m <= seq_of m' <= seq_of m + 1.
Proof.
  intros Hr Hty He. pose proof Hr as (Hc&_). destruct (reachable_minv _ _ _ Hr) as (L&pend&Hm&Hs).
  by destruct (exec_minv _ _ _ _ _ _ _ _ Hc Hm Hty Hs He) as (?&?&_&?).
Qed.
Lemma steps_seq c log0 m0 log m : config_ok c -> history same_id c log0 m0 ->
  steps same_id m0 log m -> N.of_nat (length (log0 ++ log)) < p63 -> seq_of m0 <= seq_of m.
Proof.
  intros Hc Hh Hs. induction Hs as [|log m o r m' Hs IH Hty He]; intros Hl; [done|].
  rewrite !app_length in *. cbn [length] in Hl.
  assert (Hr : reachable same_id c m).
  { split; [done|]. exists (log0 ++ log). split; [by eapply steps_app|]. rewrite app_length. lia. }
  pose proof (seq_mono _ _ _ _ _ Hr Hty He). specialize (IH ltac:(lia)). lia.
Qed.

(** Only new orders post. *)
Lemma exec_posts c m o r m' sm id : reachable same_id c m -> op_typed o ->
  exec same_id o m = (r, m') -> r = Ok (Some sm) -> posted_order_id sm = Some id ->
  exists p, o = NewOrder p /\ accepted same_id c m p sm m'.
Proof.
  intros Hr Hty He -> Hp. destruct o as [p|id'|ids|n].
  - exists p. done.
  - destruct (cancel_ok_inv _ _ _ _ _ _ Hr He) as (o&_&_&[= ->]&_). done.
  - apply mass_cancel_seq in He as (sms&_&_&_&[= ->]). done.
  - destruct (consume_ok same_id c m n Hr) as (m1&H1&_). rewrite H1 in He. done.
Qed.

(** The ids of a log, and where they come from. *)
Lemma posted_ids_app log1 log2 : posted_ids (log1 ++ log2) = posted_ids log1 ++ posted_ids log2.
Proof. apply omap_app. Qed.
Lemma posted_ids_in log id : id ∈ posted_ids log ->
  exists log1 e log2, log = log1 ++ e :: log2 /\ posted_id e = Some id.
Proof.
  intros H. apply elem_of_list_omap in H as (e&He&Hp).
  apply elem_of_list_split in He as (log1&log2&->). eauto.
Qed.
Lemma posted_id_entry c m0 e m id : reachable same_id c m0 -> steps same_id m0 [e] m ->
  posted_id e = Some id ->
  exists p sm, en_op e = NewOrder p /\ en_res e = Ok (Some sm) /\ posted_order_id sm = Some id /\
    accepted same_id c m0 p sm m.
Proof.
  intros Hr Hs Hp. apply steps_one in Hs as (Hty&He&_).
  unfold posted_id in Hp. destruct (en_res e) as [[sm|]| | |] eqn:Hre; try done.
  destruct (exec_posts _ _ _ _ _ _ _ Hr Hty He eq_refl Hp) as (p&Hop&Hacc). eauto 10.
Qed.

Lemma posted_seq c log0 m0 log m id : config_ok c -> history same_id c log0 m0 ->
  steps same_id m0 log m -> N.of_nat (length (log0 ++ log)) < p63 -> id ∈ posted_ids log ->
  exists price s sd, id = order_id_of price s sd /\ 0 < price < p64 /\ seq_of m0 <= s < seq_of m.
Proof.
  intros Hc Hh Hs Hl Hid. apply posted_ids_in in Hid as (log1&e&log2&->&Hp).
  change (e :: log2) with ([e] ++ log2) in *.
  apply steps_split in Hs as (m1&H1&H2). apply steps_split in H2 as (m2&H2&H3).
  assert (Hh1 : history same_id c (log0 ++ log1) m1) by by eapply steps_app.
  assert (Hh2 : history same_id c ((log0 ++ log1) ++ [e]) m2) by by eapply steps_app.
  rewrite !app_length in Hl. cbn [length] in Hl.
  assert (Hr : reachable same_id c m1).
  { split; [done|]. eexists. split; [exact Hh1|]. rewrite app_length. lia. }
  destruct (posted_id_entry _ _ _ _ _ Hr H2 Hp) as (p&sm&_&_&Hpo&Hacc).
  destruct (posted_id_new _ _ _ _ _ _ Hacc Hpo) as (->&Hsq&?&?).
  exists (limit_price p), (seq_of m1), (p_side p). split; [done|]. split; [lia|].
  assert (seq_of m0 <= seq_of m1).
  { eapply steps_seq; [done|exact Hh|exact H1|]. rewrite app_length. lia. }
  assert (seq_of m2 <= seq_of m); [|lia].
  eapply steps_seq; [done|exact Hh2|exact H3|]. rewrite !app_length. cbn [length]. lia.
Qed.

Lemma history_seq_lt c log m : config_ok c -> history same_id c log m ->
  N.of_nat (length log) < p63 -> seq_of m < p63.
Proof.
  intros Hc Hh Hl. destruct (history_minv _ _ _ _ Hc Hh Hl) as (L&pend&_&?). lia.
Qed.

(** ** C11: ids are never reused *)
Lemma ids_disjoint c log0 m0 log m id : config_ok c -> history same_id c log0 m0 ->
  steps same_id m0 log m -> N.of_nat (length (log0 ++ log)) < p63 ->
  id ∈ posted_ids log0 -> id ∈ posted_ids log -> False.
Proof.
  intros Hc Hh Hs Hl H1 H2.
  assert (Hl0 : N.of_nat (length log0) < p63) by (rewrite app_length in Hl; lia).
  destruct (posted_seq c [] _ _ _ id Hc ltac:(constructor) Hh ltac:(done) H1)
    as (pr1&s1&sd1&He1&Hp1&Hs1).
  destruct (posted_seq _ _ _ _ _ id Hc Hh Hs Hl H2) as (pr2&s2&sd2&He2&Hp2&Hs2).
  assert (Hh' : history same_id c (log0 ++ log) m) by by eapply steps_app.
  pose proof (history_seq_lt _ _ _ Hc Hh' Hl) as Hsq.
  assert (sd1 = sd2) as ->.
  { rewrite <- (side_of_order_id pr1 s1 sd1) by lia. rewrite <- (side_of_order_id pr2 s2 sd2) by lia.
    congruence. }
  rewrite He1 in He2. apply order_id_inj in He2 as [_ ?]; lia.
Qed.
Lemma posted_ids_nodup c log m : config_ok c -> history same_id c log m ->
  N.of_nat (length log) < p63 -> NoDup (posted_ids log).
Proof.
  intros Hc Hh. unfold history in *.
  induction Hh as [|log m o r m' Hs IH Hty He]; intros Hl; [constructor|].
  rewrite app_length in Hl. cbn [length] in Hl.
  rewrite posted_ids_app. apply NoDup_app. split; [apply IH; lia|]. split.
  - intros x H1 H2. eapply (ids_disjoint c log m [_] m'); [done|exact Hs| | |exact H1|exact H2].
    + change [mk_entry o r (emitted m m')] with ([] ++ [mk_entry o r (emitted m m')]).
      econstructor; [constructor|done|done].
    + rewrite app_length. cbn [length]. lia.
  - cbn. destruct (posted_id _); [|constructor]. apply NoDup_singleton.
Qed.

(** ** Effect of one instruction on the book *)
Definition act1 (ev : event_ref C) (o : order C) : option (order C) :=
  match ev with
  | EvFill e _ _ =>
      Some (if o_id o =? fe_maker_id e then (mk_leaf (o_id o) (o_qty o - fe_base e), o_cb o) else o)
  | EvOut e _ => if o_id o =? oe_id e then None else Some o
  end.
Fixpoint acts E (o : order C) : option (order C) :=
  match E with
  | [] => Some o
  | ev :: E => match act1 ev o with Some o' => acts E o' | None => None end
  end.
Lemma act1_id ev (o o' : order C) : act1 ev o = Some o' -> o_id o' = o_id o.
Proof.
  destruct ev as [e ? ?|e ?]; unfold apply_event; cbn [act1].
  - intros [= <-]. by destruct (_ =? _).
  - destruct (_ =? _); by intros [= <-].
Qed.
Lemma acts_id E : forall (o o' : order C), acts E o = Some o' -> o_id o' = o_id o.
Proof.
  induction E as [|ev E IH]; intros o o'; cbn; [by intros [= <-]|].
  destruct (act1 ev o) as [o1|] eqn:H1; [|done]. intros H2. apply IH in H2. apply act1_id in H1. congruence.
Qed.
Lemma elem_apply_event os ev x : x ∈ apply_event os ev <-> exists o, o ∈ os /\ act1 ev o = Some x.
Proof.
  destruct ev as [e ? ?|e ?]; unfold apply_event; cbn [act1].
  - rewrite elem_of_list_In, in_map_iff. split.
    + intros (o&H1&H2). exists o. rewrite elem_of_list_In. split; [done|by rewrite <- H1].
    + intros (o&H1&H2). exists o. rewrite <- elem_of_list_In. split; [by injection H2|done].
  - rewrite elem_of_list_In, filter_In, <- elem_of_list_In, negb_true_iff. split.
    + intros [H1 H2]. exists x. by rewrite H2.
    + intros (o&H1&H2). destruct (o_id o =? oe_id e) eqn:He; simplify_eq. done.
Qed.
Lemma elem_apply_events E : forall os x, x ∈ apply_events os E <-> exists o, o ∈ os /\ acts E o = Some x.
Proof.
  induction E as [|ev E IH]; intros os x; cbn.
  - split; [eauto|]. intros (o&?&[= <-]). done.
  - change (fold_left apply_event E (apply_event os ev)) with (apply_events (apply_event os ev) E).
    rewrite IH. split.
    + intros (o&H1&H2). apply elem_apply_event in H1 as (o0&H0&H1). exists o0. by rewrite H1.
    + intros (o&H1&H2). destruct (act1 ev o) as [o1|] eqn:Ha; [|done]. exists o1. split; [|done].
      apply elem_apply_event. eauto.
Qed.
Lemma elem_delete_ids ids os x : x ∈ delete_ids ids os <-> x ∈ os /\ o_id x ∉ ids.
Proof.
  unfold delete_ids. rewrite elem_of_list_In, filter_In, <- elem_of_list_In, negb_true_iff.
  split; intros [H1 H2]; split; try done.
  - intros Hin. apply elem_of_list_In in Hin.
    assert (existsb (N.eqb (o_id x)) ids = true); [|congruence].
    apply existsb_exists. exists (o_id x). split; [done|apply N.eqb_refl].
  - apply not_true_is_false. intros Hex. apply existsb_exists in Hex as (y&Hy&He).
    apply H2. apply elem_of_list_In. apply N.eqb_eq in He. congruence.
Qed.

Lemma emitted_same m m' : pending m' = pending m -> emitted m m' = [].
Proof. intros H. unfold emitted. by rewrite H, drop_all. Qed.
Lemma emitted_drop m m' n : pending m' = drop n (pending m) -> emitted m m' = [].
Proof. intros H. unfold emitted. rewrite H, drop_drop. apply drop_ge. lia. Qed.

Lemma posted_side c m p sm m' id : accepted same_id c m p sm m' -> posted_order_id sm = Some id ->
  side_of_id id = p_side p /\ id_price id = limit_price p.
Proof.
  intros H Hp. destruct (posted_id_new _ _ _ _ _ _ H Hp) as (->&_&Hl&_).
  destruct H as (Hr&_). destruct (reachable_minv _ _ _ Hr) as (L&pend&Hm&Hs).
  split; [by apply side_of_order_id|]. unfold id_price.
  rewrite order_id_of_eq by (done || lia).
  pose proof (id_low_lt (seq_of m) (p_side p)).
  rewrite N.div_add_l by lia. rewrite N.div_small; lia.
Qed.
Lemma step_effect c m o r m' : reachable same_id c m -> op_typed o -> exec same_id o m = (r, m') ->
  let e := mk_entry o r (emitted m m') in
  forall sd x, x ∈ resting m' sd <->
    (x ∈ apply_events (resting m sd) (en_events e) /\ o_id x ∉ cancelled_ids e) \/
    (x ∈ posted_order e /\ side_of_id (o_id x) = sd).
Proof.
  intros Hr Hty He e sd x. unfold e. cbn [en_events].
  assert (Hid : emitted m m' = [] -> cancelled_ids e = [] -> posted_order e = [] ->
    resting m' sd = resting m sd ->
    x ∈ resting m' sd <->
    (x ∈ apply_events (resting m sd) (emitted m m') /\ o_id x ∉ cancelled_ids e) \/
    (x ∈ posted_order e /\ side_of_id (o_id x) = sd)).
  { intros -> -> -> ->. cbn. split.
    - intros Hx. left. split; [done|]. apply not_elem_of_nil.
    - intros [[? _]|[Hx _]]; [done|]. by apply elem_of_nil in Hx. }
  destruct (is_ok r) eqn:Hok.
  2:{ pose proof (exec_failed _ _ _ _ _ He Hok) as ->. apply Hid.
      - by apply emitted_same.
      - unfold cancelled_ids, e. cbn. destruct o, r; done.
      - unfold posted_order, e. cbn. destruct o, r; done.
      - done. }
  destruct r as [r| | |]; try done. clear Hok. destruct o as [p|id|ids|n].
  - destruct (new_order_outcomes _ _ _ _ _ _ Hr Hty He) as [(sm&[= ->])|(_&[?|[?|?]])]; try done.
    assert (Hacc : accepted same_id c m p sm m') by done.
    unfold cancelled_ids, posted_order. cbn [en_op en_res].
    assert (sd = p_side p \/ sd = opposite (p_side p)) as [->| ->]
      by (destruct sd, (p_side p); auto).
    + pose proof (posted_visible _ _ _ _ _ _ Hacc) as Hv.
      destruct (posted_order_id sm) as [id|] eqn:Hp.
      * destruct Hv as (Hv&_). rewrite Hv. destruct (posted_side _ _ _ _ _ _ Hacc Hp) as [Hs _].
        rewrite elem_of_cons, elem_of_list_singleton. split.
        -- intros [->|Hx]; [right; split; [done|exact Hs]|left]. split; [done|apply not_elem_of_nil].
        -- intros [[? _]|[-> _]]; auto.
      * rewrite Hv. split.
        -- intros Hx. left. split; [|apply not_elem_of_nil].
           apply apply_events_untouched; [done|].
           apply about_nil. intros ev Hev Heq.
           destruct (eviction _ _ _ _ _ _ Hacc) as [Hevi _].
           destruct (Hevi ev Hev) as [_ ?]; [|congruence]. rewrite Heq. by apply elem_of_list_fmap_1.
        -- intros [[Hx _]|[Hx _]]; [|by apply elem_of_nil in Hx].
           apply elem_apply_events in Hx as (o&Ho&Ha).
           assert (Hun : forall E, (forall ev, ev ∈ E -> event_id ev <> o_id o) -> acts E o = Some o).
           { clear. induction E as [|ev E IH]; intros H; [done|]. cbn.
             pose proof (H ev ltac:(left)) as Hne.
             assert (act1 ev o = Some o) as ->.
             { destruct ev as [e ? ?|e ?]; cbn in *.
               - destruct (N.eqb_spec (o_id o) (fe_maker_id e)); [congruence|done].
               - destruct (N.eqb_spec (o_id o) (oe_id e)); [congruence|done]. }
             apply IH. intros ev' Hev'. apply H. by right. }
           rewrite Hun in Ha; [by simplify_eq|].
           intros ev Hev Heq. destruct (eviction _ _ _ _ _ _ Hacc) as [Hevi _].
           destruct (Hevi ev Hev) as [_ ?]; [|congruence]. rewrite Heq. by apply elem_of_list_fmap_1.
    + rewrite (opposite_replay _ _ _ _ _ _ Hacc). split.
      * intros Hx. left. split; [done|apply not_elem_of_nil].
      * intros [[? _]|[Hx Hs]]; [done|]. exfalso.
        destruct (posted_order_id sm) as [id|] eqn:Hp; [|by apply elem_of_nil in Hx].
        apply elem_of_list_singleton in Hx as ->.
        destruct (posted_side _ _ _ _ _ _ Hacc Hp) as [Hs' _].
        change (side_of_id id = opposite (p_side p)) in Hs. rewrite Hs' in Hs. by destruct (p_side p).
  - destruct (cancel_ok_inv _ _ _ _ _ _ Hr He) as (o&_&_&_&Hres&Hevq).
    rewrite (emitted_same m m') by by apply pending_evq. unfold cancelled_ids, posted_order. cbn.
    rewrite Hres, elem_of_list_In, filter_In, <- elem_of_list_In, negb_true_iff, N.eqb_neq.
    rewrite elem_of_list_singleton. split; [by left|]. intros [?|[Hx _]]; [done|].
    by apply elem_of_nil in Hx.
  - destruct (mass_cancel_exact same_id c m ids Hr) as [(_&_&_&_&m1&Hx&Hres&Hevq)|(_&r1&Hx&Hr1)].
    2:{ rewrite Hx in He. destruct Hr1 as [->|[->| ->]]; done. }
    rewrite Hx in He. simplify_eq.
    rewrite (emitted_same m m') by by apply pending_evq. unfold cancelled_ids, posted_order. cbn.
    rewrite Hres, elem_delete_ids. split; [by left|]. intros [?|[Hx' _]]; [done|].
    by apply elem_of_nil in Hx'.
  - destruct (consume_ok same_id c m n Hr) as (m1&Hx&Hp&Hb&Ha&_). rewrite Hx in He. simplify_eq.
    apply Hid; try done.
    + by eapply emitted_drop.
    + apply resting_tree. by destruct sd.
Qed.

(** ** C39: the log determines the book *)
Lemma replay_app log1 log2 : replay (log1 ++ log2) = fold_left replay_entry log2 (replay log1).
Proof. unfold replay. by rewrite fold_left_app. Qed.
Lemma replay_ok c log m : config_ok c -> history same_id c log m -> N.of_nat (length log) < p63 ->
  forall sd o, o ∈ resting m sd <-> o ∈ replay log /\ side_of_id (o_id o) = sd.
Proof.
  intros Hc Hh. unfold history in *.
  induction Hh as [|log m o r m' Hs IH Hty He]; intros Hl sd x.
  { pose proof (init_minv c Hc) as Hm. rewrite (in_resting _ _ _ _ _ _ Hm). cbn.
    split; [by intros ?%elem_of_nil|]. by intros [?%elem_of_nil _]. }
  rewrite app_length in Hl. cbn [length] in Hl.
  assert (Hr : reachable same_id c m).
  { split; [done|]. exists log. split; [done|]. lia. }
  rewrite (step_effect _ _ _ _ _ Hr Hty He), replay_app. cbn [fold_left]. unfold replay_entry.
  rewrite elem_of_app, elem_delete_ids. rewrite !elem_apply_events.
  specialize (IH ltac:(lia)). split.
  - intros [[(o0&Ho0&Ha) Hn]|[Hp Hsd]]; [|by split; [right|]].
    apply IH in Ho0 as [Ho0 Hsd]. apply acts_id in Ha as Hid. rewrite Hid. split; [|done].
    left. rewrite <- Hid. split; [eauto|done].
  - intros [[[(o0&Ho0&Ha) Hn]|Hp] Hsd]; [left|by right].
    split; [|done]. exists o0. split; [|done]. apply IH. split; [done|].
    apply acts_id in Ha. congruence.
Qed.

(** Every resting order was posted. *)
Lemma resting_posted c log m sd : config_ok c -> history same_id c log m ->
  N.of_nat (length log) < p63 -> forall id, id ∈ map o_id (resting m sd) -> id ∈ posted_ids log.
Proof.
  intros Hc Hh. unfold history in *.
  induction Hh as [|log m o r m' Hs IH Hty He]; intros Hl id Hid.
  { pose proof (init_minv c Hc) as Hm. rewrite (in_resting_ids _ _ _ _ _ _ Hm) in Hid. done. }
  rewrite app_length in Hl. cbn [length] in Hl.
  assert (Hr : reachable same_id c m).
  { split; [done|]. exists log. split; [done|]. lia. }
  apply elem_of_list_fmap in Hid as (x&->&Hx).
  rewrite (step_effect _ _ _ _ _ Hr Hty He) in Hx. rewrite posted_ids_app.
  apply elem_of_app. destruct Hx as [[Hx _]|[Hx _]].
  - left. apply elem_apply_events in Hx as (o0&Ho0&Ha). apply acts_id in Ha. rewrite Ha.
    apply (IH ltac:(lia)). by apply elem_of_list_fmap_1.
  - right. unfold posted_order in Hx. cbn in Hx |- *. unfold posted_id. cbn.
    destruct o; try by apply elem_of_nil in Hx.
    destruct r as [[sm|]| | |]; try by apply elem_of_nil in Hx.
    destruct (posted_order_id sm) as [id|]; [|by apply elem_of_nil in Hx].
    apply elem_of_list_singleton in Hx as ->. left.
Qed.
(** An id that is gone never comes back. *)
Lemma gone_forever c log0 m0 log m id : config_ok c -> history same_id c log0 m0 ->
  steps same_id m0 log m -> N.of_nat (length (log0 ++ log)) < p63 ->
  id ∈ posted_ids log0 -> (forall sd, id ∉ map o_id (resting m0 sd)) ->
  forall sd, id ∉ map o_id (resting m sd).
Proof.
  intros Hc Hh Hs. induction Hs as [|log m o r m' Hs IH Hty He]; intros Hl Hp Hn sd Hin; [by eapply Hn|].
  rewrite !app_length in *. cbn [length] in Hl.
  assert (Hh1 : history same_id c (log0 ++ log) m) by by eapply steps_app.
  assert (Hr : reachable same_id c m).
  { split; [done|]. eexists. split; [exact Hh1|]. rewrite app_length. lia. }
  apply elem_of_list_fmap in Hin as (x&->&Hx).
  rewrite (step_effect _ _ _ _ _ Hr Hty He) in Hx. destruct Hx as [[Hx _]|[Hx _]].
  - apply elem_apply_events in Hx as (o0&Ho0&Ha). apply acts_id in Ha.
    eapply IH; [lia|done|done|]. rewrite Ha. by apply elem_of_list_fmap_1.
  - eapply (ids_disjoint c (log0 ++ log) m [mk_entry o r (emitted m m')] m'); [done|done| | | |].
    + change [mk_entry o r (emitted m m')] with ([] ++ [mk_entry o r (emitted m m')]).
      econstructor; [constructor|done|done].
    + rewrite !app_length. cbn [length]. lia.
    + rewrite posted_ids_app. apply elem_of_app. by left.
    + unfold posted_order in Hx. cbn in Hx |- *. unfold posted_id. cbn.
      destruct o; try by apply elem_of_nil in Hx.
      destruct r as [[sm|]| | |]; try by apply elem_of_nil in Hx.
      destruct (posted_order_id sm) as [id|]; [|by apply elem_of_nil in Hx].
      apply elem_of_list_singleton in Hx as ->. left.
Qed.

(** ** C12, C13: what an id says *)
Lemma posted_encodes c log0 m0 e m id : config_ok c -> history same_id c log0 m0 ->
  N.of_nat (length log0) < p63 -> steps same_id m0 [e] m -> posted_id e = Some id ->
  exists p, en_op e = NewOrder p /\ id_price id = limit_price p /\ side_of_id id = p_side p /\
    id < p128.
Proof.
  intros Hc Hh Hl Hs Hp.
  assert (Hr : reachable same_id c m0) by (split; [done|]; eauto).
  destruct (posted_id_entry _ _ _ _ _ Hr Hs Hp) as (p&sm&Hop&_&Hpo&Hacc). exists p.
  destruct (posted_side _ _ _ _ _ _ Hacc Hpo) as [H1 H2]. split_and!; try done.
  destruct (posted_id_new _ _ _ _ _ _ Hacc Hpo) as (->&_&Hlp&_).
  destruct (reachable_minv _ _ _ Hr) as (L&pend&Hm&Hsq).
  apply order_id_lt; [done|lia].
Qed.
Lemma id_seq_order price s sd : price < p64 -> s < p64 -> id_seq sd (order_id_of price s sd) = s.
Proof.
  intros Hp Hs. unfold id_seq. rewrite order_id_of_eq by done.
  pose proof (id_low_lt s sd) as Hlow.
  rewrite N.add_comm, N.mod_add, N.mod_small by lia.
  unfold id_low in *. destruct sd; [unfold not64 in *; lia|done].
Qed.
Lemma posted_time c log1 e1 log2 e2 log3 m id1 id2 : config_ok c ->
  history same_id c (log1 ++ e1 :: log2 ++ e2 :: log3) m ->
  N.of_nat (length (log1 ++ e1 :: log2 ++ e2 :: log3)) < p63 ->
  posted_id e1 = Some id1 -> posted_id e2 = Some id2 -> side_of_id id1 = side_of_id id2 ->
  id_seq (side_of_id id1) id1 < id_seq (side_of_id id2) id2 /\
  (id_price id1 = id_price id2 -> ahead (side_of_id id1) id1 id2).
Proof.
  intros Hc Hh Hl Hp1 Hp2 Hsd.
  change (log1 ++ e1 :: log2 ++ e2 :: log3) with (log1 ++ [e1] ++ log2 ++ [e2] ++ log3) in *.
  rewrite app_assoc in Hh. rewrite (app_assoc log1) in Hl.
  apply steps_split in Hh as (m1&Hh1&Hh2).
  rewrite app_assoc in Hh2. rewrite (app_assoc log2) in Hl.
  apply steps_split in Hh2 as (m2&Hh2&Hh3).
  assert (Hl1 : N.of_nat (length (log1 ++ [e1])) < p63) by (rewrite app_length in Hl; lia).
  assert (Hin1 : id1 ∈ posted_ids (log1 ++ [e1])).
  { rewrite posted_ids_app. apply elem_of_app. right. cbn. rewrite Hp1. left. }
  assert (Hin2 : id2 ∈ posted_ids (log2 ++ [e2])).
  { rewrite posted_ids_app. apply elem_of_app. right. cbn. rewrite Hp2. left. }
  assert (Hl2 : N.of_nat (length ((log1 ++ [e1]) ++ (log2 ++ [e2]))) < p63).
  { rewrite !app_length in *. lia. }
  destruct (posted_seq c [] _ _ _ id1 Hc ltac:(constructor) Hh1 Hl1 Hin1) as (pr1&s1&sd1&He1&Hpr1&Hs1).
  destruct (posted_seq _ _ _ _ _ id2 Hc Hh1 Hh2 Hl2 Hin2) as (pr2&s2&sd2&He2&Hpr2&Hs2).
  assert (Hsq : seq_of m2 < p63).
  { eapply history_seq_lt; [done| |exact Hl2]. by eapply steps_app. }
  assert (Hx1 : side_of_id id1 = sd1) by (rewrite He1; apply side_of_order_id; lia).
  assert (Hx2 : side_of_id id2 = sd2) by (rewrite He2; apply side_of_order_id; lia).
  assert (Hq : id_seq (side_of_id id1) id1 < id_seq (side_of_id id2) id2).
  { rewrite Hx1, Hx2, He1, He2, !id_seq_order by lia. lia. }
  split; [done|]. intros Heq. right. split; [done|]. by rewrite Hsd in Hq |- *.
Qed.
End History.
