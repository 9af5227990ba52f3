(** * LifeProps.v: the life of an order (C39, C40) *)
From Verif Require Import Machine Bytes Critbit EventQueue OrderBook Market Spec MachineProofs
  TreeProofs SlabProofs SlabProofs2 QueueProofs IdProofs Engine BookProofs EngineProofs
  MarketProofs MarketFacts NewOrderProps NewOrderProps2 SelfTradeProps InstrProps HistoryProps.
From Coq Require Import ZifyBool ZifyNat ZifyN.

Section Life.
Context {C : Type} (same_id : C -> C -> bool).
Implicit Types m : market C.
Implicit Types c : config C.
Implicit Types p : params C.
Implicit Types os : list (order C).
Implicit Types E F : list (event_ref C).
Implicit Types log : list (entry C).

Ltac placed H :=
  let Hn := fresh "Hn" in
  apply accepted_newo in H as (L&pend&l1&l&E1&E2&own'&opp'&Hn).

(** ** One matching loop *)
Lemma esteps_life p min l os E l' os' : esteps same_id p min l os E l' os' ->
  NoDup (map o_id os) -> forall x : order C, x ∈ os ->
  (Forall (fun ev => is_fill ev = true) (about (o_id x) E) /\
   exists y : order C, y ∈ os' /\ o_id y = o_id x /\ o_cb y = o_cb x /\
     o_qty y + sumN fill_base (about (o_id x) E) = o_qty x) \/
  (exists F q, about (o_id x) E = F ++ [maker_out (opposite (p_side p)) (o_id x) (o_cb x) q] /\
     Forall (fun ev => is_fill ev = true) F /\ q + sumN fill_base F = o_qty x /\
     o_id x ∉ map o_id os').
Proof.
  induction 1 as [|l os l1 os1 E1 E2 l2 os2 Hs Hes IH]; intros Hnd x Hx.
  { left. split; [constructor|]. exists x. cbn. split_and!; try done. lia. }
  apply estep_next in Hs as [Hs _].
  assert (Hgo : forall z : order C, o_id z <> o_id x ->
    (forall ev, ev ∈ E1 -> event_id ev = o_id z) -> about (o_id x) (E1 ++ E2) = about (o_id x) E2).
  { intros z Hne Hev. rewrite about_app, (about_nil _ E1); [done|].
    intros ev Hin. rewrite Hev by done. done. }
  assert (Hrest : forall z rest, NoDup (map o_id (z :: rest)) -> x ∈ rest -> o_id z <> o_id x).
  { intros z rest Hn Hin Heq. cbn in Hn. apply NoDup_cons in Hn as [Hn _]. apply Hn. rewrite Heq.
    by apply elem_of_list_fmap_1. }
  assert (Hgone : forall rest, map o_id os1 = rest -> o_id x ∉ rest ->
    about (o_id x) E2 = [] /\ o_id x ∉ map o_id os2).
  { intros rest <- Hni. pose proof (esteps_eats _ _ _ _ _ _ _ _ Hes) as He. split.
    - apply about_nil. intros ev Hev Heq. apply Hni. rewrite <- Heq. by eapply eats_event_ids.
    - destruct (eats_ids _ _ _ He) as [d Hd]. rewrite Hd in Hni. intros Hin. apply Hni.
      apply elem_of_app. by right. }
  inversion Hs as [z rest Hcp Hsx|z rest base quote Hno Hb ? Hq|z rest base quote Hno Hb ? Hq]; subst.
  - apply elem_of_cons in Hx as [->|Hx].
    + right. cbn in Hnd. apply NoDup_cons in Hnd as [Hz Hnd].
      destruct (Hgone _ eq_refl Hz) as [Ha Hg].
      exists [], (o_qty z). rewrite about_app, Ha. cbn. rewrite N.eqb_refl. split_and!; try done. lia.
    + rewrite (Hgo z); [|by eapply Hrest|].
      * apply IH; [|done]. cbn in Hnd. by apply NoDup_cons in Hnd as [_ ?].
      * intros ev Hev. by apply elem_of_list_singleton in Hev as ->.
  - assert (Hle : trade_base l z <= o_qty z) by (unfold trade_base; lia).
    apply elem_of_cons in Hx as [->|Hx].
    + right. cbn in Hnd. apply NoDup_cons in Hnd as [Hz Hnd].
      destruct (Hgone _ eq_refl Hz) as [Ha Hg].
      exists [ev_fill p z (trade_base l z) (quote_of (p_side p) (trade_base l z) (o_price z))],
        (o_qty z - trade_base l z).
      rewrite about_app, Ha. cbn. rewrite N.eqb_refl. cbn. split_and!; try done; [|lia].
      by constructor.
    + rewrite (Hgo z); [|by eapply Hrest|].
      * apply IH; [|done]. cbn in Hnd. by apply NoDup_cons in Hnd as [_ ?].
      * intros ev Hev. apply elem_of_cons in Hev as [->|Hev]; [done|].
        by apply elem_of_list_singleton in Hev as ->.
  - assert (Hle : trade_base l z <= o_qty z) by (unfold trade_base; lia).
    apply elem_of_cons in Hx as [->|Hx].
    + specialize (IH Hnd _ ltac:(left)).
      set (f := ev_fill p z (trade_base l z) (quote_of (p_side p) (trade_base l z) (o_price z))) in *.
      assert (Hab : about (o_id z) ([f] ++ E2) = f :: about (o_id z) E2).
      { unfold about. cbn. by rewrite N.eqb_refl. }
      rewrite Hab. remember (mk_leaf (o_id z) (o_qty z - trade_base l z), o_cb z) as z' eqn:Hz'.
      assert (Hi : o_id z' = o_id z) by by rewrite Hz'.
      assert (Hqz : o_qty z' = o_qty z - trade_base l z) by by rewrite Hz'.
      assert (Hcb : o_cb z' = o_cb z) by by rewrite Hz'.
      rewrite Hi, Hqz, Hcb in IH. clear Hz'.
      destruct IH as [(Hf&y&Hy&H1&H2&H3)|(F&q&Hf&H1&H2&H3)].
      * left. split; [by constructor|]. exists y. split_and!; try done. cbn. lia.
      * right. exists (f :: F), q. rewrite Hf. split_and!; try done; [by constructor|]. cbn. lia.
    + rewrite (Hgo z); [|by eapply Hrest|].
      * apply IH; [done|by right].
      * intros ev Hev. by apply elem_of_list_singleton in Hev as ->.
Qed.

Lemma about_fills c m p sm m' : accepted same_id c m p sm m' ->
  forall (x : order C) F, x ∈ resting m (opposite (p_side p)) ->
  (forall ev, ev ∈ F -> ev ∈ emitted m m' /\ event_id ev = o_id x) ->
  Forall (fun ev => is_fill ev = true) F ->
  Forall (maker_fill (opposite (p_side p)) (o_id x) (o_cb x)) F.
Proof.
  intros H x F Hx Hin Hf. apply Forall_forall. intros ev Hev.
  destruct (Hin ev Hev) as [He Hid]. apply (proj1 (Forall_forall _ _) Hf) in Hev.
  destruct ev as [e mk tk|]; [|done]. cbn in Hid.
  destruct (fill_parties _ _ _ _ _ _ H _ _ _ He) as (Hts&_&o&Ho&Hoid&Hocb).
  destruct (fill_amounts _ _ _ _ _ _ H _ _ _ He) as (Hb&_&Hq&_).
  pose proof H as (Hr&_).
  assert (o = x) as -> by (eapply resting_unique; [exact Hr|exact Ho|exact Hx|congruence]).
  assert (Hoo : opposite (opposite (p_side p)) = p_side p) by by destruct (p_side p).
  unfold maker_fill. rewrite Hoo. rewrite Hid in Hq. done.
Qed.

(** ** One instruction *)

Lemma life_step c m o r m' sd (x : order C) : reachable same_id c m -> op_typed o ->
  exec same_id o m = (r, m') -> x ∈ resting m sd ->
  let e := mk_entry o r (emitted m m') in
  let F := about (o_id x) (emitted m m') in
  (Forall (maker_fill sd (o_id x) (o_cb x)) F /\ o_id x ∉ cancelled_ids e /\
   exists y, y ∈ resting m' sd /\ o_id y = o_id x /\ o_cb y = o_cb x /\
     o_qty y + sumN fill_base F = o_qty x) \/
  (exists F1 q, F = F1 ++ [maker_out sd (o_id x) (o_cb x) q] /\
     Forall (maker_fill sd (o_id x) (o_cb x)) F1 /\ q + sumN fill_base F1 = o_qty x /\
     o_id x ∉ cancelled_ids e /\ gone m' (o_id x)) \/
  (F = [] /\ o_id x ∈ cancelled_ids e /\ gone m' (o_id x)).
Proof.
  intros Hr Hty He Hx e F.
  assert (Hsame : emitted m m' = [] -> cancelled_ids e = [] -> x ∈ resting m' sd ->
    Forall (maker_fill sd (o_id x) (o_cb x)) F /\ o_id x ∉ cancelled_ids e /\
    exists y, y ∈ resting m' sd /\ o_id y = o_id x /\ o_cb y = o_cb x /\
     o_qty y + sumN fill_base F = o_qty x).
  { subst F. intros -> -> Hx'. cbn. split; [constructor|]. split; [apply not_elem_of_nil|].
    exists x. split_and!; try done. lia. }
  destruct (is_ok r) eqn:Hok.
  2:{ pose proof (exec_failed _ _ _ _ _ He Hok) as ->. left. apply Hsame.
      - by apply emitted_same.
      - unfold cancelled_ids, e. cbn. destruct o, r; done.
      - done. }
  destruct r as [r| | |]; try done. clear Hok. destruct o as [p|id|ids|n].
  - destruct (new_order_outcomes _ _ _ _ _ _ Hr Hty He) as [(sm&[= ->])|(_&[?|[?|?]])]; try done.
    assert (Hacc : accepted same_id c m p sm m') by done. clear Hsame.
    assert (Hcn : o_id x ∉ cancelled_ids e) by apply not_elem_of_nil.
    assert (Hidr : forall sd', o_id x ∈ map o_id (resting m' sd') -> sd' = sd).
    { intros sd' Hin. destruct (book_facts _ _ _ _ _ Hr Hx) as (Hs&_).
      apply elem_of_list_fmap in Hin as (y&Hy&Hin).
      apply (step_effect _ _ _ _ _ _ Hr Hty He) in Hin as [[Hin _]|[Hin Hsy]].
      - apply elem_apply_events in Hin as (z&Hz&Ha). apply acts_id in Ha.
        destruct (book_facts _ _ _ _ _ Hr Hz) as (Hsz&_). congruence.
      - congruence. }
    assert (sd = p_side p \/ sd = opposite (p_side p)) as [Hsd|Hsd]
      by (destruct sd, (p_side p); auto).
    + pose proof (posted_visible _ _ _ _ _ _ Hacc) as Hv.
      pose proof (eviction _ _ _ _ _ _ Hacc) as [Hev1 Hev2].
      rewrite Hsd in Hx |- *.
      destruct (decide (F = [])) as [HF|HF].
      * left. rewrite HF. split; [constructor|]. split; [done|]. exists x. cbn. split_and!; try done; [|lia].
        assert (Hap : x ∈ apply_events (resting m (p_side p)) (emitted m m'))
          by by apply apply_events_untouched.
        destruct (posted_order_id sm); [|by rewrite Hv].
        destruct Hv as (Hv&_). rewrite Hv. by right.
      * right. left.
        assert (exists ev, ev ∈ emitted m m' /\ event_id ev = o_id x) as (ev&Hev&Hid).
        { destruct F as [|ev F0] eqn:HF0; [done|]. exists ev. apply about_in. subst F. rewrite HF0. left. }
        destruct (Hev1 ev Hev) as [Hfull Hpo]; [rewrite Hid; by apply elem_of_list_fmap_1|].
        destruct (Hev2 Hfull Hpo) as (w&E&Hw&_&_&HE&Hnone&Hgone).
        assert (Hab : forall i, i ∈ map o_id (resting m (p_side p)) -> about i E = []).
        { intros i Hi. apply about_nil. intros ev' Hin Heq. eapply Hnone; [exact Hin|]. by rewrite Heq. }
        assert (w = x) as ->.
        { rewrite HE in Hev. apply elem_of_app in Hev as [Hev|Hev].
          - exfalso. eapply Hnone; [exact Hev|]. rewrite Hid. by apply elem_of_list_fmap_1.
          - apply elem_of_list_singleton in Hev as ->. cbn in Hid.
            eapply resting_unique; [exact Hr|done|done|done]. }
        exists [], (o_qty x). subst F. rewrite HE, about_app, Hab by by apply elem_of_list_fmap_1.
        cbn. rewrite N.eqb_refl. split_and!; try done; [lia|].
        intros sd' Hin. pose proof (Hidr _ Hin) as ->. rewrite Hsd in Hin. done.
    + pose proof (about_fills _ _ _ _ _ Hacc x) as Hfl. rewrite Hsd in Hx |- *.
      pose proof Hacc as Hp. placed Hp.
      assert (HF : F = about (o_id x) E1).
      { subst F. rewrite (no_emit _ _ _ _ _ _ _ _ _ _ _ _ _ _ Hn), about_app, (about_nil _ E2), app_nil_r; [done|].
        intros ev Hev Heq. eapply no_E2_own in Hev as [Hev _]; [|exact Hn].
        eapply no_disjoint; [exact Hn|exact Hev|]. rewrite Heq.
        rewrite (in_resting _ _ _ _ _ _ (no_inv _ _ _ _ _ _ _ _ _ _ _ _ _ _ Hn)) in Hx.
        by apply elem_of_list_fmap_1. }
      assert (Hnd : NoDup (map o_id (L (opposite (p_side p))))) by (eapply minv_nodup, Hn).
      pose proof Hx as Hx'.
      rewrite (in_resting _ _ _ _ _ _ (no_inv _ _ _ _ _ _ _ _ _ _ _ _ _ _ Hn)) in Hx'.
      destruct (esteps_life _ _ _ _ _ _ _ (no_steps _ _ _ _ _ _ _ _ _ _ _ _ _ _ Hn) Hnd x Hx')
        as [(Hf&y&Hy&H1&H2&H3)|(F1&q&Hf&H1&H2&H3)].
      * left. rewrite <- HF in *. split.
        -- apply Hfl; try done. intros ev Hev. by apply about_in.
        -- split; [done|]. exists y. split_and!; try done.
           rewrite (no_rest_opp _ _ _ _ _ _ _ _ _ _ _ _ _ _ Hn). by apply prio_elem.
      * right. left. exists F1, q. rewrite HF. split; [done|]. split_and!; try done.
        -- apply Hfl; try done. intros ev Hev. apply about_in. change (ev ∈ F). rewrite HF, Hf.
           apply elem_of_app. by left.
        -- intros sd' Hin. pose proof (Hidr _ Hin) as ->. rewrite Hsd in Hin. apply H3.
           rewrite (no_rest_opp _ _ _ _ _ _ _ _ _ _ _ _ _ _ Hn), <- prio_map, prio_elem in Hin. done.
  - destruct (cancel_ok_inv _ _ _ _ _ _ Hr He) as (o&_&_&_&Hres&Hevq).
    assert (Hem : emitted m m' = []) by by apply emitted_same, pending_evq.
    subst F. rewrite Hem. destruct (decide (o_id x = id)) as [Heq|Hne].
    + right. right. split; [done|]. split; [unfold e, cancelled_ids; cbn; rewrite Heq; left|].
      intros sd' Hin. rewrite Hres in Hin. apply elem_of_list_fmap in Hin as (y&Hy&Hin).
      apply elem_of_list_In, filter_In in Hin as [_ Hn]. apply negb_true_iff, N.eqb_neq in Hn. congruence.
    + left. cbn. split; [constructor|]. split; [unfold e, cancelled_ids; cbn; by rewrite elem_of_list_singleton|].
      exists x. split_and!; try done; [|lia]. rewrite Hres.
      apply elem_of_list_In, filter_In. split; [by apply elem_of_list_In|]. by apply negb_true_iff, N.eqb_neq.
  - destruct (mass_cancel_exact same_id c m ids Hr) as [(_&_&_&_&m1&Hex&Hres&Hevq)|(_&r1&Hex&Hr1)].
    2:{ rewrite Hex in He. destruct Hr1 as [->|[->| ->]]; done. }
    rewrite Hex in He. assert (m1 = m') as -> by congruence.
    assert (Hem : emitted m m' = []) by by apply emitted_same, pending_evq.
    subst F. rewrite Hem. destruct (decide (o_id x ∈ ids)) as [Hin|Hni].
    + right. right. split; [done|]. split; [done|].
      intros sd' Hin'. rewrite Hres in Hin'. apply elem_of_list_fmap in Hin' as (y&Hy&Hin').
      apply elem_delete_ids in Hin' as [_ Hn]. congruence.
    + left. cbn. split; [constructor|]. split; [done|].
      exists x. split_and!; try done; [|lia]. rewrite Hres. by apply elem_delete_ids.
  - destruct (consume_ok same_id c m n Hr) as (m1&Hex&Hp&Hb&Ha&_). rewrite Hex in He.
    assert (m1 = m') as -> by congruence. left. apply Hsame.
    + by eapply emitted_drop.
    + done.
    + erewrite resting_tree; [exact Hx|]. by destruct sd.
Qed.

(** Instructions say nothing about an order that is not in the book. *)
Lemma silent_step c m o r m' id : reachable same_id c m -> op_typed o ->
  exec same_id o m = (r, m') -> gone m id ->
  about id (emitted m m') = [] /\ id ∉ cancelled_ids (mk_entry o r (emitted m m')).
Proof.
  intros Hr Hty He Hg.
  destruct (is_ok r) eqn:Hok.
  2:{ pose proof (exec_failed _ _ _ _ _ He Hok) as ->. split.
      - by rewrite emitted_same.
      - unfold cancelled_ids. cbn. destruct o, r; try done; apply not_elem_of_nil. }
  destruct r as [r| | |]; try done. clear Hok. destruct o as [p|id'|ids|n].
  - destruct (new_order_outcomes _ _ _ _ _ _ Hr Hty He) as [(sm&[= ->])|(_&[?|[?|?]])]; try done.
    assert (Hacc : accepted same_id c m p sm m') by done. split; [|apply not_elem_of_nil].
    apply about_nil. intros ev Hev <-.
    destruct (event_sources _ _ _ _ _ _ Hacc ev Hev) as [?|[_ ?]]; by eapply Hg.
  - destruct (cancel_ok_inv _ _ _ _ _ _ Hr He) as (o&Ho&Hid&_&_&Hevq). split.
    + by rewrite emitted_same by by apply pending_evq.
    + unfold cancelled_ids. cbn. rewrite elem_of_list_singleton. intros ->. eapply (Hg (side_of_id id')).
      rewrite <- Hid at 1. by apply elem_of_list_fmap_1.
  - destruct (mass_cancel_exact same_id c m ids Hr) as [(_&Hall&_&_&m1&Hex&Hres&Hevq)|(_&r1&Hex&Hr1)].
    2:{ rewrite Hex in He. destruct Hr1 as [->|[->| ->]]; done. }
    rewrite Hex in He. assert (m1 = m') as -> by congruence. split.
    + by rewrite emitted_same by by apply pending_evq.
    + unfold cancelled_ids. cbn. intros Hin. by eapply Hg, Hall.
  - destruct (consume_ok same_id c m n Hr) as (m1&Hex&Hp&Hb&Ha&_). rewrite Hex in He.
    assert (m1 = m') as -> by congruence. split; [|apply not_elem_of_nil].
    by rewrite (emitted_drop _ _ _ Hp).
Qed.

(** ** A whole history *)
Lemma events_about_app id log1 log2 :
  events_about id (log1 ++ log2) = events_about id log1 ++ events_about id log2.
Proof. unfold events_about. by rewrite flat_map_app, about_app. Qed.
Lemma events_about_one id (e : entry C) : events_about id [e] = about id (en_events e).
Proof. unfold events_about. cbn. by rewrite app_nil_r. Qed.
Lemma cancelled_app log1 log2 : cancelled (log1 ++ log2) = cancelled log1 ++ cancelled log2.
Proof. apply flat_map_app. Qed.
Lemma cancelled_one (e : entry C) : cancelled [e] = cancelled_ids e.
Proof. unfold cancelled. cbn. by rewrite app_nil_r. Qed.

(** Nothing happens to an id that has left (or has not yet entered) the book. *)
Lemma silent_steps c log0 m0 log m id : config_ok c -> history same_id c log0 m0 ->
  steps same_id m0 log m -> N.of_nat (length (log0 ++ log)) < p63 ->
  id ∉ posted_ids log -> gone m0 id ->
  events_about id log = [] /\ id ∉ cancelled log /\ gone m id.
Proof.
  intros Hc Hh Hs. induction Hs as [|log m o r m' Hs IH Hty He]; intros Hl Hp Hg.
  { by split_and!. }
  rewrite !app_length in *. cbn [length] in Hl.
  assert (Hh1 : history same_id c (log0 ++ log) m) by by eapply steps_app.
  assert (Hr : reachable same_id c m).
  { split; [done|]. eexists. split; [exact Hh1|]. rewrite app_length. lia. }
  rewrite posted_ids_app in Hp. apply not_elem_of_app in Hp as [Hp1 Hp2].
  destruct (IH ltac:(lia) Hp1 Hg) as (IH1&IH2&IH3).
  destruct (silent_step _ _ _ _ _ id Hr Hty He IH3) as [Ha Hca].
  rewrite events_about_app, events_about_one, IH1, cancelled_app, cancelled_one. cbn [en_events].
  split_and!; [done|by apply not_elem_of_app|].
  intros sd Hin. apply elem_of_list_fmap in Hin as (y&->&Hin).
  apply (step_effect _ _ _ _ _ _ Hr Hty He) in Hin as [[Hin _]|[Hin Hsy]].
  - apply elem_apply_events in Hin as (z&Hz&Ha'). apply acts_id in Ha'.
    eapply IH3. rewrite Ha'. by apply elem_of_list_fmap_1.
  - apply Hp2. unfold posted_order in Hin. cbn in Hin |- *. unfold posted_id. cbn.
    destruct o; try by apply elem_of_nil in Hin.
    destruct r as [[sm|]| | |]; try by apply elem_of_nil in Hin.
    destruct (posted_order_id sm) as [id|]; [|by apply elem_of_nil in Hin].
    apply elem_of_list_singleton in Hin as ->. left.
Qed.

Lemma life_steps c log0 m0 log m sd (x : order C) : config_ok c -> history same_id c log0 m0 ->
  steps same_id m0 log m -> N.of_nat (length (log0 ++ log)) < p63 -> o_id x ∈ posted_ids log0 ->
  x ∈ resting m0 sd ->
  exists fills, Forall (maker_fill sd (o_id x) (o_cb x)) fills /\
  ((exists y, events_about (o_id x) log = fills /\ o_id x ∉ cancelled log /\ y ∈ resting m sd /\
      o_id y = o_id x /\ o_cb y = o_cb x /\ sumN fill_base fills + o_qty y = o_qty x) \/
   (exists q, events_about (o_id x) log = fills ++ [maker_out sd (o_id x) (o_cb x) q] /\
      o_id x ∉ cancelled log /\ gone m (o_id x) /\ sumN fill_base fills + q = o_qty x) \/
   (exists la e lb ma y, log = la ++ e :: lb /\ steps same_id m0 la ma /\
      events_about (o_id x) log = fills /\ events_about (o_id x) la = fills /\ o_id x ∈ cancelled_ids e /\
      o_id x ∉ cancelled la /\ o_id x ∉ cancelled lb /\ gone m (o_id x) /\
      y ∈ resting ma sd /\ o_id y = o_id x /\ o_cb y = o_cb x /\
      sumN fill_base fills + o_qty y = o_qty x)).
Proof.
  intros Hc Hh Hs. induction Hs as [|log m o r m' Hs IH Hty He]; intros Hl Hp Hx.
  { exists []. split; [constructor|]. left. exists x. cbn. split_and!; try done. apply not_elem_of_nil. }
  rewrite !app_length in *. cbn [length] in Hl.
  destruct (IH ltac:(lia) Hp Hx) as (fills&Hfl&Hcase). clear IH.
  assert (Hh1 : history same_id c (log0 ++ log) m) by by eapply steps_app.
  assert (Hr : reachable same_id c m).
  { split; [done|]. eexists. split; [exact Hh1|]. rewrite app_length. lia. }
  set (e := mk_entry o r (emitted m m')) in *.
  assert (Hse : steps same_id m [e] m').
  { change [e] with ([] ++ [e]). econstructor; [constructor|done|done]. }
  assert (Hsil : gone m (o_id x) ->
    events_about (o_id x) [e] = [] /\ o_id x ∉ cancelled [e] /\ gone m' (o_id x)).
  { intros Hg. eapply silent_steps; [exact Hc|exact Hh1|exact Hse| | |done].
    - rewrite !app_length. cbn [length]. lia.
    - intros Hin. eapply (ids_disjoint same_id c (log0 ++ log) m [e] m'); [done|done|done| | |exact Hin].
      + rewrite !app_length. cbn [length]. lia.
      + rewrite posted_ids_app. apply elem_of_app. by left. }
  rewrite events_about_app, cancelled_app.
  destruct Hcase as [(y&Hev&Hcn&Hy&Hyi&Hyc&Hyq)|[(q&Hev&Hcn&Hg&Hq)|
    (la&e'&lb&ma&y&Hlog&Hsa&Hev&Heva&Hin&Hna&Hnb&Hg&Hy&Hyi&Hyc&Hyq)]].
  - rewrite Hev. destruct (life_step _ _ _ _ _ _ _ Hr Hty He Hy)
      as [(H1&H2&z&Hz&Hzi&Hzc&Hzq)|[(F1&q&H1&H2&H3&H4&H5)|(H1&H2&H3)]];
      rewrite ?Hyi, ?Hyc in *; rewrite events_about_one, cancelled_one; change (en_events e) with (emitted m m').
    + exists (fills ++ about (o_id x) (emitted m m')). split; [by apply Forall_app|]. left.
      exists z. rewrite sumN_app. split_and!; try done; try congruence; [by apply not_elem_of_app|lia].
    + rewrite H1. exists (fills ++ F1). split; [by apply Forall_app|]. right. left.
      exists q. rewrite sumN_app, app_assoc. split_and!; try done; [by apply not_elem_of_app|lia].
    + exists fills. split; [done|]. right. right. exists log, e, [], m, y.
      rewrite H1, app_nil_r. split_and!; try done. apply not_elem_of_nil.
  - destruct (Hsil Hg) as (Ha&Hb&Hg'). exists fills. split; [done|]. right. left. exists q.
    rewrite Ha, app_nil_r. split_and!; try done. by apply not_elem_of_app.
  - destruct (Hsil Hg) as (Ha&Hb&Hg'). exists fills. split; [done|]. right. right.
    exists la, e', (lb ++ [e]), ma, y. rewrite Ha, app_nil_r, cancelled_app, Hlog.
    split_and!; try done; [|by rewrite <- Hlog|by apply not_elem_of_app].
    by rewrite <- app_assoc.
Qed.

(** The life of a posted order. *)
Lemma order_life c log m log1 e log2 p sm id : config_ok c -> history same_id c log m ->
  N.of_nat (length log) < p63 -> log = log1 ++ e :: log2 ->
  en_op e = NewOrder p -> en_res e = Ok (Some sm) -> posted_order_id sm = Some id ->
  let sd := p_side p in let cb := p_callback p in let q := total_base_qty_posted sm in
  exists fills, Forall (maker_fill sd id cb) fills /\
  ((events_about id log = fills /\ id ∉ cancelled log /\
    exists y, y ∈ resting m sd /\ o_id y = id /\ o_cb y = cb /\
      sumN fill_base fills + o_qty y = q) \/
   (exists left_, events_about id log = fills ++ [maker_out sd id cb left_] /\
      id ∉ cancelled log /\ gone m id /\ sumN fill_base fills + left_ = q) \/
   (exists la e' lb ma, log = la ++ e' :: lb /\ history same_id c la ma /\
      events_about id log = fills /\ id ∈ cancelled_ids e' /\ id ∉ cancelled la /\ id ∉ cancelled lb /\
      gone m id /\
      exists y, y ∈ resting ma sd /\ o_id y = id /\ o_cb y = cb /\
        sumN fill_base fills + o_qty y = q)).
Proof.
  intros Hc Hh Hl Hlog Hop Hre Hpo sd cb q.
  change (e :: log2) with ([e] ++ log2) in *.
  rewrite Hlog in Hh, Hl. apply steps_split in Hh as (m1&Hh1&Hh2). apply steps_split in Hh2 as (m2&He&Hh2).
  rewrite !app_length in Hl. cbn [length] in Hl.
  assert (Hr1 : reachable same_id c m1).
  { split; [done|]. eexists. split; [exact Hh1|lia]. }
  assert (Hpid : posted_id e = Some id) by (unfold posted_id; by rewrite Hre).
  destruct (posted_id_entry _ _ _ _ _ _ Hr1 He Hpid) as (p'&sm'&Hop'&Hre'&_&Hacc).
  assert (p' = p) as -> by congruence. assert (sm' = sm) as -> by congruence.
  pose proof (posted_visible _ _ _ _ _ _ Hacc) as Hv. rewrite Hpo in Hv. destruct Hv as (Hv&Hfr&_).
  assert (Hx : (mk_leaf id q, cb) ∈ resting m2 sd) by (unfold sd; rewrite Hv; left).
  assert (Hh12 : history same_id c (log1 ++ [e]) m2) by by eapply steps_app.
  assert (Hpin : id ∈ posted_ids (log1 ++ [e])).
  { rewrite posted_ids_app. apply elem_of_app. right. cbn. rewrite Hpid. left. }
  (* before the order is posted *)
  assert (Hni : id ∉ posted_ids log1).
  { intros Hin. eapply (ids_disjoint same_id c log1 m1 [e] m2); [done|done|done| |exact Hin|].
    - rewrite app_length. cbn [length]. lia.
    - cbn. rewrite Hpid. left. }
  destruct (silent_steps c [] (init_market c) log1 m1 id Hc ltac:(constructor) Hh1 ltac:(cbn; lia) Hni)
    as (Ha1&Hb1&Hg1).
  { intros sd' Hin. pose proof (init_minv c Hc) as Hm. rewrite (in_resting_ids _ _ _ _ _ _ Hm) in Hin. cbn in Hin. by apply elem_of_nil in Hin. }
  assert (Hae : events_about id [e] = [] /\ id ∉ cancelled [e]).
  { apply steps_one in He as (Hty&Hex&Hen). destruct (silent_step _ _ _ _ _ id Hr1 Hty Hex Hg1) as [H1 H2].
    rewrite events_about_one, cancelled_one, Hen. split; [done|]. rewrite <- Hen in H2. by destruct e. }
  destruct Hae as [Ha2 Hb2].
  assert (Hl2 : N.of_nat (length ((log1 ++ [e]) ++ log2)) < p63).
  { rewrite !app_length. cbn [length]. lia. }
  destruct (life_steps _ _ _ _ _ _ (mk_leaf id q, cb) Hc Hh12 Hh2 Hl2 Hpin Hx) as (fills&Hfl&Hcase).
  exists fills. split; [done|]. rewrite Hlog, !events_about_app, !cancelled_app, Ha1, Ha2.
  change (o_id (mk_leaf id q, cb)) with id in Hcase. change (o_qty (mk_leaf id q, cb)) with q in Hcase.
  change (o_cb (mk_leaf id q, cb)) with cb in Hcase. cbn [app].
  destruct Hcase as [(y&Hev&Hcn&Hy)|[(r&Hev&Hcn&Hg&Hq)|(la&e'&lb&ma&y&Hl'&Hsa&Hev&_&Hin&Hna&Hnb&Hg&Hy)]].
  - left. split; [done|]. split; [by rewrite !not_elem_of_app|]. by exists y.
  - right. left. exists r. split; [done|]. split; [by rewrite !not_elem_of_app|]. done.
  - right. right. exists (log1 ++ [e] ++ la), e', lb, ma. rewrite Hl'. split.
    { by rewrite <- !app_assoc. }
    split. { rewrite app_assoc. by eapply steps_app. }
    split; [by rewrite <- Hl'|]. rewrite !cancelled_app, !not_elem_of_app. split_and!; try done. by exists y.
Qed.

(** ** Money *)
Lemma bid_fills_quote id cb F : Forall (maker_fill Bid id cb) F ->
  forall r, sumN fill_quote F + r * id_price id / p32 <= (sumN fill_base F + r) * id_price id / p32.
Proof.
  induction 1 as [|ev F Hev _ IH]; intros r; cbn; [done|].
  destruct ev as [e mk tk|]; [|done]. destruct Hev as (_&_&_&_&Hq). cbn in *. rewrite Hq.
  specialize (IH r).
  assert (forall a b, a / p32 + b / p32 <= (a + b) / p32) as Hdiv.
  { intros a b. apply N.div_le_lower_bound; [done|].
    pose proof (N.mul_div_le a p32 ltac:(done)). pose proof (N.mul_div_le b p32 ltac:(done)). lia. }
  pose proof (Hdiv (fe_base e * id_price id) ((sumN fill_base F + r) * id_price id)).
  replace ((fe_base e + sumN fill_base F + r) * id_price id)
    with (fe_base e * id_price id + (sumN fill_base F + r) * id_price id) by lia.
    etrans; [|eassumption]. rewrite <- N.add_assoc. by apply N.add_le_mono_l.
Qed.
Lemma ask_fills_quote id cb F : Forall (maker_fill Ask id cb) F ->
  sumN fill_base F * id_price id <= sumN fill_quote F * p32.
Proof.
  induction 1 as [|ev F Hev _ IH]; cbn; [done|].
  destruct ev as [e mk tk|]; [|done]. destruct Hev as (_&_&_&_&Hq). cbn in *. rewrite Hq.
  pose proof (N.div_mod (fe_base e * id_price id + (p32 - 1)) p32 ltac:(done)) as H.
  pose proof (N.mod_lt (fe_base e * id_price id + (p32 - 1)) p32 ltac:(done)) as H'.
  rewrite !N.mul_add_distr_r. apply N.add_le_mono; [|done].
  unfold quote_amount. set (x := fe_base e * id_price id) in *. clearbody x. lia.
Qed.
Lemma quote_amount_ceil q price : q * price / p32 <= quote_amount Bid q price.
Proof. unfold quote_amount. apply N.div_le_mono; [done|lia]. Qed.

(** A resting bid never costs its owner more quote than was accounted for when it was
    posted: fills so far plus what a cancellation of the rest would return. *)
Lemma bid_solvent id cb F r q : Forall (maker_fill Bid id cb) F -> sumN fill_base F + r = q ->
  sumN fill_quote F + r * id_price id / p32 <= quote_amount Bid q (id_price id).
Proof.
  intros HF <-. pose proof (bid_fills_quote _ _ _ HF r).
  pose proof (quote_amount_ceil (sumN fill_base F + r) (id_price id)). by etrans.
Qed.
End Life.
