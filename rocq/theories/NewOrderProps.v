(** * NewOrderProps.v: properties of successful new orders *)
From Verif Require Import Machine Bytes Critbit EventQueue OrderBook Market Spec MachineProofs
  TreeProofs SlabProofs SlabProofs2 QueueProofs IdProofs Engine BookProofs EngineProofs
  MarketProofs MarketFacts.
From Coq Require Import ZifyBool ZifyNat ZifyN.
From Coq Require Import Sorting.Sorted.

Section NewOrderProps.
Context {C : Type} (same_id : C -> C -> bool).
Implicit Types m : market C.
Implicit Types c : config C.
Implicit Types p : params C.
Implicit Types os : list (order C).
Implicit Types E : list (event_ref C).

Lemma accepted_newo c m p sm m' : accepted same_id c m p sm m' ->
  exists L pend l1 l E1 E2 own' opp', newo same_id c m p sm m' L pend l1 l E1 E2 own' opp'.
Proof.
  intros (Hr&Hty&He). destruct (new_order_inv _ _ _ _ _ _ Hr Hty He)
    as (sm'&L&pend&l1&l&E1&E2&own'&opp'&Hsm&H). simplify_eq. eauto 10.
Qed.
Ltac placed H :=
  let Hn := fresh "Hn" in
  apply accepted_newo in H as (L&pend&l1&l&E1&E2&own'&opp'&Hn).

(** ** Priority *)
Lemma ss_ids sd os : sorted sd os ->
  StronglySorted (fun x y => before sd x y = true) (map o_id os).
Proof.
  induction 1 as [|x os Hs IH Hall]; cbn; constructor; [done|].
  rewrite Forall_forall in Hall. apply Forall_forall. intros y Hy. apply elem_of_list_fmap in Hy as (z&->&Hz). by apply Hall.
Qed.

Lemma priority c m p sm m' : accepted same_id c m p sm m' ->
  forall E1 ev E2, emitted m m' = E1 ++ ev :: E2 ->
  event_id ev ∈ map o_id (resting m (opposite (p_side p))) ->
  exists o, o ∈ apply_events (resting m (opposite (p_side p))) E1 /\ o_id o = event_id ev /\
    forall o', o' ∈ apply_events (resting m (opposite (p_side p))) E1 -> o' <> o ->
      ahead (opposite (p_side p)) (o_id o) (o_id o').
Proof.
  intros H E1' ev E2' HE Hid. placed H.
  rewrite (in_resting_ids _ _ _ _ _ _ (no_inv _ _ _ _ _ _ _ _ _ _ _ _ _ _ Hn)) in Hid.
  rewrite (no_rest0 _ _ _ _ _ _ _ _ _ _ _ _ _ _ Hn), apply_events_prio.
  set (os := L (opposite (p_side p))) in *.
  assert (Hpre : exists E3, E1 = E1' ++ ev :: E3).
  { rewrite (no_emit _ _ _ _ _ _ _ _ _ _ _ _ _ _ Hn) in HE.
    destruct (no_E2 _ _ _ _ _ _ _ _ _ _ _ _ _ _ Hn) as [->|(w&own0&HE2&Hl)].
    - rewrite app_nil_r in HE. eauto.
    - rewrite HE2 in HE. destruct E2' as [|x E2'] using rev_ind.
      + apply app_inj_tail in HE as [_ <-]. exfalso.
        eapply no_disjoint; [exact Hn| |exact Hid]. cbn. rewrite Hl.
        apply elem_of_list_fmap_1, elem_of_app. right. left.
      + clear IHE2'. rewrite app_comm_cons, app_assoc in HE.
        apply app_inj_tail in HE as [-> _]. eauto. }
  destruct Hpre as [E3 ->].
  destruct (eats_split _ _ _ _ _ (no_eats _ _ _ _ _ _ _ _ _ _ _ _ _ _ Hn)) as (o&rest&Ho&Hev).
  fold os in Ho.
  assert (Hnd : NoDup (map o_id os)) by (eapply minv_nodup, Hn).
  rewrite (eats_apply _ _ _ Hnd Ho). exists o. split; [apply prio_elem; left|].
  split; [done|]. intros o' Ho' Hne. apply prio_elem, elem_of_cons in Ho' as [->|Ho']; [done|].
  apply before_ahead.
  destruct (eats_ids _ _ _ Ho) as [d Hd]. cbn in Hd.
  assert (Hs : sorted (opposite (p_side p)) os) by (eapply minv_sorted, Hn).
  assert (Hs' : StronglySorted (fun x y => before (opposite (p_side p)) x y = true) (map o_id os)).
  { by apply ss_ids. }
  rewrite Hd in Hs'. clear -Hs' Ho'. induction d as [|y d IH]; cbn in Hs'.
  - inversion Hs' as [|? ? _ Hall]; subst. rewrite Forall_forall in Hall. apply Hall.
    by apply elem_of_list_fmap_1.
  - apply IH. by inversion Hs'.
Qed.

Lemma event_sources c m p sm m' : accepted same_id c m p sm m' ->
  forall ev, ev ∈ emitted m m' ->
  event_id ev ∈ map o_id (resting m (opposite (p_side p))) \/
  (is_fill ev = false /\ event_id ev ∈ map o_id (resting m (p_side p))).
Proof.
  intros H ev Hev. placed H.
  rewrite !(in_resting_ids _ _ _ _ _ _ (no_inv _ _ _ _ _ _ _ _ _ _ _ _ _ _ Hn)).
  rewrite (no_emit _ _ _ _ _ _ _ _ _ _ _ _ _ _ Hn) in Hev.
  apply elem_of_app in Hev as [Hev|Hev].
  - left. by eapply no_E1_opp.
  - right. eapply no_E2_own in Hev as [? ?]; [|exact Hn]. done.
Qed.

Lemma about_in (id : N) E ev : ev ∈ about id E <-> ev ∈ E /\ event_id ev = id.
Proof. unfold about. by rewrite !elem_of_list_In, filter_In, N.eqb_eq. Qed.
Lemma about_nil (id : N) E : (forall ev, ev ∈ E -> event_id ev <> id) -> about id E = [].
Proof.
  intros H. destruct (about id E) as [|ev r] eqn:He; [done|]. exfalso.
  assert (ev ∈ about id E) as [? ?]%about_in by (rewrite He; left). by eapply H.
Qed.
Lemma about_app (id : N) E1 E2 : about id (E1 ++ E2) = about id E1 ++ about id E2.
Proof. apply List.filter_app. Qed.
Lemma apply_events_untouched os E (o : order C) : o ∈ os -> about (o_id o) E = [] ->
  o ∈ apply_events os E.
Proof.
  revert os; induction E as [|ev E IH]; intros os Ho Ha; [done|].
  cbn in Ha. destruct (N.eqb_spec (event_id ev) (o_id o)); [done|].
  unfold apply_events. cbn [fold_left]. apply IH; [|done].
  destruct ev as [e mk tk|e mk]; unfold apply_event; cbn in *.
  - apply elem_of_list_fmap. exists o. split; [|done].
    destruct (N.eqb_spec (o_id o) (fe_maker_id e)); [congruence|done].
  - apply elem_del. done.
Qed.

Lemma untouched_behind c m p sm m' : accepted same_id c m p sm m' ->
  forall ev o, ev ∈ emitted m m' ->
  event_id ev ∈ map o_id (resting m (opposite (p_side p))) ->
  o ∈ resting m (opposite (p_side p)) -> about (o_id o) (emitted m m') = [] ->
  ahead (opposite (p_side p)) (event_id ev) (o_id o).
Proof.
  intros H ev o Hev Hid Ho Ha. pose proof Hev as Hev'.
  apply elem_of_list_split in Hev' as (F1&F2&HF).
  destruct (priority _ _ _ _ _ H F1 ev F2 HF Hid) as (x&Hx&Hxid&Hbest).
  rewrite <- Hxid. apply Hbest.
  - apply apply_events_untouched; [done|]. rewrite HF, about_app in Ha.
    by apply app_nil in Ha as [? _].
  - intros <-. rewrite HF, about_app in Ha. apply app_nil in Ha as [_ Ha]. cbn in Ha.
    by rewrite Hxid, N.eqb_refl in Ha.
Qed.

(** ** Limits *)
Lemma fill_limit c m p sm m' : accepted same_id c m p sm m' ->
  forall e mk tk, EvFill e mk tk ∈ emitted m m' ->
  fe_maker_id e ∈ map o_id (resting m (opposite (p_side p))) /\
  crossing (p_side p) (limit_price p) (id_price (fe_maker_id e)).
Proof.
  intros H e mk tk Hev. placed H.
  rewrite (in_resting_ids _ _ _ _ _ _ (no_inv _ _ _ _ _ _ _ _ _ _ _ _ _ _ Hn)).
  eapply no_fill_E1 in Hev; [|exact Hn|done].
  pose proof (no_E1_opp _ _ _ _ _ _ _ _ _ _ _ _ _ _ Hn _ Hev) as Hid. cbn in Hid.
  split; [done|].
  pose proof (no_event _ _ _ _ _ _ _ _ _ _ _ _ _ _ Hn _ Hev) as (_&_&_&_&_&_&_&Hc&_).
  rewrite (no_opp_id _ _ _ _ _ _ _ _ _ _ _ _ _ _ Hn _ Hid) in Hc. by apply crosses_crossing.
Qed.

Lemma to_post_le p l : to_post p l <= l_base l /\
  (l_base l < p64 -> quote_of (p_side p) (to_post p l) (limit_price p) <= l_quote l).
Proof.
  unfold to_post. split; [lia|]. intros Hl. apply quote_of_le. apply afford_spec; [|lia].
  pose proof (afford_u64 (l_quote l) (limit_price p)). lia.
Qed.

Lemma summary_sums c m p sm m' : accepted same_id c m p sm m' ->
  total_base_qty sm = sumN fill_base (emitted m m') + total_base_qty_posted sm /\
  total_quote_qty sm = sumN fill_quote (emitted m m') +
    match posted_order_id sm with
    | Some _ => quote_amount (p_side p) (total_base_qty_posted sm) (limit_price p)
    | None => 0
    end /\
  (posted_order_id sm = None -> total_base_qty_posted sm = 0).
Proof.
  intros H. placed H. rewrite (no_emit _ _ _ _ _ _ _ _ _ _ _ _ _ _ Hn), !sumN_app.
  destruct (no_sums _ _ _ _ _ _ _ _ _ _ _ _ _ _ Hn) as [S1 S2].
  destruct (no_l1 _ _ _ _ _ _ _ _ _ _ _ _ _ _ Hn) as ((_&Hb&_)&_).
  destruct (no_lb _ _ _ _ _ _ _ _ _ _ _ _ _ _ Hn) as (Hlb&Hlq&_). rewrite <- Hlb in Hb.
  destruct (to_post_le p l) as [T1 T2]. specialize (T2 Hb).
  change (quote_amount (p_side p)) with (quote_of (p_side p)).
  destruct (no_post _ _ _ _ _ _ _ _ _ _ _ _ _ _ Hn)
    as [seq0 _|tp Hcr Hpa -> Hmin Hlen|tp own0 w Hcr Hpa -> Hmin Hlen Hown Hw]; cbn in *.
  - split_and!; [lia|lia|done].
  - split_and!; [lia|lia|done].
  - split_and!; [lia|lia|done].
Qed.

Lemma summary_limits c m p sm m' : accepted same_id c m p sm m' ->
  total_base_qty sm <= max_base_qty p /\ total_quote_qty sm <= max_quote_qty p /\
  total_base_qty_posted sm <= total_base_qty sm.
Proof.
  intros H. pose proof (summary_sums _ _ _ _ _ H) as (S1&_&_). placed H.
  destruct (no_sums _ _ _ _ _ _ _ _ _ _ _ _ _ _ Hn) as [S3 S4].
  destruct (no_post _ _ _ _ _ _ _ _ _ _ _ _ _ _ Hn); cbn in *; lia.
Qed.

(** ** Fills *)
Lemma fill_amounts c m p sm m' : accepted same_id c m p sm m' ->
  forall e mk tk, EvFill e mk tk ∈ emitted m m' ->
  0 < fe_base e /\ 0 < fe_quote e /\
  fe_quote e = quote_amount (p_side p) (fe_base e) (id_price (fe_maker_id e)) /\
  match p_side p with
  | Bid => fe_base e * id_price (fe_maker_id e) <= fe_quote e * p32
             < fe_base e * id_price (fe_maker_id e) + p32
  | Ask => fe_quote e * p32 <= fe_base e * id_price (fe_maker_id e) < fe_quote e * p32 + p32
  end.
Proof.
  intros H e mk tk Hev. placed H. eapply no_fill_E1 in Hev; [|exact Hn|done].
  pose proof (no_E1_opp _ _ _ _ _ _ _ _ _ _ _ _ _ _ Hn _ Hev) as Hid. cbn in Hid.
  pose proof (no_event _ _ _ _ _ _ _ _ _ _ _ _ _ _ Hn _ Hev) as (_&_&_&_&Hb&Hq&Heq&_&_).
  rewrite (no_opp_id _ _ _ _ _ _ _ _ _ _ _ _ _ _ Hn _ Hid) in Heq.
  split_and!; [lia|lia|exact Heq|]. rewrite Heq. unfold quote_of.
  set (x := fe_base e * id_price (fe_maker_id e)).
  destruct (p_side p).
  - pose proof (N.div_mod (x + (p32 - 1)) p32 ltac:(done)).
    pose proof (N.mod_lt (x + (p32 - 1)) p32 ltac:(done)). lia.
  - pose proof (N.div_mod x p32 ltac:(done)). pose proof (N.mod_lt x p32 ltac:(done)). lia.
Qed.

(** Callback infos travel with their orders. *)
Lemma esteps_cbs p min l os E l' os' : esteps same_id p min l os E l' os' ->
  forall ev, ev ∈ E -> exists o, o ∈ os /\ o_id o = event_id ev /\
    match ev with EvFill _ mk tk => mk = o_cb o /\ tk = p_callback p | EvOut _ cb => cb = o_cb o end.
Proof.
  induction 1 as [|l os l1 os1 E1 E2 l2 os2 Hs _ IH]; intros ev Hev.
  { by apply elem_of_nil in Hev. }
  apply estep_next in Hs as [Hs _].
  apply elem_of_app in Hev as [Hev|Hev].
  - inversion Hs; subst; repeat (apply elem_of_cons in Hev as [->|Hev]);
      try (by apply elem_of_nil in Hev); exists o; (split; [left|done]).
  - destruct (IH ev Hev) as (o&Ho&Hid&Hcb).
    destruct (tail_of_ids _ _ _ (mstep_tail _ _ _ _ _ _ _ _ Hs) Ho) as (o0&Ho0&Hid0&Hcb0&_).
    exists o0. split; [done|]. rewrite <- Hid0, <- Hcb0. done.
Qed.
Lemma fill_parties c m p sm m' : accepted same_id c m p sm m' ->
  forall e mk tk, EvFill e mk tk ∈ emitted m m' ->
  fe_taker_side e = side_u8 (p_side p) /\ tk = p_callback p /\
  exists o, o ∈ resting m (opposite (p_side p)) /\ o_id o = fe_maker_id e /\ o_cb o = mk.
Proof.
  intros H e mk tk Hev. placed H. eapply no_fill_E1 in Hev; [|exact Hn|done].
  pose proof (no_event _ _ _ _ _ _ _ _ _ _ _ _ _ _ Hn _ Hev) as (_&Hs&_).
  destruct (esteps_cbs _ _ _ _ _ _ _ (no_steps _ _ _ _ _ _ _ _ _ _ _ _ _ _ Hn) _ Hev)
    as (o&Ho&Hid&Hmk&Htk).
  split_and!; try done. exists o.
  by rewrite (in_resting _ _ _ _ _ _ (no_inv _ _ _ _ _ _ _ _ _ _ _ _ _ _ Hn)).
Qed.

(** ** Conservation *)
Lemma qty_in_cons (o : order C) os id :
  qty_in (o :: os) id = if o_id o =? id then o_qty o else qty_in os id.
Proof. unfold qty_in. cbn. by destruct (o_id o =? id). Qed.
Lemma qty_in_notin os id : id ∉ map o_id os -> qty_in os id = 0.
Proof.
  induction os as [|o os IH]; intros Hn; [done|]. rewrite qty_in_cons. cbn in Hn.
  apply not_elem_of_cons in Hn as [H1 H2]. destruct (N.eqb_spec (o_id o) id); [congruence|auto].
Qed.
Lemma qty_in_in os (o : order C) : NoDup (map o_id os) -> o ∈ os -> qty_in os (o_id o) = o_qty o.
Proof.
  induction os as [|x os IH]; intros Hnd Ho; [by apply elem_of_nil in Ho|].
  rewrite qty_in_cons. cbn in Hnd. apply NoDup_cons in Hnd as [Hx Hnd].
  apply elem_of_cons in Ho as [->|Ho]; [by rewrite N.eqb_refl|].
  destruct (N.eqb_spec (o_id x) (o_id o)) as [He|]; [|auto].
  exfalso. apply Hx. rewrite He. by apply elem_of_list_fmap_1.
Qed.
Lemma qty_in_prio sd os id : NoDup (map o_id os) -> qty_in (prio sd os) id = qty_in os id.
Proof.
  intros Hnd. destruct (decide (id ∈ map o_id os)) as [Hin|Hin].
  - apply elem_of_list_fmap in Hin as (o&->&Ho).
    rewrite !qty_in_in; try done.
    + by rewrite <- prio_map, prio_perm.
    + by apply prio_elem.
  - rewrite !qty_in_notin; try done. by rewrite <- prio_map, prio_elem.
Qed.
Definition balance E (id : N) : N := sumN fill_base (about id E) + sumN out_base (about id E).
Lemma balance_app E1 E2 id : balance (E1 ++ E2) id = balance E1 id + balance E2 id.
Proof. unfold balance. rewrite about_app, !sumN_app. lia. Qed.
Lemma balance_nil E id : (forall ev, ev ∈ E -> event_id ev <> id) -> balance E id = 0.
Proof. intros H. unfold balance. by rewrite about_nil. Qed.
Lemma esteps_balance p min l os E l' os' : esteps same_id p min l os E l' os' ->
  locals_typed l -> Forall order_typed os -> NoDup (map o_id os) ->
  forall id, qty_in os id = qty_in os' id + balance E id.
Proof.
  induction 1 as [|l os l1 os1 E1 E2 l2 os2 Hs Hrest IH]; intros Hl Ht Hnd id.
  { unfold balance. cbn. lia. }
  destruct (estep_typed _ _ _ _ _ _ _ _ Hs Hl Ht) as (Hl1&Ht1&_).
  apply estep_next in Hs as [Hs (o&rest&->&_)].
  apply Forall_cons in Ht as [Hto Ht].
  pose proof (trade_facts (p_side p) l o Hl Hto) as (T1&_).
  cbn in Hnd. pose proof Hnd as Hnd0. apply NoDup_cons in Hnd as [Hx Hnd].
  assert (Hev : forall ev, ev ∈ E2 -> event_id ev ∈ map o_id os1).
  { intros ev Hev. eapply eats_event_ids; [by eapply esteps_eats|done]. }
  rewrite balance_app.
  inversion Hs; subst.
  - specialize (IH Hl1 Ht1 Hnd id). rewrite qty_in_cons.
    destruct (N.eqb_spec (o_id o) id) as [<-|Hne].
    + assert (balance E2 (o_id o) = 0) as ->.
      { apply balance_nil. intros ev He Hid. apply Hx. rewrite <- Hid. by apply Hev. }
      rewrite qty_in_notin in IH by done. unfold balance. cbn. rewrite N.eqb_refl. cbn. lia.
    + rewrite IH. unfold balance at 2. cbn. destruct (N.eqb_spec (o_id o) id); [done|]. cbn. lia.
  - specialize (IH Hl1 Ht1 Hnd id). rewrite qty_in_cons.
    destruct (N.eqb_spec (o_id o) id) as [<-|Hne].
    + assert (balance E2 (o_id o) = 0) as ->.
      { apply balance_nil. intros ev He Hid. apply Hx. rewrite <- Hid. by apply Hev. }
      rewrite qty_in_notin in IH by done. unfold balance. cbn. rewrite N.eqb_refl. cbn.
      lia.
    + rewrite IH. unfold balance at 2. cbn. destruct (N.eqb_spec (o_id o) id); [done|]. cbn. lia.
  - specialize (IH Hl1 Ht1 Hnd0 id). rewrite qty_in_cons in IH |- *.
    change (o_id (mk_leaf (o_id o) (o_qty o - trade_base l o), o_cb o)) with (o_id o) in IH.
    change (o_qty (mk_leaf (o_id o) (o_qty o - trade_base l o), o_cb o))
      with (o_qty o - trade_base l o) in IH.
    destruct (N.eqb_spec (o_id o) id) as [He|Hne].
    + subst id. unfold balance at 1. cbn. rewrite N.eqb_refl. cbn. lia.
    + rewrite IH. unfold balance at 2. cbn. destruct (N.eqb_spec (o_id o) id); [done|]. cbn. lia.
Qed.

Lemma no_balance_E2 c m p sm m' L pend l1 l E1 E2 own' opp' id :
  newo same_id c m p sm m' L pend l1 l E1 E2 own' opp' ->
  id ∈ map o_id (L (opposite (p_side p))) -> about id (E1 ++ E2) = about id E1.
Proof.
  intros Hn Hid. rewrite about_app, (about_nil _ E2), app_nil_r; [done|].
  intros ev Hev Heq. destruct (no_E2_own _ _ _ _ _ _ _ _ _ _ _ _ _ _ Hn _ Hev) as [Ho _].
  rewrite Heq in Ho. by eapply no_disjoint.
Qed.

Lemma maker_conservation c m p sm m' : accepted same_id c m p sm m' ->
  forall o, o ∈ resting m (opposite (p_side p)) ->
  o_qty o = qty_in (resting m' (opposite (p_side p))) (o_id o)
            + sumN fill_base (about (o_id o) (emitted m m'))
            + sumN out_base (about (o_id o) (emitted m m')).
Proof.
  intros H o Ho. placed H.
  rewrite (in_resting _ _ _ _ _ _ (no_inv _ _ _ _ _ _ _ _ _ _ _ _ _ _ Hn)) in Ho.
  assert (Hnd : NoDup (map o_id (L (opposite (p_side p))))) by (eapply minv_nodup, Hn).
  rewrite (no_emit _ _ _ _ _ _ _ _ _ _ _ _ _ _ Hn), (no_rest_opp _ _ _ _ _ _ _ _ _ _ _ _ _ _ Hn).
  rewrite (no_balance_E2 _ _ _ _ _ _ _ _ _ _ _ _ _ _ Hn) by by apply elem_of_list_fmap_1.
  pose proof (esteps_balance _ _ _ _ _ _ _ (no_steps _ _ _ _ _ _ _ _ _ _ _ _ _ _ Hn)
    (no_linit _ _ _ _ _ _ _ _ _ _ _ _ _ _ Hn) (no_typed_opp _ _ _ _ _ _ _ _ _ _ _ _ _ _ Hn) Hnd (o_id o)) as Hb.
  rewrite (qty_in_in _ _ Hnd Ho) in Hb. unfold balance in Hb.
  rewrite qty_in_prio; [lia|].
  destruct (eats_ids _ _ _ (no_eats _ _ _ _ _ _ _ _ _ _ _ _ _ _ Hn)) as [d Hd].
  rewrite Hd in Hnd. by apply NoDup_app in Hnd as (_&_&?).
Qed.

Lemma opposite_replay c m p sm m' : accepted same_id c m p sm m' ->
  resting m' (opposite (p_side p)) = apply_events (resting m (opposite (p_side p))) (emitted m m').
Proof.
  intros H. placed H.
  rewrite (no_emit _ _ _ _ _ _ _ _ _ _ _ _ _ _ Hn), (no_rest_opp _ _ _ _ _ _ _ _ _ _ _ _ _ _ Hn).
  rewrite (no_rest0 _ _ _ _ _ _ _ _ _ _ _ _ _ _ Hn), apply_events_prio.
  by rewrite (no_apply_opp _ _ _ _ _ _ _ _ _ _ _ _ _ _ Hn).
Qed.

Lemma maker_untouched c m p sm m' : accepted same_id c m p sm m' ->
  forall o, o ∈ resting m (opposite (p_side p)) -> about (o_id o) (emitted m m') = [] ->
  o ∈ resting m' (opposite (p_side p)).
Proof.
  intros H o Ho Ha. rewrite (opposite_replay _ _ _ _ _ H). by apply apply_events_untouched.
Qed.

Lemma maker_identity c m p sm m' : accepted same_id c m p sm m' ->
  forall o', o' ∈ resting m' (opposite (p_side p)) ->
  exists o, o ∈ resting m (opposite (p_side p)) /\ o_id o' = o_id o /\ o_cb o' = o_cb o /\
    o_qty o' <= o_qty o.
Proof.
  intros H o' Ho'. placed H. rewrite (no_rest_opp _ _ _ _ _ _ _ _ _ _ _ _ _ _ Hn) in Ho'.
  apply prio_elem in Ho'.
  destruct (tail_of_ids _ _ _ (esteps_tail _ _ _ _ _ _ _ _ (no_steps _ _ _ _ _ _ _ _ _ _ _ _ _ _ Hn)) Ho')
    as (o&Ho&?). exists o.
  by rewrite (in_resting _ _ _ _ _ _ (no_inv _ _ _ _ _ _ _ _ _ _ _ _ _ _ Hn)).
Qed.

(** An order leaves the opposite side exactly with an out. *)
Lemma eats_gone os E os' id : NoDup (map o_id os) -> eats os E = Some os' -> id ∈ map o_id os ->
  id ∉ map o_id os' <-> exists e cb, EvOut e cb ∈ E /\ oe_id e = id.
Proof.
  revert os; induction E as [|ev E IH]; intros os Hnd He Hin; cbn in He.
  - simplify_eq. split; [done|]. intros (e&cb&Hev&_). by apply elem_of_nil in Hev.
  - destruct (eat os ev) as [os1|] eqn:Hea; [|done].
    destruct os as [|o os]; [done|]. cbn [eat] in Hea.
    destruct (N.eqb_spec (event_id ev) (o_id o)) as [Hid|]; [|done].
    cbn in Hnd. apply NoDup_cons in Hnd as [Hx Hnd].
    destruct ev as [e mk tk|e mk]; simplify_eq; cbn in Hid.
    + assert (Hnd' : NoDup (map o_id ((mk_leaf (o_id o) (o_qty o - fe_base e), o_cb o) :: os)))
        by (cbn; by constructor).
      rewrite (IH _ Hnd' He Hin).
      split; intros (e1&cb1&Hev&Hid1); exists e1, cb1; (split; [|done]).
      * by right.
      * by apply elem_of_cons in Hev as [?|?].
    + cbn in Hin. destruct (decide (id = o_id o)) as [->|Hne].
      * split; [intros _; exists e, mk; split; [left|done]|]. intros _.
        destruct (eats_ids _ _ _ He) as [d Hd]. intros Hin'. apply Hx. rewrite Hd.
        apply elem_of_app. by right.
      * apply elem_of_cons in Hin as [?|Hin]; [done|].
        rewrite (IH _ Hnd He Hin).
        split; intros (e1&cb1&Hev&Hid1); exists e1, cb1; (split; [|done]).
        -- by right.
        -- apply elem_of_cons in Hev as [Heq|?]; [|done]. by simplify_eq.
Qed.
Lemma maker_leaves c m p sm m' : accepted same_id c m p sm m' ->
  forall o, o ∈ resting m (opposite (p_side p)) ->
  o_id o ∉ map o_id (resting m' (opposite (p_side p))) <->
  exists e cb, EvOut e cb ∈ emitted m m' /\ oe_id e = o_id o.
Proof.
  intros H o Ho. placed H.
  rewrite (in_resting _ _ _ _ _ _ (no_inv _ _ _ _ _ _ _ _ _ _ _ _ _ _ Hn)) in Ho.
  assert (Hnd : NoDup (map o_id (L (opposite (p_side p))))) by (eapply minv_nodup, Hn).
  assert (Hid : o_id o ∈ map o_id (L (opposite (p_side p)))) by by apply elem_of_list_fmap_1.
  rewrite (no_rest_opp _ _ _ _ _ _ _ _ _ _ _ _ _ _ Hn), <- prio_map, prio_elem.
  rewrite (eats_gone _ _ _ _ Hnd (no_eats _ _ _ _ _ _ _ _ _ _ _ _ _ _ Hn) Hid).
  split; intros (e&cb&Hev&Heq); exists e, cb; (split; [|done]).
  - rewrite (no_emit _ _ _ _ _ _ _ _ _ _ _ _ _ _ Hn). apply elem_of_app. by left.
  - eapply no_in_E; [exact Hn|exact Hev|]. cbn. by rewrite Heq.
Qed.

(** ** post_only, post_allowed, match_limit *)
Lemma not_crosses_all sd limit os : sorted (opposite sd) os -> Forall order_typed os ->
  match os with [] => True | o :: _ => crosses sd limit (o_price o) = false end ->
  forall o, o ∈ os -> ~ crossing sd limit (id_price (o_id o)).
Proof.
  intros Hs Ht Hc o Ho Hx. destruct os as [|x os]; [by apply elem_of_nil in Ho|].
  pose proof (not_crosses_rest _ _ _ _ _ Hs Ht Ho Hc) as Hf.
  rewrite Forall_forall in Ht. destruct (Ht o Ho) as [Hid _].
  apply crosses_crossing in Hx. unfold o_price in Hf. rewrite id_price_key in Hf by done. congruence.
Qed.

Lemma post_only_facts c m p sm m' : accepted same_id c m p sm m' -> post_only p = true ->
  resting m' (opposite (p_side p)) = resting m (opposite (p_side p)) /\
  (forall ev, ev ∈ emitted m m' -> event_id ev ∉ map o_id (resting m (opposite (p_side p)))) /\
  (posted_order_id sm <> None ->
   forall o, o ∈ resting m (opposite (p_side p)) ->
     ~ crossing (p_side p) (limit_price p) (id_price (o_id o))).
Proof.
  intros H Hpo. placed H.
  destruct (esteps_post_only _ _ _ _ _ _ _ _ (no_steps _ _ _ _ _ _ _ _ _ _ _ _ _ _ Hn) Hpo)
    as (HE1&Hopp&Hl1).
  split_and!.
  - rewrite (no_rest_opp _ _ _ _ _ _ _ _ _ _ _ _ _ _ Hn), Hopp.
    by rewrite (no_rest0 _ _ _ _ _ _ _ _ _ _ _ _ _ _ Hn).
  - intros ev Hev Hin.
    rewrite (in_resting_ids _ _ _ _ _ _ (no_inv _ _ _ _ _ _ _ _ _ _ _ _ _ _ Hn)) in Hin.
    eapply no_in_E in Hin; [|exact Hn|done]. rewrite HE1 in Hin. by apply elem_of_nil in Hin.
  - intros Hp o Ho.
    rewrite (in_resting _ _ _ _ _ _ (no_inv _ _ _ _ _ _ _ _ _ _ _ _ _ _ Hn)) in Ho.
    eapply not_crosses_all; [eapply minv_sorted, Hn|by eapply no_typed_opp| |exact Ho].
    assert (Hcr : l_crossed l = false).
    { destruct (no_post _ _ _ _ _ _ _ _ _ _ _ _ _ _ Hn); done. }
    pose proof (no_break _ _ _ _ _ _ _ _ _ _ _ _ _ _ Hn) as Hbr.
    rewrite Hopp, Hl1 in Hbr. by eapply estep_break_crossed in Hbr as [_ ?].
Qed.

Lemma post_only_crossing c m p sm m' : accepted same_id c m p sm m' -> post_only p = true ->
  (exists o, o ∈ resting m (opposite (p_side p)) /\
     crossing (p_side p) (limit_price p) (id_price (o_id o))) ->
  posted_order_id sm = None /\ total_base_qty sm = 0 /\ total_quote_qty sm = 0 /\
  emitted m m' = [] /\ forall sd, resting m' sd = resting m sd.
Proof.
  intros H Hpo (o&Ho&Hx). pose proof (post_only_facts _ _ _ _ _ H Hpo) as (H1&H2&H3).
  pose proof (summary_sums _ _ _ _ _ H) as (S1&S2&S3).
  assert (Hp : posted_order_id sm = None).
  { destruct (posted_order_id sm) eqn:Hp; [|done]. exfalso. by eapply H3. }
  rewrite Hp in S2. specialize (S3 Hp). placed H.
  destruct (esteps_post_only _ _ _ _ _ _ _ _ (no_steps _ _ _ _ _ _ _ _ _ _ _ _ _ _ Hn) Hpo)
    as (HE1&Hopp&Hl1).
  destruct (no_post _ _ _ _ _ _ _ _ _ _ _ _ _ _ Hn); try done.
  rewrite (no_emit _ _ _ _ _ _ _ _ _ _ _ _ _ _ Hn), HE1 in S1, S2 |- *. cbn in *.
  split_and!; try done; try lia.
  intros sd. assert (sd = p_side p \/ sd = opposite (p_side p)) as [->| ->].
  { destruct sd, (p_side p); auto. }
  - rewrite (no_rest_own _ _ _ _ _ _ _ _ _ _ _ _ _ _ Hn). by rewrite (no_rest0 _ _ _ _ _ _ _ _ _ _ _ _ _ _ Hn).
  - done.
Qed.

Lemma post_forbidden c m p sm m' : accepted same_id c m p sm m' -> post_allowed p = false ->
  resting m' (p_side p) = resting m (p_side p) /\ posted_order_id sm = None /\
  total_base_qty_posted sm = 0 /\
  (forall ev, ev ∈ emitted m m' -> event_id ev ∉ map o_id (resting m (p_side p))).
Proof.
  intros H Hpa. placed H.
  rewrite (no_rest_own _ _ _ _ _ _ _ _ _ _ _ _ _ _ Hn), (no_rest0 _ _ _ _ _ _ _ _ _ _ _ _ _ _ Hn).
  rewrite (no_emit _ _ _ _ _ _ _ _ _ _ _ _ _ _ Hn).
  assert (HE : forall ev, ev ∈ E1 -> event_id ev ∉ map o_id (prio (p_side p) (L (p_side p)))).
  { intros ev Hev Hin. rewrite <- prio_map in Hin. apply prio_elem in Hin.
    eapply no_disjoint; [exact Hn|exact Hin|]. by eapply no_E1_opp. }
  destruct (no_post _ _ _ _ _ _ _ _ _ _ _ _ _ _ Hn); [|congruence|congruence].
  rewrite app_nil_r. done.
Qed.

Lemma match_limit_bounds c m p sm m' : accepted same_id c m p sm m' ->
  N.of_nat (length (List.filter is_fill (emitted m m'))) <= match_limit p /\
  (forall ids, NoDup ids ->
     (forall id, id ∈ ids -> id ∈ map o_id (resting m (opposite (p_side p))) /\
                  about id (emitted m m') <> []) ->
     N.of_nat (length ids) <= match_limit p) /\
  N.of_nat (length (emitted m m')) <= 2 * match_limit p + 1.
Proof.
  intros H. placed H. pose proof (no_steps _ _ _ _ _ _ _ _ _ _ _ _ _ _ Hn) as Hst.
  destruct (esteps_count _ _ _ _ _ _ _ _ Hst) as [Hc _].
  pose proof (esteps_interactions _ _ _ _ _ _ _ _ Hst) as Hi.
  destruct (esteps_ids _ _ _ _ _ _ _ _ Hst) as (js&Hjs&Hids). cbn [l_limit l_init] in *.
  split_and!.
  - assert (Hf : List.filter is_fill (emitted m m') = List.filter is_fill E1).
    { rewrite (no_emit _ _ _ _ _ _ _ _ _ _ _ _ _ _ Hn), List.filter_app.
      destruct (no_E2 _ _ _ _ _ _ _ _ _ _ _ _ _ _ Hn) as [->|(w&own0&->&_)]; cbn; apply app_nil_r. }
    rewrite Hf. assert (Hle : (length (List.filter is_fill E1) <=
      length (List.filter (is_interaction same_id p) E1))%nat).
    { clear. induction E1 as [|[e mk tk|e mk] E IH]; [done| |].
      - cbn. lia.
      - cbn -[is_interaction]. destruct (is_interaction same_id p (EvOut e mk)); cbn -[is_interaction]; lia. }
    unfold interactions in Hi. lia.
  - intros ids Hnd Hin.
    assert (Hincl : incl ids js).
    { intros id Hid%elem_of_list_In. apply elem_of_list_In. destruct (Hin id Hid) as [Ho Ha].
      rewrite (in_resting_ids _ _ _ _ _ _ (no_inv _ _ _ _ _ _ _ _ _ _ _ _ _ _ Hn)) in Ho.
      destruct (about id (emitted m m')) as [|ev r] eqn:Hab; [done|].
      assert (Hev : ev ∈ about id (emitted m m')) by (rewrite Hab; left).
      apply about_in in Hev as [Hev <-]. apply Hids. by eapply no_in_E. }
    pose proof (NoDup_incl_length (proj1 (NoDup_ListNoDup _) Hnd) Hincl). lia.
  - rewrite (no_emit _ _ _ _ _ _ _ _ _ _ _ _ _ _ Hn), app_length.
    destruct (no_E2 _ _ _ _ _ _ _ _ _ _ _ _ _ _ Hn) as [->|(w&own0&->&_)]; cbn [length]; lia.
Qed.

Lemma match_limit_zero c m p sm m' : accepted same_id c m p sm m' -> match_limit p = 0 ->
  emitted m m' = [] /\ posted_order_id sm = None /\ total_base_qty sm = 0 /\
  total_quote_qty sm = 0 /\ forall sd, resting m' sd = resting m sd.
Proof.
  intros H Hz. pose proof (summary_sums _ _ _ _ _ H) as (S1&S2&S3). placed H.
  destruct (esteps_limit0 _ _ _ _ _ _ _ _ (no_steps _ _ _ _ _ _ _ _ _ _ _ _ _ _ Hn) Hz)
    as (HE1&Hopp&Hl1).
  assert (Hcr : l_crossed l = true).
  { destruct (l_crossed l) eqn:Hc; [done|].
    pose proof (no_break _ _ _ _ _ _ _ _ _ _ _ _ _ _ Hn) as Hbr. rewrite Hopp, Hl1 in Hbr.
    eapply estep_break_crossed in Hbr as [Hb _]; [|done|done]. cbn in Hb. lia. }
  destruct (no_post _ _ _ _ _ _ _ _ _ _ _ _ _ _ Hn); [|congruence|congruence].
  rewrite (no_emit _ _ _ _ _ _ _ _ _ _ _ _ _ _ Hn), HE1 in S1, S2 |- *. cbn in *.
  split_and!; try done; try lia.
  intros sd. assert (sd = p_side p \/ sd = opposite (p_side p)) as [->| ->].
  { destruct sd, (p_side p); auto. }
  - rewrite (no_rest_own _ _ _ _ _ _ _ _ _ _ _ _ _ _ Hn). by rewrite (no_rest0 _ _ _ _ _ _ _ _ _ _ _ _ _ _ Hn).
  - rewrite (no_rest_opp _ _ _ _ _ _ _ _ _ _ _ _ _ _ Hn), Hopp. by rewrite (no_rest0 _ _ _ _ _ _ _ _ _ _ _ _ _ _ Hn).
Qed.
End NewOrderProps.
