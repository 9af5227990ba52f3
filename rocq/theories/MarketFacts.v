(** * MarketFacts.v: what a new order does, in terms of what can be observed *)
From Verif Require Import Machine Bytes Critbit EventQueue OrderBook Market Spec MachineProofs
  TreeProofs SlabProofs SlabProofs2 QueueProofs IdProofs Engine BookProofs EngineProofs
  MarketProofs.
From Coq Require Import ZifyBool ZifyNat ZifyN.
From Coq Require Import Sorting.Sorted.

Global Arguments id_price : simpl never.
Global Arguments id_seq : simpl never.
Global Arguments quote_amount : simpl never.
Global Arguments apply_event : simpl never.

Section MarketFacts.
Context {C : Type} (same_id : C -> C -> bool).
Implicit Types m : market C.
Implicit Types c : config C.
Implicit Types os : list (order C).
Implicit Types E : list (event_ref C).

(** ** Lists *)
Lemma nodup_ids sd os : sorted sd os -> NoDup (map o_id os).
Proof.
  induction 1 as [|o os Hs IH Hall]; cbn; constructor; [|done].
  intros Hin. apply elem_of_list_fmap in Hin as (x&Heq&Hx). rewrite Forall_forall in Hall.
  specialize (Hall x Hx). rewrite Heq in Hall. by rewrite before_irrefl in Hall.
Qed.
Lemma in_id_unique os x y : NoDup (map o_id os) -> x ∈ os -> y ∈ os -> o_id x = o_id y -> x = y.
Proof.
  intros Hnd Hx Hy He. apply elem_of_list_lookup in Hx as [i Hi], Hy as [j Hj].
  assert (i = j); [|congruence].
  eapply (NoDup_lookup (map o_id os)); [done| |].
  - by rewrite list_lookup_fmap, Hi.
  - by rewrite list_lookup_fmap, Hj, He.
Qed.
Lemma prio_perm {A} sd (l : list A) : prio sd l ≡ₚ l.
Proof. destruct sd; cbn; [symmetry; apply Permutation_rev|done]. Qed.
Lemma filter_prio {A} sd (f : A -> bool) l : List.filter f (prio sd l) = prio sd (List.filter f l).
Proof.
  destruct sd; [|done]. cbn. induction l as [|x l IH]; [done|]. cbn.
  rewrite List.filter_app, IH. cbn. destruct (f x); [done|]. by rewrite app_nil_r.
Qed.
Lemma apply_event_prio sd os ev : apply_event (prio sd os) ev = prio sd (apply_event os ev).
Proof.
  destruct ev; unfold apply_event; [by rewrite prio_map|apply filter_prio].
Qed.
Lemma apply_events_prio sd os E : apply_events (prio sd os) E = prio sd (apply_events os E).
Proof.
  unfold apply_events. revert os; induction E as [|ev E IH]; intros os; [done|]. cbn.
  by rewrite apply_event_prio, IH.
Qed.
Lemma apply_events_app os E1 E2 : apply_events os (E1 ++ E2) = apply_events (apply_events os E1) E2.
Proof. apply fold_left_app. Qed.

Lemma apply_event_other os ev : event_id ev ∉ map o_id os -> apply_event os ev = os.
Proof.
  intros Hn. destruct ev as [e mk tk|e mk]; unfold apply_event; cbn in Hn.
  - induction os as [|o os IH]; [done|]. cbn in *. apply not_elem_of_cons in Hn as [H1 H2].
    destruct (N.eqb_spec (o_id o) (fe_maker_id e)); [congruence|]. by rewrite IH.
  - apply (del_notin (oe_id e) os Hn).
Qed.
Lemma apply_events_other os E : (forall ev, ev ∈ E -> event_id ev ∉ map o_id os) ->
  apply_events os E = os.
Proof.
  unfold apply_events. induction E as [|ev E IH]; intros Hi; [done|]. cbn.
  rewrite apply_event_other by (apply Hi; left). apply IH. intros ev' ?. apply Hi. by right.
Qed.
Lemma eat_apply os ev os' : NoDup (map o_id os) -> eat os ev = Some os' ->
  apply_event os ev = os'.
Proof.
  destruct os as [|o os]; [done|]. cbn [eat map]. intros Hnd.
  apply NoDup_cons in Hnd as [Hn Hnd].
  destruct (N.eqb_spec (event_id ev) (o_id o)) as [He|]; [|done].
  destruct ev as [e mk tk|e mk]; intros [= <-].
  - cbn in He. pose proof (apply_event_other os (EvFill e mk tk)) as Ho. cbn in Ho.
    rewrite He in Ho. specialize (Ho Hn). unfold apply_event in *. cbn.
    rewrite He, N.eqb_refl. rewrite He in Ho. by rewrite Ho.
  - cbn in He. pose proof (apply_event_other os (EvOut e mk)) as Ho. cbn in Ho.
    rewrite He in Ho. specialize (Ho Hn). unfold apply_event in *. cbn.
    rewrite He, N.eqb_refl. cbn. rewrite He in Ho. by rewrite Ho.
Qed.
Lemma eat_ids os ev os' : eat os ev = Some os' ->
  map o_id os' = map o_id os \/ map o_id os = event_id ev :: map o_id os'.
Proof.
  destruct os as [|o os]; [done|]. cbn [eat].
  destruct (N.eqb_spec (event_id ev) (o_id o)) as [He|]; [|done].
  destruct ev; intros [= <-]; cbn; [left|right]; [done|]. by rewrite <- He.
Qed.
Lemma eats_ids os E os' : eats os E = Some os' -> exists d, map o_id os = d ++ map o_id os'.
Proof.
  revert os; induction E as [|ev E IH]; intros os; cbn.
  - intros [= <-]. by exists [].
  - destruct (eat os ev) as [os1|] eqn:He; [|done]. intros H.
    destruct (IH _ H) as [d Hd]. destruct (eat_ids _ _ _ He) as [Hi|Hi].
    + exists d. by rewrite <- Hi.
    + exists (event_id ev :: d). by rewrite Hi, Hd.
Qed.
Lemma eats_apply os E os' : NoDup (map o_id os) -> eats os E = Some os' ->
  apply_events os E = os'.
Proof.
  unfold apply_events. revert os; induction E as [|ev E IH]; intros os Hnd; cbn.
  - by intros [= <-].
  - destruct (eat os ev) as [os1|] eqn:He; [|done]. intros H.
    rewrite (eat_apply _ _ _ Hnd He). apply IH; [|done].
    destruct (eats_ids os [ev] os1) as [d Hd]; [cbn; by rewrite He|].
    rewrite Hd in Hnd. by apply NoDup_app in Hnd as (_&_&?).
Qed.
Lemma eats_split os E1 ev E2 os' : eats os (E1 ++ ev :: E2) = Some os' ->
  exists o rest, eats os E1 = Some (o :: rest) /\ event_id ev = o_id o.
Proof.
  rewrite eats_app. destruct (eats os E1) as [os1|]; [|done]. cbn.
  destruct os1 as [|o rest]; [done|]. cbn [eat].
  destruct (N.eqb_spec (event_id ev) (o_id o)); [|done]. intros _. eauto.
Qed.
Lemma eats_event_ids os E os' ev : eats os E = Some os' -> ev ∈ E -> event_id ev ∈ map o_id os.
Proof.
  intros H Hev. apply elem_of_list_split in Hev as (E1&E2&->).
  destruct (eats_split _ _ _ _ _ H) as (o&rest&H1&H2).
  destruct (eats_ids _ _ _ H1) as [d Hd]. rewrite Hd, H2. apply elem_of_app. right. left.
Qed.
Lemma before_ahead sd x y : before sd x y = true -> ahead sd x y.
Proof.
  unfold ahead, better_price, id_price, id_seq, before.
  pose proof (N.div_mod x p64 ltac:(done)). pose proof (N.div_mod y p64 ltac:(done)).
  pose proof (N.mod_lt x p64 ltac:(done)). pose proof (N.mod_lt y p64 ltac:(done)).
  destruct sd; intros Hb.
  - assert (y < x) by lia. destruct (N.lt_ge_cases (y / p64) (x / p64)); [by left|right].
    assert (x / p64 = y / p64) by lia. split; [done|]. lia.
  - assert (x < y) by lia. destruct (N.lt_ge_cases (x / p64) (y / p64)); [by left|right].
    assert (x / p64 = y / p64) by lia. split; [done|]. lia.
Qed.
Lemma id_price_key id : id < p128 -> price_from_key id = id_price id.
Proof.
  intros H. unfold price_from_key, id_price. rewrite N.shiftr_div_pow2. change (2 ^ 64) with p64.
  apply N.mod_small. apply N.div_lt_upper_bound; lia.
Qed.
Lemma crosses_crossing sd limit price : crosses sd limit price = true <-> crossing sd limit price.
Proof. unfold crosses, crossing. destruct sd; lia. Qed.

(** ** The view of an invariant *)
Lemma in_resting c m L pend sd o : minv c m L pend -> o ∈ resting m sd <-> o ∈ L sd.
Proof. intros H. rewrite (minv_resting _ _ _ _ _ H). apply prio_elem. Qed.
Lemma in_resting_ids c m L pend sd id : minv c m L pend ->
  id ∈ map o_id (resting m sd) <-> id ∈ map o_id (L sd).
Proof.
  intros H. rewrite (minv_resting _ _ _ _ _ H), <- prio_map. apply prio_elem.
Qed.
Lemma minv_sorted c m L pend sd : minv c m L pend -> sorted sd (L sd).
Proof. intros H. eapply lrep_sorted, H. Qed.
Lemma minv_nodup c m L pend sd : minv c m L pend -> NoDup (map o_id (L sd)).
Proof. intros H. by eapply nodup_ids, minv_sorted. Qed.
Lemma minv_ok c m L pend sd o : minv c m L pend -> o ∈ L sd ->
  order_ok c (seq_of m) sd o.
Proof.
  intros H Ho. pose proof (mi_ok _ _ _ _ H sd) as Hf. rewrite Forall_forall in Hf. by apply Hf.
Qed.
Lemma minv_sides c m L pend id : minv c m L pend -> seq_of m < p63 ->
  id ∈ map o_id (L Bid) -> id ∈ map o_id (L Ask) -> False.
Proof.
  intros H Hs Hb Ha. apply elem_of_list_fmap in Hb as (x&->&Hx), Ha as (y&Heq&Hy).
  destruct (order_ok_price _ _ _ _ Hs (minv_ok _ _ _ _ _ _ H Hx)) as (_&_&_&S1&_).
  destruct (order_ok_price _ _ _ _ Hs (minv_ok _ _ _ _ _ _ H Hy)) as (_&_&_&S2&_).
  rewrite Heq in S1. congruence.
Qed.
Lemma minv_sides' c m L pend sd id : minv c m L pend -> seq_of m < p63 ->
  id ∈ map o_id (L sd) -> id ∈ map o_id (L (opposite sd)) -> False.
Proof. destruct sd; eauto using minv_sides. Qed.

(** ** Inversion of a successful new order *)
Record newo c m (p : params C) (sm : summary) m' (L : side -> list (order C))
    (pend : list (event_ref C)) (l1 l : locals) E1 E2 own' opp' : Prop := mk_newo {
  no_cfg : config_ok c;
  no_ty : op_typed (NewOrder p);
  no_inv : minv c m L pend;
  no_seq : seq_of m < p63;
  no_inv' : minv c m' (sides (p_side p) own' opp') (pend ++ E1 ++ E2);
  no_price : price_bad c p = false;
  no_steps : esteps same_id p (c_min c) (l_init p) (L (opposite (p_side p))) E1 l1 opp';
  no_break : estep same_id p (c_min c) l1 opp' = EBreak l;
  no_post : posted_case p (c_min c) l (L (p_side p)) (caps c (p_side p)) (seq_of m)
              own' E2 sm (seq_of m');
  no_emit : emitted m m' = E1 ++ E2;
}.

Lemma emitted_app c c' m m' L L' pend E : minv c m L pend -> minv c' m' L' (pend ++ E) ->
  emitted m m' = E.
Proof.
  intros H1 H2. unfold emitted. rewrite (minv_pending _ _ _ _ H1), (minv_pending _ _ _ _ H2).
  by rewrite drop_app.
Qed.
Lemma new_order_cases c m p r m' :
  reachable same_id c m -> op_typed (NewOrder p) -> exec same_id (NewOrder p) m = (r, m') ->
  (r = Err InvalidLimitPrice /\ m' = m /\ price_bad c p = true) \/
  (exists L pend, config_ok c /\ minv c m L pend /\ seq_of m < p63 /\ price_bad c p = false /\
    let '(E, x) := enew same_id p (c_min c) (L (p_side p)) (L (opposite (p_side p)))
                     (caps c (p_side p)) (seq_of m) in
    (r = Err EventQueueFull /\ m' = m /\ fits c pend E = false) \/
    (r = Err WouldSelfTrade /\ m' = m /\ fits c pend E = true /\ x = None) \/
    (exists sm l1 l E1 E2 own' opp', r = Ok (Some sm) /\ fits c pend E = true /\
       E = E1 ++ E2 /\ x = Some (sm, own', opp', seq_of m') /\
       newo c m p sm m' L pend l1 l E1 E2 own' opp')).
Proof.
  intros Hr Hty He. pose proof Hr as (Hc&_).
  destruct (reachable_minv _ _ _ Hr) as (L&pend&Hm&Hs).
  pose proof (exec_new_order same_id c m L pend p Hc Hm Hty Hs) as H. cbn zeta in H.
  destruct (price_bad c p) eqn:Hpb; [left; rewrite H in He; by simplify_eq|right].
  exists L, pend. split_and!; try done.
  destruct (enew same_id p (c_min c) (L (p_side p)) (L (opposite (p_side p)))
             (caps c (p_side p)) (seq_of m)) as [E x] eqn:Hen.
  destruct (fits c pend E) eqn:Hf; [|left; rewrite H in He; by simplify_eq].
  destruct x as [[[[sm own'] opp'] seq']|]; [|right; left; rewrite H in He; by simplify_eq].
  right. right. destruct H as (m1&H&Hm1&Hs1). rewrite H in He. simplify_eq.
  destruct (enew_inv _ _ _ _ _ _ _ _ _ _ _ _ Hen) as (l1&l&E1&E2&H1&H2&H3&->).
  exists sm, l1, l, E1, E2, own', opp'. split_and!; try done.
  split; try done. by eapply emitted_app.
Qed.
Lemma new_order_inv c m p r m' :
  reachable same_id c m -> op_typed (NewOrder p) -> exec same_id (NewOrder p) m = (Ok r, m') ->
  exists sm L pend l1 l E1 E2 own' opp', r = Some sm /\
    newo c m p sm m' L pend l1 l E1 E2 own' opp'.
Proof.
  intros Hr Hty He. destruct (new_order_cases _ _ _ _ _ Hr Hty He) as
    [(?&_)|(L&pend&_&_&_&_&H)]; [done|].
  destruct (enew _ _ _ _ _ _ _) as [E x].
  destruct H as [(?&_)|[(?&_)|(sm&l1&l&E1&E2&own'&opp'&?&_&_&_&Hn)]]; [done|done|].
  simplify_eq. by exists sm, L, pend, l1, l, E1, E2, own', opp'.
Qed.

Section Placed.
Context c m p sm m' L pend l1 l E1 E2 own' opp'
  (H : newo c m p sm m' L pend l1 l E1 E2 own' opp').
Notation sd := (p_side p).
Notation opp := (opposite (p_side p)).

Lemma no_rest_own : resting m' sd = prio sd own'.
Proof. rewrite (minv_resting _ _ _ _ _ (no_inv' _ _ _ _ _ _ _ _ _ _ _ _ _ H)). by rewrite sides_own. Qed.
Lemma no_rest_opp : resting m' opp = prio opp opp'.
Proof. rewrite (minv_resting _ _ _ _ _ (no_inv' _ _ _ _ _ _ _ _ _ _ _ _ _ H)). by rewrite sides_opp. Qed.
Lemma no_rest0 x : resting m x = prio x (L x).
Proof. apply (minv_resting _ _ _ _ _ (no_inv _ _ _ _ _ _ _ _ _ _ _ _ _ H)). Qed.
Lemma no_typed_opp : Forall order_typed (L opp).
Proof. eapply minv_typed; apply H. Qed.
Lemma no_linit : locals_typed (l_init p).
Proof. apply l_init_typed, H. Qed.
Lemma no_eats : eats (L opp) E1 = Some opp'.
Proof. eapply esteps_eats, H. Qed.
Lemma no_l1 : locals_typed l1 /\ l_limit l1 <= match_limit p /\
  l_base l1 <= max_base_qty p /\ l_quote l1 <= max_quote_qty p.
Proof.
  destruct (esteps_typed _ _ _ _ _ _ _ _ (no_steps _ _ _ _ _ _ _ _ _ _ _ _ _ H) no_linit no_typed_opp)
    as (?&_&?&?&?). done.
Qed.
Lemma no_lb : l_base l = l_base l1 /\ l_quote l = l_quote l1 /\ l_limit l = l_limit l1.
Proof. eapply estep_break, H. Qed.
Lemma no_sums :
  max_base_qty p = l_base l + sumN fill_base E1 /\ max_quote_qty p = l_quote l + sumN fill_quote E1.
Proof.
  destruct no_lb as (->&->&_).
  apply (esteps_sums _ _ _ _ _ _ _ _ (no_steps _ _ _ _ _ _ _ _ _ _ _ _ _ H) no_linit no_typed_opp).
Qed.
Lemma no_E2 : E2 = [] \/ exists w own0, E2 = [ev_out sd w (o_qty w)] /\ L sd = own0 ++ [w].
Proof. destruct (no_post _ _ _ _ _ _ _ _ _ _ _ _ _ H); eauto 10. Qed.
Lemma no_E2_own ev : ev ∈ E2 -> event_id ev ∈ map o_id (L sd) /\ is_fill ev = false.
Proof.
  intros Hev. destruct no_E2 as [Hn|(w&own0&Hn&Hl)]; rewrite Hn in Hev.
  - by apply elem_of_nil in Hev.
  - apply elem_of_list_singleton in Hev as ->. split; [|done]. cbn. rewrite Hl.
    apply elem_of_list_fmap_1, elem_of_app. right. left.
Qed.
Lemma no_E1_opp ev : ev ∈ E1 -> event_id ev ∈ map o_id (L opp).
Proof. apply eats_event_ids with opp', no_eats. Qed.
Lemma no_disjoint id : id ∈ map o_id (L sd) -> id ∈ map o_id (L opp) -> False.
Proof. eapply minv_sides'; apply H. Qed.
Lemma no_in_E ev : ev ∈ emitted m m' -> event_id ev ∈ map o_id (L opp) -> ev ∈ E1.
Proof.
  rewrite (no_emit _ _ _ _ _ _ _ _ _ _ _ _ _ H). intros Hev Hid.
  apply elem_of_app in Hev as [Hev|Hev]; [done|]. exfalso.
  destruct (no_E2_own _ Hev) as [? _]. by eapply no_disjoint.
Qed.
Lemma no_fill_E1 ev : ev ∈ emitted m m' -> is_fill ev = true -> ev ∈ E1.
Proof.
  rewrite (no_emit _ _ _ _ _ _ _ _ _ _ _ _ _ H). intros Hev Hf.
  apply elem_of_app in Hev as [Hev|Hev]; [done|]. exfalso.
  destruct (no_E2_own _ Hev) as [_ ?]. congruence.
Qed.
Lemma no_events : Forall (match_event_ok same_id p (c_min c)) E1.
Proof.
  eapply esteps_events; [apply H|apply no_linit|apply no_typed_opp].
Qed.
Lemma no_event ev : ev ∈ E1 -> match_event_ok same_id p (c_min c) ev.
Proof. pose proof no_events as Hf. rewrite Forall_forall in Hf. apply Hf. Qed.
Lemma no_opp_id id : id ∈ map o_id (L opp) -> price_from_key id = id_price id.
Proof.
  intros Hid. apply id_price_key. apply elem_of_list_fmap in Hid as (o&->&Ho).
  pose proof no_typed_opp as Hf. rewrite Forall_forall in Hf. by apply Hf.
Qed.
Lemma no_apply_opp : apply_events (L opp) (E1 ++ E2) = opp'.
Proof.
  rewrite apply_events_app.
  assert (Hnd : NoDup (map o_id (L opp))) by (eapply minv_nodup, H).
  rewrite (eats_apply _ _ _ Hnd no_eats).
  destruct no_E2 as [HE|(w&own0&HE&Hl)]; rewrite HE; [done|].
  unfold apply_events. cbn [fold_left].
  apply apply_event_other. intros Hin. cbn in Hin.
  destruct (eats_ids _ _ _ no_eats) as [d Hd].
  apply (no_disjoint (o_id w)).
  - rewrite Hl. apply elem_of_list_fmap_1, elem_of_app. right. left.
  - rewrite Hd. apply elem_of_app. by right.
Qed.
Lemma no_apply_own_E1 : apply_events (L sd) E1 = L sd.
Proof.
  apply apply_events_other. intros ev Hev Hin. eapply no_disjoint; [exact Hin|].
  by apply no_E1_opp.
Qed.
End Placed.
End MarketFacts.
