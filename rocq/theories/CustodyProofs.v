(** * CustodyProofs.v: delivery of the events and solvency of the caller (C66, C67) *)
From Verif Require Import Machine Bytes Critbit EventQueue OrderBook Market Spec MachineProofs
  TreeProofs SlabProofs SlabProofs2 QueueProofs IdProofs Engine BookProofs EngineProofs
  MarketProofs MarketFacts NewOrderProps NewOrderProps2 SelfTradeProps InstrProps HistoryProps
  LifeProps MarketReads ClientSpec EventProps CustodySpec.
From Coq Require Import ZifyBool ZifyNat ZifyN.

Section Custody.
Context {C : Type} (same_id : C -> C -> bool).
Implicit Types m : market C.
Implicit Types c : config C.
Implicit Types p : params C.
Implicit Types os : list (order C).
Implicit Types E F D : list (event_ref C).
Implicit Types log : list (entry C).

(** ** Sums *)
Lemma sumN_perm {A} (f : A -> N) l1 l2 : l1 ≡ₚ l2 -> sumN f l1 = sumN f l2.
Proof. induction 1; cbn; lia. Qed.
Lemma sumN_ext {A} (f g : A -> N) l : (forall x, x ∈ l -> f x = g x) -> sumN f l = sumN g l.
Proof.
  induction l as [|x l IH]; intros H; [done|]. cbn. rewrite (H x) by left.
  rewrite IH; [done|]. intros y Hy. apply H. by right.
Qed.
Lemma sumN_add {A} (f g : A -> N) l : sumN (fun x => f x + g x) l = sumN f l + sumN g l.
Proof. induction l as [|x l IH]; cbn; lia. Qed.
Lemma sumN_zero {A} (l : list A) : sumN (fun _ => 0) l = 0.
Proof. induction l as [|x l IH]; cbn; lia. Qed.
Lemma sumN_map {A B} (f : B -> N) (g : A -> B) l : sumN f (map g l) = sumN (fun x => f (g x)) l.
Proof. induction l as [|x l IH]; cbn; congruence. Qed.
Lemma sumN_le {A} (f g : A -> N) l : (forall x, x ∈ l -> f x <= g x) -> sumN f l <= sumN g l.
Proof.
  induction l as [|x l IH]; intros H; [done|]. cbn. pose proof (H x ltac:(left)).
  assert (sumN f l <= sumN g l) by (apply IH; intros y Hy; apply H; by right). lia.
Qed.
Lemma sumN_sub {A} (f : A -> N) (l1 l2 : list A) : NoDup l1 -> NoDup l2 ->
  (forall x, x ∈ l1 -> x ∈ l2) -> (forall x, x ∈ l2 -> x ∉ l1 -> f x = 0) ->
  sumN f l1 = sumN f l2.
Proof.
  intros H1 H2 Hin Hz. destruct (submseteq_Permutation l1 l2) as (k&Hk).
  { by apply NoDup_submseteq. }
  rewrite (sumN_perm f l2 _ Hk), sumN_app. rewrite Hk in H2. apply NoDup_app in H2 as (_&Hd&_).
  rewrite (sumN_ext f (fun _ => 0) k); [rewrite sumN_zero; lia|].
  intros x Hx. apply Hz; [rewrite Hk; apply elem_of_app; by right|]. intros H. by eapply Hd.
Qed.
Definition amount (ev : event_ref C) : N := fill_base ev + out_base ev.
Lemma sum_amount E : sumN amount E = sumN fill_base E + sumN out_base E.
Proof. unfold amount. apply sumN_add. Qed.
Lemma sumN_scale {A} k (f : A -> N) l : sumN (fun x => k * f x) l = k * sumN f l.
Proof. induction l as [|x l IH]; cbn; lia. Qed.

(** Swapping the sums over orders and over events. *)
Lemma sum_about_one (w : N -> N) (ids : list N) (ev : event_ref C) : NoDup ids ->
  sumN (fun id => if event_id ev =? id then w id else 0) ids =
  if existsb (N.eqb (event_id ev)) ids then w (event_id ev) else 0.
Proof.
  induction ids as [|i ids IH]; intros Hnd; [done|]. apply NoDup_cons in Hnd as [Hi Hnd].
  cbn. rewrite IH by done. destruct (N.eqb_spec (event_id ev) i) as [<-|Hne]; cbn; [|done].
  destruct (existsb (N.eqb (event_id ev)) ids) eqn:He; [|lia].
  apply existsb_exists in He as (x&Hx&Heq). apply N.eqb_eq in Heq as <-.
  exfalso. apply Hi. by apply elem_of_list_In.
Qed.
Lemma sum_about (w : N -> N) (ids : list N) E : NoDup ids ->
  sumN (fun id => w id * sumN amount (about id E)) ids =
  sumN (fun ev => if existsb (N.eqb (event_id ev)) ids then w (event_id ev) * amount ev else 0) E.
Proof.
  intros Hnd. induction E as [|ev E IH].
  - cbn [sumN]. rewrite <- (sumN_zero ids). apply sumN_ext. intros id _. apply N.mul_0_r.
  - cbn [sumN]. rewrite <- IH, <- (sum_about_one (fun id => w id * amount ev)) by done.
    rewrite <- sumN_add. apply sumN_ext. intros id _. unfold about. cbn [List.filter].
    destruct (event_id ev =? id); cbn [sumN]; lia.
Qed.

(** ** The effect of one instruction on the weighted size of a side *)
Definition weight (w : N -> N) os : N := sumN (fun o => w (o_id o) * o_qty o) os.
Lemma weight_ids (w : N -> N) os : NoDup (map o_id os) ->
  weight w os = sumN (fun id => w id * qty_in os id) (map o_id os).
Proof.
  intros Hnd. unfold weight. rewrite sumN_map. apply sumN_ext. intros o Ho. by rewrite qty_in_in.
Qed.
Lemma no_outs sd id cb F : Forall (maker_fill sd id cb) F -> sumN out_base F = 0.
Proof.
  induction 1 as [|ev F Hev HF IH]; [done|]. cbn. rewrite IH. by destruct ev.
Qed.

Lemma cancelled_nodup c m o r m' : reachable same_id c m -> exec same_id o m = (r, m') ->
  NoDup (cancelled_ids (mk_entry o r (emitted m m'))) /\
  forall id, id ∈ cancelled_ids (mk_entry o r (emitted m m')) -> id ∈ map o_id (resting m (side_of_id id)).
Proof.
  intros Hr He. unfold cancelled_ids. cbn [en_op en_res].
  assert (Hnil : NoDup (@nil N) /\ forall id, id ∈ @nil N -> id ∈ map o_id (resting m (side_of_id id))).
  { split; [constructor|]. intros id H. by apply elem_of_nil in H. }
  destruct r as [r| | |]; [|by destruct o..]. destruct o as [p|id|ids|n]; [done| | |done].
  - destruct (cancel_ok_inv _ _ _ _ _ _ Hr He) as (o&Ho&Hid&_). split.
    + apply NoDup_singleton.
    + intros id' ->%elem_of_list_singleton. rewrite <- Hid at 1. by apply elem_of_list_fmap_1.
  - destruct (mass_cancel_exact same_id c m ids Hr) as [(Hnd&Hall&_)|(_&r1&Hex&Hr1)]; [done|].
    rewrite Hex in He. destruct Hr1 as [->|[->| ->]]; done.
Qed.
Lemma posted_fresh c m o r m' x : reachable same_id c m -> op_typed o -> exec same_id o m = (r, m') ->
  x ∈ posted_order (mk_entry o r (emitted m m')) -> (forall sd, o_id x ∉ map o_id (resting m sd)).
Proof.
  intros Hr Hty He Hx. destruct o as [p| | |]; [|by apply elem_of_nil in Hx..].
  destruct r as [[sm|]| | |]; try by apply elem_of_nil in Hx.
  assert (Hacc : accepted same_id c m p sm m') by done.
  unfold posted_order in Hx. cbn [en_op en_res] in Hx. pose proof (posted_visible _ _ _ _ _ _ Hacc) as Hv.
  destruct (posted_order_id sm) as [id|]; [|by apply elem_of_nil in Hx].
  apply elem_of_list_singleton in Hx as ->. destruct Hv as (_&Hv&_). exact Hv.
Qed.
Lemma event_shape c m o r m' ev : reachable same_id c m -> op_typed o -> exec same_id o m = (r, m') ->
  ev ∈ emitted m m' -> exists x, x ∈ resting m (side_of_id (event_id ev)) /\ o_id x = event_id ev /\
    (maker_fill (side_of_id (event_id ev)) (event_id ev) (o_cb x) ev \/
     exists q, ev = maker_out (side_of_id (event_id ev)) (event_id ev) (o_cb x) q).
Proof.
  intros Hr Hty He Hev.
  assert (exists sd x, x ∈ resting m sd /\ o_id x = event_id ev) as (sd&x&Hx&Hid).
  { assert (Hs : forall sd, event_id ev ∈ map o_id (resting m sd) ->
        exists sd x, x ∈ resting m sd /\ o_id x = event_id ev).
    { intros sd Hin. apply elem_of_list_fmap in Hin as (x&Hid&Hx). eauto. }
    destruct (decide (event_id ev ∈ map o_id (resting m Bid))) as [Hb|Hb]; [by eapply Hs|].
    destruct (decide (event_id ev ∈ map o_id (resting m Ask))) as [Ha|Ha]; [by eapply Hs|].
    exfalso. destruct (silent_step _ _ _ _ _ _ (event_id ev) Hr Hty He) as [Hab _].
    - intros []; done.
    - assert (ev ∈ about (event_id ev) (emitted m m')) as H by by apply about_in.
      rewrite Hab in H. by apply elem_of_nil in H. }
  pose proof (on_its_side _ _ _ _ _ Hr Hx) as Hsd. rewrite Hid in Hsd. subst sd.
  exists x. split; [done|]. split; [done|].
  assert (Hab : ev ∈ about (o_id x) (emitted m m')) by (rewrite Hid; by apply about_in).
  destruct (life_step _ _ _ _ _ _ _ _ Hr Hty He Hx) as
    [(HF&_)|[(F1&q&HF&HF1&_)|(HF&_)]]; rewrite Hid in *.
  - left. by apply (proj1 (Forall_forall _ _) HF).
  - rewrite HF in Hab. apply elem_of_app in Hab as [Hab| ->%elem_of_list_singleton].
    + left. by apply (proj1 (Forall_forall _ _) HF1).
    + right. eauto.
  - rewrite HF in Hab. by apply elem_of_nil in Hab.
Qed.

Lemma side_u8_eqb sd sd' : (side_u8 sd =? side_u8 sd') = true <-> sd = sd'.
Proof. by destruct sd, sd'. Qed.
Lemma elem_ids_on sd ids id : id ∈ ids_on sd ids <-> id ∈ ids /\ side_of_id id = sd.
Proof. unfold ids_on. by rewrite !elem_of_list_In, filter_In, side_u8_eqb. Qed.

(** Amount of an event on side [sd], weighted. *)
Definition on_side (sd : side) (w : N -> N) (ev : event_ref C) : N :=
  if side_u8 (side_of_id (event_id ev)) =? side_u8 sd then w (event_id ev) * amount ev else 0.
Lemma weight_step c m o r m' sd (w : N -> N) : reachable same_id c m -> reachable same_id c m' ->
  op_typed o -> exec same_id o m = (r, m') ->
  let e := mk_entry o r (emitted m m') in
  weight w (resting m' sd) +
    sumN (on_side sd w) (emitted m m') +
    sumN (fun id => w id * base_of m id) (ids_on sd (cancelled_ids e)) =
  weight w (resting m sd) +
    weight w (List.filter (fun x => side_u8 (side_of_id (o_id x)) =? side_u8 sd) (posted_order e)).
Proof.
  intros Hr Hr' Hty He e.
  pose proof (resting_nodup _ _ _ sd Hr) as Hnd. pose proof (resting_nodup _ _ _ sd Hr') as Hnd'.
  set (P := List.filter _ (posted_order e)).
  assert (HP : forall x, x ∈ P <-> x ∈ posted_order e /\ side_of_id (o_id x) = sd).
  { intros x. unfold P. by rewrite !elem_of_list_In, filter_In, side_u8_eqb. }
  assert (HPn : NoDup (map o_id P) /\ (length P <= 1)%nat).
  { unfold P, posted_order. destruct (en_op e), (en_res e) as [[sm|]| | |]; cbn; try (split; [constructor|lia]).
    destruct (posted_order_id sm); cbn; [|split; [constructor|lia]].
    destruct (_ =? _); cbn; split; try lia; [apply NoDup_singleton|constructor]. }
  destruct HPn as [HPn _].
  pose proof (step_effect _ _ _ _ _ _ Hr Hty He) as Hse. fold e in Hse. cbn zeta in Hse.
  assert (Hall : NoDup (map o_id (resting m sd) ++ map o_id P)).
  { apply NoDup_app. split; [done|]. split; [|done]. intros id Hid Hp.
    apply elem_of_list_fmap in Hp as (x&->&Hx). apply HP in Hx as [Hx _].
    by eapply (posted_fresh _ _ _ _ _ _ Hr Hty He Hx sd). }
  (* the orders of the new state *)
  assert (Hnew : weight w (resting m' sd) =
    sumN (fun id => w id * qty_in (resting m' sd) id) (map o_id (resting m sd)) + weight w P).
  { rewrite weight_ids by done.
    rewrite (sumN_sub _ (map o_id (resting m' sd)) (map o_id (resting m sd) ++ map o_id P)); try done.
    - rewrite sumN_app. f_equal. rewrite weight_ids by done. apply sumN_ext. intros id Hid.
      apply elem_of_list_fmap in Hid as (x&->&Hx). rewrite (qty_in_in P) by done.
      rewrite qty_in_in; [done..|]. apply Hse. right. by apply HP.
    - intros id Hid. apply elem_of_list_fmap in Hid as (x&->&Hx). apply Hse in Hx as [[Hx _]|Hx].
      + apply elem_of_app. left. apply elem_apply_events in Hx as (y&Hy&Ha).
        assert (o_id x = o_id y) as -> by by eapply acts_id. by apply elem_of_list_fmap_1.
      + apply elem_of_app. right. apply elem_of_list_fmap_1. by apply HP.
    - intros id _ Hid. rewrite qty_in_notin by done. apply N.mul_0_r. }
  rewrite Hnew, (weight_ids w (resting m sd)) by done.
  (* each order *)
  assert (Heach : forall id, id ∈ map o_id (resting m sd) ->
    w id * qty_in (resting m sd) id =
    w id * qty_in (resting m' sd) id +
    (w id * sumN amount (about id (emitted m m')) +
     (if existsb (N.eqb id) (cancelled_ids e) then w id * base_of m id else 0))).
  { intros id Hid. apply elem_of_list_fmap in Hid as (x&->&Hx).
    assert (Hb : base_of m (o_id x) = o_qty x).
    { unfold base_of. rewrite (on_its_side _ _ _ _ _ Hr Hx). by apply qty_in_in. }
    rewrite Hb, qty_in_in, sum_amount by done.
    assert (Hg : gone m' (o_id x) -> qty_in (resting m' sd) (o_id x) = 0).
    { intros Hg. by apply qty_in_notin. }
    assert (Hnc : o_id x ∉ cancelled_ids e -> existsb (N.eqb (o_id x)) (cancelled_ids e) = false).
    { intros Hn. apply not_true_is_false. intros Hex. apply existsb_exists in Hex as (y&Hy&Hxy).
      apply N.eqb_eq in Hxy as <-. apply Hn. by apply elem_of_list_In. }
    destruct (life_step _ _ _ _ _ _ _ _ Hr Hty He Hx) as
      [(HF&Hc&y&Hy&Hyid&_&Hq)|[(F1&q&HF&HF1&Hq&Hc&Hgo)|(HF&Hc&Hgo)]]; fold e in Hc.
    - rewrite Hnc, (no_outs _ _ _ _ HF), <- Hq by done. rewrite <- Hyid, qty_in_in by done. lia.
    - rewrite Hnc, Hg, HF, !sumN_app, (no_outs _ _ _ _ HF1), <- Hq by done. cbn. lia.
    - rewrite Hg, HF by done.
      assert (existsb (N.eqb (o_id x)) (cancelled_ids e) = true) as ->.
      { apply existsb_exists. exists (o_id x). split; [by apply elem_of_list_In|apply N.eqb_refl]. }
      cbn [sumN]. lia. }
  rewrite (sumN_ext _ _ _ Heach), !sumN_add, sum_about by done.
  assert (Hcanc : sumN (fun id => if existsb (N.eqb id) (cancelled_ids e) then w id * base_of m id else 0)
      (map o_id (resting m sd)) = sumN (fun id => w id * base_of m id) (ids_on sd (cancelled_ids e))).
  { destruct (cancelled_nodup _ _ _ _ _ Hr He) as [Hcn Hcr]. fold e in Hcn, Hcr.
    rewrite <- (sumN_sub _ (ids_on sd (cancelled_ids e)) (map o_id (resting m sd))).
    - apply sumN_ext. intros id Hid. apply elem_ids_on in Hid as [Hid _].
      assert (existsb (N.eqb id) (cancelled_ids e) = true) as ->; [|done].
      apply existsb_exists. exists id. split; [by apply elem_of_list_In|apply N.eqb_refl].
    - unfold ids_on. apply NoDup_ListNoDup, List.NoDup_filter. by apply NoDup_ListNoDup.
    - done.
    - intros id Hid. apply elem_ids_on in Hid as [Hid <-]. by apply Hcr.
    - intros id Hid Hn. destruct (existsb _ _) eqn:Hex; [|done]. exfalso. apply Hn.
      apply existsb_exists in Hex as (y&Hy&Hxy). apply N.eqb_eq in Hxy as <-.
      apply elem_ids_on. split; [by apply elem_of_list_In|].
      apply elem_of_list_fmap in Hid as (x&->&Hx). exact (on_its_side _ _ _ _ _ Hr Hx). }
  rewrite Hcanc.
  assert (Hev : sumN (on_side sd w) (emitted m m') =
    sumN (fun ev => if existsb (N.eqb (event_id ev)) (map o_id (resting m sd))
                    then w (event_id ev) * amount ev else 0) (emitted m m')).
  { apply sumN_ext. intros ev Hev. unfold on_side.
    destruct (event_shape _ _ _ _ _ _ Hr Hty He Hev) as (x&Hx&Hid&_).
    destruct (side_u8 (side_of_id (event_id ev)) =? side_u8 sd) eqn:Hs.
    - apply side_u8_eqb in Hs. rewrite Hs in Hx.
      assert (existsb (N.eqb (event_id ev)) (map o_id (resting m sd)) = true) as ->; [|done].
      apply existsb_exists. exists (event_id ev). rewrite <- Hid. split; [|apply N.eqb_refl].
      apply elem_of_list_In. by apply elem_of_list_fmap_1.
    - destruct (existsb _ _) eqn:Hex; [|done]. exfalso.
      apply existsb_exists in Hex as (y&Hy&Hxy). apply N.eqb_eq in Hxy as <-.
      apply elem_of_list_In, elem_of_list_fmap in Hy as (z&Hz&Hzin).
      apply (on_its_side _ _ _ _ _ Hr) in Hzin. rewrite Hz, Hzin in Hs. by destruct sd. }
  rewrite Hev. lia.
Qed.

(** ** C66: every event is handled once *)
Lemma handled_pending c m o r m' : reachable same_id c m -> op_typed o -> exec same_id o m = (r, m') ->
  handled m o r ++ pending m' = pending m ++ emitted m m'.
Proof.
  intros Hr Hty He. unfold handled.
  destruct (is_ok r) eqn:Hok.
  2:{ pose proof (exec_failed _ _ _ _ _ He Hok) as ->. rewrite emitted_same, app_nil_r by done.
      destruct o, r; done. }
  destruct r as [r| | |]; try done. clear Hok. destruct o as [p|id|ids|n].
  - destruct (new_order_outcomes _ _ _ _ _ _ Hr Hty He) as [(sm&[= ->])|(_&[?|[?|?]])]; try done.
    by destruct (emitted_sane same_id c m p sm m') as [-> _].
  - destruct (cancel_ok_inv _ _ _ _ _ _ Hr He) as (o&_&_&_&_&Hevq).
    apply pending_evq in Hevq. by rewrite emitted_same, app_nil_r.
  - destruct (mass_cancel_exact same_id c m ids Hr) as [(_&_&_&_&m1&Hex&_&Hevq)|(_&r1&Hex&Hr1)].
    2:{ rewrite Hex in He. destruct Hr1 as [->|[->| ->]]; done. }
    rewrite Hex in He. assert (m1 = m') as -> by congruence.
    apply pending_evq in Hevq. by rewrite emitted_same, app_nil_r.
  - destruct (consume_ok same_id c m n Hr) as (m1&Hex&Hp&_). rewrite Hex in He.
    assert (m1 = m') as -> by congruence. rewrite (emitted_drop _ _ _ Hp), app_nil_r, Hp.
    apply take_drop.
Qed.
Lemma delivery_steps m0 log D m : delivery same_id m0 log D m -> steps same_id m0 log m.
Proof. induction 1; econstructor; eauto. Qed.
Lemma delivery_total m0 log m : steps same_id m0 log m -> exists D, delivery same_id m0 log D m.
Proof.
  induction 1 as [|log m o r m' Hs [D IH] Hty He]; [eexists; constructor|].
  eexists. by econstructor.
Qed.
Lemma pending_init c : config_ok c -> pending (init_market c) = [].
Proof.
  intros Hc. by rewrite (minv_pending _ _ _ _ (init_minv _ Hc)).
Qed.
Lemma resting_init c sd : config_ok c -> resting (init_market c) sd = [].
Proof.
  intros Hc. rewrite (minv_resting _ _ _ _ _ (init_minv _ Hc)). by destruct sd.
Qed.
Lemma delivered_once c log D m : config_ok c -> delivery same_id (init_market c) log D m ->
  N.of_nat (length log) < p63 -> D ++ pending m = flat_map en_events log.
Proof.
  intros Hc. induction 1 as [|log D m o r m' Hd IH Hty He]; intros Hl.
  - by rewrite pending_init.
  - rewrite app_length in Hl. cbn [length] in Hl.
    assert (Hr : reachable same_id c m).
    { split; [done|]. exists log. split; [by eapply delivery_steps|lia]. }
    rewrite flat_map_app, <- IH by lia. cbn. rewrite app_nil_r, <- !app_assoc.
    f_equal. by eapply handled_pending.
Qed.

(** ** C67: amounts of one instruction *)
(** 1 for an event about a bid. *)
Definition bid_event (ev : event_ref C) : N :=
  if side_u8 (side_of_id (event_id ev)) =? side_u8 Bid then 1 else 0.
Lemma count_bid_events E : sumN bid_event E = N.of_nat (length (ids_on Bid (map event_id E))).
Proof.
  induction E as [|ev E IH]; [done|]. cbn [sumN map]. unfold ids_on, bid_event in *. cbn [List.filter].
  destruct (_ =? _); cbn [length]; lia.
Qed.

Lemma event_base c m p sm m' ev : accepted same_id c m p sm m' -> ev ∈ emitted m m' ->
  match p_side p with
  | Bid => on_side Ask (fun _ => 1) ev = fill_base ev + base_payout ev
  | Ask => base_payout ev = fill_base ev + on_side Ask (fun _ => 1) ev
  end.
Proof.
  intros H Hev. pose proof H as (Hr&Hty&He).
  destruct (event_shape _ _ _ _ _ _ Hr Hty He Hev) as (x&_&_&Hs).
  unfold on_side, amount. destruct Hs as [Hf|(q&Hq)].
  - destruct ev as [e mk tk|]; [|done]. destruct (fill_parties _ _ _ _ _ _ H _ _ _ Hev) as (Hts&_).
    destruct Hf as (_&_&Ht&_). rewrite Hts in Ht. cbn [event_id fill_base out_base base_payout] in *.
    rewrite Hts. destruct (p_side p), (side_of_id (fe_maker_id e)); try done; cbn [side_u8];
      rewrite ?N.eqb_refl; cbn [N.eqb]; lia.
  - clear Hev. remember (event_id ev) as id eqn:Hid. remember (side_of_id id) as sd eqn:Hsd. subst ev.
    cbn [fill_base out_base base_payout maker_out oe_id oe_side oe_base].
    destruct (p_side p), sd; cbn [side_u8]; rewrite ?N.eqb_refl; cbn [N.eqb]; lia.
Qed.
(** Largest rounding error: prices are multiples of the tick. *)
Definition slack c : N := p32 - N.gcd (c_tick c) p32.
Lemma gcd_bound t r : N.gcd t p32 <> 0 -> (N.gcd t p32 | r) -> r < p32 -> r <= p32 - N.gcd t p32.
Proof.
  intros Hg (k&->) Hlt. destruct (N.gcd_divide_r t p32) as (n&Hn).
  set (g := N.gcd t p32) in *. clearbody g. rewrite Hn in *. clear Hn.
  apply N.mul_lt_mono_pos_r in Hlt; [|lia].
  replace (n * g - g) with ((n - 1) * g) by (rewrite N.mul_sub_distr_r; lia).
  apply N.mul_le_mono_r. lia.
Qed.
Lemma gcd_nonzero t : N.gcd t p32 <> 0.
Proof. intros H. by apply N.gcd_eq_0_r in H. Qed.
Lemma floor_slack c z pr : (c_tick c | pr) ->
  p32 * (z * pr / p32) <= z * pr <= p32 * (z * pr / p32) + slack c.
Proof.
  intros Ht. pose proof (N.div_mod (z * pr) p32 ltac:(lia)).
  pose proof (N.mod_lt (z * pr) p32 ltac:(lia)).
  assert (z * pr mod p32 <= slack c); [|lia]. apply gcd_bound; [apply gcd_nonzero| |done].
  rewrite N.mod_eq by lia. apply N.divide_sub_r.
  - apply N.divide_mul_r. by eapply N.divide_trans; [apply N.gcd_divide_l|].
  - apply N.divide_mul_l, N.gcd_divide_r.
Qed.
Lemma ceil_slack c z pr : (c_tick c | pr) ->
  let k := (z * pr + (p32 - 1)) / p32 in z * pr <= p32 * k <= z * pr + slack c.
Proof.
  intros Ht k. subst k. pose proof (N.div_mod (z * pr + (p32 - 1)) p32 ltac:(lia)) as Hd.
  pose proof (N.mod_lt (z * pr + (p32 - 1)) p32 ltac:(lia)).
  set (k := (z * pr + (p32 - 1)) / p32) in *.
  assert (p32 * k - z * pr <= slack c); [|lia]. apply gcd_bound; [apply gcd_nonzero| |lia].
  apply N.divide_sub_r.
  - apply N.divide_mul_l, N.gcd_divide_r.
  - apply N.divide_mul_r. by eapply N.divide_trans; [apply N.gcd_divide_l|].
Qed.

Lemma event_quote c m p sm m' ev : accepted same_id c m p sm m' -> ev ∈ emitted m m' ->
  match p_side p with
  | Bid => p32 * quote_payout ev <= p32 * fill_quote ev + on_side Bid id_price ev <=
           p32 * quote_payout ev + slack c * bid_event ev
  | Ask => p32 * quote_payout ev + p32 * fill_quote ev <= on_side Bid id_price ev <=
           p32 * quote_payout ev + p32 * fill_quote ev + slack c * bid_event ev
  end.
Proof.
  intros H Hev. pose proof H as (Hr&Hty&He).
  destruct (event_shape _ _ _ _ _ _ Hr Hty He Hev) as (x&Hx&Hxid&Hs).
  apply (resting_tick _ _ _ _ _ Hr) in Hx as [Ht _]. rewrite Hxid in Ht.
  unfold on_side, bid_event, amount. destruct Hs as [Hf|(q&Hq)].
  - destruct ev as [e mk tk|]; [|done]. destruct (fill_parties _ _ _ _ _ _ H _ _ _ Hev) as (Hts&_).
    destruct (fill_amounts _ _ _ _ _ _ H _ _ _ Hev) as (_&_&Hq&_).
    destruct Hf as (_&_&Hts'&_). rewrite Hts in Hts'. cbn [event_id fill_quote fill_base out_base quote_payout] in *.
    rewrite Hts. pose proof (floor_slack _ (fe_base e) _ Ht).
    destruct (p_side p), (side_of_id (fe_maker_id e)); try done; cbn [side_u8];
      rewrite ?N.eqb_refl; cbn [N.eqb]; unfold quote_amount in Hq; rewrite ?Hq; lia.
  - clear Hev. remember (event_id ev) as id eqn:Hid. remember (side_of_id id) as sd eqn:Hsd. subst ev.
    cbn [fill_quote fill_base out_base quote_payout maker_out oe_id oe_side oe_base].
    pose proof (floor_slack _ q _ Ht). set (pr := id_price id) in *.
    destruct (p_side p), sd; cbn [side_u8]; rewrite ?N.eqb_refl; cbn [N.eqb]; lia.
Qed.

Lemma sum_event_base c m p sm m' : accepted same_id c m p sm m' ->
  let E := emitted m m' in
  match p_side p with
  | Bid => sumN (on_side Ask (fun _ => 1)) E = sumN fill_base E + sumN base_payout E
  | Ask => sumN base_payout E = sumN fill_base E + sumN (on_side Ask (fun _ => 1)) E
  end.
Proof.
  intros H E. pose proof (fun ev => event_base _ _ _ _ _ ev H) as Hev. fold E in Hev.
  destruct (p_side p); rewrite <- sumN_add; by apply sumN_ext.
Qed.
Lemma sum_event_quote c m p sm m' : accepted same_id c m p sm m' ->
  let E := emitted m m' in
  let n := N.of_nat (length (ids_on Bid (map event_id E))) in
  match p_side p with
  | Bid => p32 * sumN quote_payout E <= p32 * sumN fill_quote E + sumN (on_side Bid id_price) E <=
           p32 * sumN quote_payout E + slack c * n
  | Ask => p32 * sumN quote_payout E + p32 * sumN fill_quote E <= sumN (on_side Bid id_price) E <=
           p32 * sumN quote_payout E + p32 * sumN fill_quote E + slack c * n
  end.
Proof.
  intros H E n. subst n. rewrite <- count_bid_events.
  pose proof (fun ev => event_quote _ _ _ _ _ ev H) as Hev. fold E in Hev.
  destruct (p_side p); rewrite <- !sumN_scale, <- !sumN_add; split; apply sumN_le; intros ev Hin;
    by apply Hev.
Qed.
Lemma weight_one os : weight (fun _ => 1) os = sumN o_qty os.
Proof. unfold weight. apply sumN_ext. intros; lia. Qed.
Lemma ids_on_nil sd : ids_on sd [] = [].
Proof. done. Qed.
Lemma sum_one ids m : sumN (fun id => 1 * base_of m id) ids = sumN (base_of m) ids.
Proof. apply sumN_ext. intros; lia. Qed.
(** Quote value of cancelled bids: each is rounded down. *)
Lemma floors c m ids : (forall id, id ∈ ids -> (c_tick c | id_price id)) ->
  p32 * sumN (quote_of_id m) ids <= sumN (fun id => id_price id * base_of m id) ids <=
  p32 * sumN (quote_of_id m) ids + slack c * N.of_nat (length ids).
Proof.
  induction ids as [|id ids IH]; intros Ht; [cbn; lia|]. cbn [sumN length]. unfold quote_of_id at 1 3.
  pose proof (floor_slack c (base_of m id) _ (Ht id ltac:(left))).
  pose proof (IH ltac:(intros i Hi; apply Ht; by right)). lia.
Qed.

Lemma base_step c m o r m' : reachable same_id c m -> reachable same_id c m' ->
  op_typed o -> exec same_id o m = (r, m') ->
  (base_flow m o r = (Z.of_N (sumN o_qty (resting m' Ask)) + Z.of_N (sumN base_payout (pending m')))
    - (Z.of_N (sumN o_qty (resting m Ask)) + Z.of_N (sumN base_payout (pending m))))%Z.
Proof.
  intros Hr Hr' Hty He.
  pose proof (weight_step c m o r m' Ask (fun _ => 1) Hr Hr' Hty He) as HW. cbn zeta in HW.
  rewrite !weight_one, sum_one in HW.
  pose proof (f_equal (sumN base_payout) (handled_pending _ _ _ _ _ Hr Hty He)) as HH.
  rewrite !sumN_app in HH.
  destruct (is_ok r) eqn:Hok.
  { destruct r as [r| | |]; try done. clear Hok. destruct o as [p|id|ids|n].
    - destruct (new_order_outcomes _ _ _ _ _ _ Hr Hty He) as [(sm&[= ->])|(_&[?|[?|?]])]; try done.
      assert (Hacc : accepted same_id c m p sm m') by done.
      pose proof (sum_event_base _ _ _ _ _ Hacc) as HE. cbn zeta in HE.
      destruct (summary_sums _ _ _ _ _ _ Hacc) as (Hb&_&Hn).
      unfold cancelled_ids, posted_order, base_flow, handled in *. cbn [en_op en_res] in *.
      cbn [sumN] in HH. rewrite ids_on_nil in HW. cbn [sumN] in HW.
      assert (HP : sumN o_qty (List.filter (fun x : order C => side_u8 (side_of_id (o_id x)) =? side_u8 Ask)
        match posted_order_id sm with
        | Some id => [(mk_leaf id (total_base_qty_posted sm), p_callback p)] | None => [] end) =
        match p_side p with Bid => 0 | Ask => total_base_qty_posted sm end).
      { destruct (posted_order_id sm) as [id|] eqn:Hp.
        - destruct (posted_side _ _ _ _ _ _ _ Hacc Hp) as [Hs _]. cbn [List.filter].
          change (o_id (mk_leaf id (total_base_qty_posted sm), p_callback p)) with id. rewrite Hs.
          destruct (p_side p); cbn; [done|]. apply N.add_0_r.
        - rewrite Hn by done. by destruct (p_side p). }
      rewrite HP in HW. destruct (p_side p); lia.
    - destruct (cancel_ok_inv _ _ _ _ _ _ Hr He) as (x&Hx&Hid&->&_&Hevq).
      rewrite (emitted_same m m') in * by by apply pending_evq.
      unfold cancelled_ids, posted_order, base_flow, handled in *. cbn [en_op en_res] in *.
      cbn [sumN total_base_qty List.filter] in *.
      unfold ids_on in HW. cbn [List.filter] in HW.
      assert (Hb : base_of m id = o_qty x).
      { unfold base_of. rewrite <- Hid at 2. apply qty_in_in; [|done]. by eapply resting_nodup. }
      destruct (side_of_id id); cbn [side_u8 N.eqb Pos.eqb sumN] in *; lia.
    - destruct (mass_cancel_exact same_id c m ids Hr) as [(_&_&_&_&m1&Hex&_&Hevq)|(_&r1&Hex&Hr1)].
      2:{ rewrite Hex in He. destruct Hr1 as [->|[->| ->]]; done. }
      rewrite Hex in He. assert (m1 = m') as -> by congruence. injection He as <-.
      rewrite (emitted_same m m') in * by by apply pending_evq.
      unfold cancelled_ids, posted_order, base_flow, handled in *. cbn [en_op en_res] in *.
      cbn [sumN List.filter] in *. lia.
    - destruct (consume_ok same_id c m n Hr) as (m1&Hex&Hp&_). rewrite Hex in He.
      assert (m1 = m') as -> by congruence. rewrite (emitted_drop _ _ _ Hp) in *.
      unfold cancelled_ids, posted_order, base_flow in *. cbn [en_op en_res] in *.
      rewrite ids_on_nil in HW. cbn [sumN List.filter] in *. lia. }
  pose proof (exec_failed _ _ _ _ _ He Hok) as ->.
  assert (base_flow m o r = 0%Z) as -> by (destruct o, r; done). lia.
Qed.
Lemma quote_step c m o r m' : reachable same_id c m -> reachable same_id c m' ->
  op_typed o -> exec same_id o m = (r, m') ->
  let P := Z.of_N p32 in
  let d := (Z.of_N (weight id_price (resting m' Bid)) + P * Z.of_N (sumN quote_payout (pending m'))
    - (Z.of_N (weight id_price (resting m Bid)) + P * Z.of_N (sumN quote_payout (pending m))))%Z in
  (d <= P * quote_flow m o r <= d + Z.of_N (slack c) * Z.of_N (roundings (mk_entry o r (emitted m m'))))%Z.
Proof.
  intros Hr Hr' Hty He P d. subst P d.
  pose proof (weight_step c m o r m' Bid id_price Hr Hr' Hty He) as HW. cbn zeta in HW.
  pose proof (f_equal (sumN quote_payout) (handled_pending _ _ _ _ _ Hr Hty He)) as HH.
  rewrite !sumN_app in HH.
  destruct (is_ok r) eqn:Hok.
  { destruct r as [r| | |]; try done. clear Hok. destruct o as [p|id|ids|n].
    - destruct (new_order_outcomes _ _ _ _ _ _ Hr Hty He) as [(sm&[= ->])|(_&[?|[?|?]])]; try done.
      assert (Hacc : accepted same_id c m p sm m') by done.
      pose proof (sum_event_quote _ _ _ _ _ Hacc) as HE. cbn zeta in HE.
      destruct (summary_sums _ _ _ _ _ _ Hacc) as (_&Hq&Hn).
      fold (posted_quote p sm) in Hq.
      unfold roundings, posted_id, cancelled_ids, posted_order, quote_flow, handled in *.
      cbn [en_op en_res en_events] in *.
      cbn [sumN] in HH. rewrite ids_on_nil in *. cbn [sumN length] in *.
      set (Pq := weight id_price (List.filter _ _)) in HW.
      assert (HP : match p_side p with
        | Bid => Pq <= p32 * posted_quote p sm <= Pq + slack c *
                   match posted_order_id sm with Some _ => 1 | None => 0 end
        | Ask => Pq = 0 end).
      { unfold Pq, posted_quote. destruct (posted_order_id sm) as [id|] eqn:Hp.
        - destruct (posted_side _ _ _ _ _ _ _ Hacc Hp) as [Hs Hpr]. cbn [List.filter].
          change (o_id (mk_leaf id (total_base_qty_posted sm), p_callback p)) with id. rewrite Hs.
          destruct (p_side p) eqn:HB; cbn [side_u8 N.eqb Pos.eqb]; [|done]. unfold weight. cbn [sumN].
          change (o_id (mk_leaf id (total_base_qty_posted sm), p_callback p)) with id. rewrite Hpr.
          change (o_qty (mk_leaf id (total_base_qty_posted sm), p_callback p)) with (total_base_qty_posted sm).
          unfold quote_amount. pose proof (ceil_slack c (total_base_qty_posted sm) (limit_price p)) as Hce.
          cbn zeta in Hce. lapply Hce; [lia|]. rewrite <- Hpr.
          assert (Hin : exists y, y ∈ resting m' Bid /\ o_id y = id).
          { pose proof (posted_visible _ _ _ _ _ _ Hacc) as Hv. rewrite Hp in Hv. destruct Hv as (Hv&_).
            eexists. split; [rewrite HB in Hv; rewrite Hv; left|done]. }
          destruct Hin as (y&Hy&<-). by apply (resting_tick _ _ _ _ _ Hr') in Hy as [? _].
        - destruct (p_side p); cbn; lia. }
      set (k := match posted_order_id sm with Some _ => _ | None => 0 end).
      destruct (p_side p).
      + assert (Hk : k = match posted_order_id sm with Some _ => 1 | None => 0 end) by by unfold k; destruct (posted_order_id sm).
        rewrite <- Hk in HP. clear Hk. clearbody k Pq. lia.
      + assert (Hk : k = 0) by by unfold k; destruct (posted_order_id sm).
        rewrite Hk. clearbody Pq. lia.
    - destruct (cancel_ok_inv _ _ _ _ _ _ Hr He) as (x&Hx&Hid&->&_&Hevq).
      rewrite (emitted_same m m') in * by by apply pending_evq.
      unfold roundings, posted_id, cancelled_ids, posted_order, quote_flow, handled in *.
      cbn [en_op en_res en_events map] in *. rewrite ids_on_nil.
      cbn [sumN total_quote_qty List.filter posted_order_id length] in *.
      unfold ids_on in *. cbn [List.filter] in *.
      assert (Hb : base_of m id = o_qty x).
      { unfold base_of. rewrite <- Hid at 2. apply qty_in_in; [|done]. by eapply resting_nodup. }
      apply (resting_tick _ _ _ _ _ Hr) in Hx as [Ht _]. rewrite Hid in Ht.
      pose proof (floor_slack c (o_qty x) _ Ht).
      change (weight id_price []) with 0 in HW.
      destruct (side_of_id id); cbn [side_u8 N.eqb Pos.eqb sumN length] in *; rewrite ?Hb in HW; lia.
    - destruct (mass_cancel_exact same_id c m ids Hr) as [(_&Hall&_&_&m1&Hex&_&Hevq)|(_&r1&Hex&Hr1)].
      2:{ rewrite Hex in He. destruct Hr1 as [->|[->| ->]]; done. }
      rewrite Hex in He. assert (m1 = m') as -> by congruence. injection He as <-.
      rewrite (emitted_same m m') in * by by apply pending_evq.
      unfold roundings, posted_id, cancelled_ids, posted_order, quote_flow, handled in *.
      cbn [en_op en_res en_events map posted_order_id] in *. rewrite ids_on_nil.
      cbn [sumN List.filter length] in *. change (weight id_price []) with 0 in HW.
      pose proof (floors c m (ids_on Bid ids)) as Hfl. lapply Hfl; [lia|]. intros id Hid.
      apply elem_ids_on in Hid as [Hid _]. apply Hall in Hid. apply elem_of_list_fmap in Hid as (x&->&Hx).
      by apply (resting_tick _ _ _ _ _ Hr) in Hx as [? _].
    - destruct (consume_ok same_id c m n Hr) as (m1&Hex&Hp&_). rewrite Hex in He.
      assert (m1 = m') as -> by congruence. rewrite (emitted_drop _ _ _ Hp) in *.
      unfold cancelled_ids, posted_order, quote_flow in *. cbn [en_op en_res] in *.
      rewrite ids_on_nil in HW. cbn [sumN List.filter] in *. change (weight id_price []) with 0 in HW. lia. }
  pose proof (exec_failed _ _ _ _ _ He Hok) as ->.
  assert (quote_flow m o r = 0%Z) as -> by (destruct o, r; done). lia.
Qed.

(** ** C67: along a history *)
Lemma custody_steps m0 log b q m : custody same_id m0 log b q m -> steps same_id m0 log m.
Proof. induction 1; econstructor; eauto. Qed.
Lemma custody_total m0 log m : steps same_id m0 log m -> exists b q, custody same_id m0 log b q m.
Proof.
  induction 1 as [|log m o r m' Hs (b&q&IH) Hty He]; [do 2 eexists; constructor|].
  do 2 eexists. by econstructor.
Qed.
Lemma custody_ok c log b q m : config_ok c -> custody same_id (init_market c) log b q m ->
  N.of_nat (length log) < p63 ->
  let P := Z.of_N p32 in
  let owed := (Z.of_N (weight id_price (resting m Bid)) + P * Z.of_N (sumN quote_payout (pending m)))%Z in
  b = (Z.of_N (sumN o_qty (resting m Ask)) + Z.of_N (sumN base_payout (pending m)))%Z /\
  (owed <= P * q <= owed + Z.of_N (slack c) * Z.of_N (sumN roundings log))%Z.
Proof.
  intros Hc. induction 1 as [|log b q m o r m' Hs IH Hty He]; intros Hl.
  - rewrite !resting_init, pending_init by done. change (weight id_price []) with 0. cbn [sumN]. lia.
  - rewrite app_length in Hl. cbn [length] in Hl. cbn zeta in IH. destruct IH as [IHb IHq]; [lia|].
    pose proof (custody_steps _ _ _ _ _ Hs) as Hst.
    assert (Hr : reachable same_id c m).
    { split; [done|]. exists log. split; [done|lia]. }
    assert (Hr' : reachable same_id c m').
    { split; [done|]. eexists. split; [by econstructor|]. rewrite app_length. cbn [length]. lia. }
    pose proof (base_step _ _ _ _ _ Hr Hr' Hty He). pose proof (quote_step _ _ _ _ _ Hr Hr' Hty He) as Hq.
    cbn zeta in Hq. rewrite sumN_app. cbn [sumN].
    set (k := roundings _) in *. clearbody k. cbn zeta. split; lia.
Qed.
End Custody.
