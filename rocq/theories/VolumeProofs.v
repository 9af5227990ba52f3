(** * VolumeProofs.v: every order and every base unit is accounted for (C99) *)
From Verif Require Import Machine Bytes Critbit EventQueue OrderBook Market Spec MachineProofs
  TreeProofs SlabProofs SlabProofs2 QueueProofs IdProofs Engine BookProofs EngineProofs
  MarketProofs MarketFacts NewOrderProps NewOrderProps2 SelfTradeProps InstrProps HistoryProps
  LifeProps MarketReads ClientSpec EventProps CustodySpec CustodyProofs VolumeSpec.
From Coq Require Import ZifyBool ZifyNat ZifyN.

Section Volume.
Context {C : Type} (same_id : C -> C -> bool).
Implicit Types m : market C.
Implicit Types c : config C.
Implicit Types p : params C.
Implicit Types e : entry C.
Implicit Types log : list (entry C).

(** ** Sums *)
Lemma sum_filter {A} (f : A -> N) (g : A -> bool) l : sumN f (List.filter g l) = sumN (fun x => if g x then f x else 0) l.
Proof. induction l as [|x l IH]; [done|]. cbn. destruct (g x); cbn; lia. Qed.
Lemma sides_split {A} (f : A -> N) (g : A -> side) l :
  sumN f (List.filter (fun x => side_u8 (g x) =? side_u8 Bid) l) + sumN f (List.filter (fun x => side_u8 (g x) =? side_u8 Ask) l) = sumN f l.
Proof.
  induction l as [|x l IH]; [done|]. cbn [List.filter].
  destruct (g x); cbn [side_u8] in *; cbn [N.eqb Pos.eqb sumN]; lia.
Qed.
Lemma events_split E : sumN (on_side Bid (fun _ => 1)) E + sumN (on_side Ask (fun _ => 1)) E = sumN fill_base E + sumN (@out_base C) E.
Proof.
  rewrite <- !sumN_add. apply sumN_ext. intros ev _. unfold on_side, amount.
  destruct (side_of_id (event_id ev)); cbn [side_u8 N.eqb Pos.eqb]; lia.
Qed.
Lemma same_side_u8 sd sd' : same_side sd sd' = (side_u8 sd =? side_u8 sd').
Proof. by destruct sd, sd'. Qed.

(** ** One instruction *)
Lemma new_posted c m p r m' : reachable same_id c m -> op_typed (NewOrder p) -> exec same_id (NewOrder p) m = (r, m') ->
  let e := mk_entry (NewOrder p) r (emitted m m') in
  sumN o_qty (posted_order e) = posted_base e /\ ordered_base e = traded_base e + posted_base e /\
  forall sd w, weight w (List.filter (fun x => side_u8 (side_of_id (o_id x)) =? side_u8 sd) (posted_order e)) =
    if same_side (p_side p) sd then weight w (posted_order e) else 0.
Proof.
  intros Hr Hty He e. subst e. unfold posted_order, posted_base, ordered_base, traded_base. cbn [en_op en_res en_events].
  destruct (is_ok r) eqn:Hok.
  - destruct (new_order_outcomes _ _ _ _ _ _ Hr Hty He) as [(sm&->)|(_&[->|[->| ->]])]; try done.
    assert (Hacc : accepted same_id c m p sm m') by done.
    destruct (summary_sums _ _ _ _ _ _ Hacc) as (Hb&_&Hn).
    destruct (posted_order_id sm) as [id|] eqn:Hp.
    + destruct (posted_side _ _ _ _ _ _ _ Hacc Hp) as [Hs _].
      split; [apply N.add_0_r|]. split; [done|]. intros sd w. cbn [List.filter].
      change (o_id (mk_leaf id (total_base_qty_posted sm), p_callback p)) with id. rewrite Hs, same_side_u8.
      by destruct (_ =? _).
    + rewrite Hn in * by done. split; [done|]. split; [done|]. intros sd w. by destruct (same_side _ _).
  - pose proof (exec_failed _ _ _ _ _ He Hok) as ->. rewrite emitted_same by done.
    destruct r as [r| | |]; [done| | |]; (split; [done|]; split; [done|]; intros sd w; by destruct (same_side _ _)).
Qed.
Lemma cancelled_sum c m o r m' : reachable same_id c m -> op_typed o -> exec same_id o m = (r, m') ->
  let e := mk_entry o r (emitted m m') in sumN (base_of m) (cancelled_ids e) = cancelled_base e.
Proof.
  intros Hr Hty He e. subst e. unfold cancelled_ids, cancelled_base. cbn [en_op en_res].
  destruct r as [r| | |]; [|by destruct o..]. destruct o as [p|id|ids|n]; [done| | |done].
  - destruct (cancel_ok_inv _ _ _ _ _ _ Hr He) as (x&Hx&Hid&->&_&Hevq). cbn [sumN total_base_qty].
    rewrite N.add_0_r. unfold base_of. rewrite <- Hid at 2. apply qty_in_in; [|done]. by eapply resting_nodup.
  - destruct (mass_cancel_exact same_id c m ids Hr) as [(_&_&_&_&m1&Hex&_&Hevq)|(_&r1&Hex&Hr1)].
    2:{ rewrite Hex in He. destruct Hr1 as [->|[->| ->]]; done. }
    rewrite Hex in He. by injection He as <- _.
Qed.
Lemma volume_step c m o r m' : reachable same_id c m -> reachable same_id c m' -> op_typed o -> exec same_id o m = (r, m') ->
  let e := mk_entry o r (emitted m m') in
  resting_base m + posted_base e = traded_base e + returned_base e + cancelled_base e + resting_base m' /\
  ordered_base e = traded_base e + posted_base e.
Proof.
  intros Hr Hr' Hty He e.
  pose proof (weight_step same_id c m o r m' Bid (fun _ => 1) Hr Hr' Hty He) as HB.
  pose proof (weight_step same_id c m o r m' Ask (fun _ => 1) Hr Hr' Hty He) as HA. cbn zeta in HA, HB.
  rewrite !weight_one, sum_one in HA, HB.
  pose proof (sides_split o_qty (fun x : order C => side_of_id (o_id x)) (posted_order e)) as HP.
  pose proof (sides_split (base_of m) side_of_id (cancelled_ids e)) as HC.
  pose proof (events_split (emitted m m')) as HE.
  pose proof (cancelled_sum c m o r m' Hr Hty He) as HS. cbn zeta in HS. fold e in HS, HA, HB.
  assert (sumN o_qty (posted_order e) = posted_base e /\ ordered_base e = traded_base e + posted_base e) as [H1 H2].
  { destruct o as [p|id|ids|n].
    - destruct (new_posted _ _ _ _ _ Hr Hty He) as (H1&H2&_). done.
    - split; [done|]. unfold ordered_base, traded_base, posted_base. cbn [e en_op en_events].
      destruct r as [r| | |]; [|pose proof (exec_failed _ _ _ _ _ He eq_refl) as ->; by rewrite emitted_same..].
      destruct (cancel_ok_inv _ _ _ _ _ _ Hr He) as (x&_&_&_&_&Hevq). by rewrite emitted_same by by apply pending_evq.
    - split; [done|]. unfold ordered_base, traded_base, posted_base. cbn [e en_op en_events].
      destruct r as [r| | |]; [|pose proof (exec_failed _ _ _ _ _ He eq_refl) as ->; by rewrite emitted_same..].
      destruct (mass_cancel_exact same_id c m ids Hr) as [(_&_&_&_&m1&Hex&_&Hevq)|(_&r1&Hex&Hr1)].
      2:{ rewrite Hex in He. destruct Hr1 as [->|[->| ->]]; done. }
      rewrite Hex in He. assert (m1 = m') as -> by congruence. by rewrite emitted_same by by apply pending_evq.
    - split; [done|]. unfold ordered_base, traded_base, posted_base. cbn [e en_op en_events].
      destruct (consume_ok same_id c m n Hr) as (m1&Hex&Hp&_). rewrite Hex in He.
      assert (m1 = m') as -> by congruence. by rewrite (emitted_drop _ _ _ Hp). }
  split; [|done]. unfold resting_base, returned_base, traded_base in *. rewrite !sumN_app. cbn [e en_events] in *.
  unfold ids_on in HA, HB. lia.
Qed.
Lemma level_step c m o r m' sd price : reachable same_id c m -> reachable same_id c m' -> op_typed o -> exec same_id o m = (r, m') ->
  let e := mk_entry o r (emitted m m') in
  exists gone, resting_at sd price m + posted_at sd price e = traded_at sd price e + returned_at sd price e + gone + resting_at sd price m' /\
    ((forall id, id ∈ cancelled_ids e -> at_level sd price id = false) -> gone = 0).
Proof.
  intros Hr Hr' Hty He e.
  set (w := fun id => if id_price id =? price then 1 else 0).
  pose proof (weight_step same_id c m o r m' sd w Hr Hr' Hty He) as HW. cbn zeta in HW. fold e in HW.
  assert (HR : forall n, reachable same_id c n -> weight w (resting n sd) = resting_at sd price n).
  { intros n Hn. unfold weight, resting_at. rewrite sum_filter. apply sumN_ext. intros x Hx.
    unfold at_level. rewrite (proj1 (book_facts _ _ _ _ _ Hn Hx)). unfold w. destruct sd; cbn [same_side andb]; destruct (_ =? _); lia. }
  rewrite !HR in HW by done.
  assert (HE : sumN (on_side sd w) (emitted m m') = traded_at sd price e + returned_at sd price e).
  { unfold traded_at, returned_at. rewrite !sum_filter, <- sumN_add. cbn [e en_events]. apply sumN_ext. intros ev _.
    unfold on_side, at_level, amount, w. rewrite same_side_u8. destruct (_ =? _); cbn [andb]; [|done]. destruct (_ =? _); lia. }
  rewrite HE in HW.
  assert (HP : weight w (List.filter (fun x => side_u8 (side_of_id (o_id x)) =? side_u8 sd) (posted_order e)) = posted_at sd price e).
  { destruct o as [p|id|ids|n]; [|done..]. destruct (new_posted _ _ _ _ _ Hr Hty He) as (H1&_&H3). fold e in H1, H3.
    rewrite H3. unfold posted_at. cbn [e en_op]. destruct (same_side (p_side p) sd) eqn:Es; cbn [andb]; [|done].
    rewrite <- H1. fold e.
    assert (Hx : forall x, x ∈ posted_order e -> id_price (o_id x) = limit_price p).
    { intros x Hx. unfold posted_order in Hx. cbn [e en_op en_res] in Hx.
      destruct r as [[s|]| | |]; try by apply elem_of_nil in Hx.
      destruct (posted_order_id s) as [id|] eqn:Hid; [|by apply elem_of_nil in Hx].
      apply elem_of_list_singleton in Hx. subst x. apply (posted_side same_id c m p s m' id); done. }
    destruct (N.eqb_spec (limit_price p) price) as [El|El].
    - apply sumN_ext. intros x Hx'. unfold w. rewrite (Hx _ Hx'), El, N.eqb_refl. lia.
    - rewrite <- (sumN_zero (posted_order e)). apply sumN_ext. intros x Hx'. unfold w. rewrite (Hx _ Hx').
      apply N.eqb_neq in El. rewrite El. lia. }
  rewrite HP in HW. exists (sumN (fun id => w id * base_of m id) (ids_on sd (cancelled_ids e))). split; [lia|].
  intros Hg. unfold ids_on. rewrite sum_filter.
  transitivity (sumN (fun _ => 0) (cancelled_ids e)); [|apply sumN_zero]. apply sumN_ext. intros id Hid.
  specialize (Hg _ Hid). unfold at_level in Hg. rewrite same_side_u8 in Hg.
  destruct (side_u8 (side_of_id id) =? side_u8 sd); [|reflexivity]. cbn [andb] in Hg. unfold w. by rewrite Hg.
Qed.

(** ** Any number of instructions *)
Lemma steps_volume c log0 m0 log m : config_ok c -> history same_id c log0 m0 -> steps same_id m0 log m ->
  N.of_nat (length (log0 ++ log)) < p63 ->
  resting_base m0 + sumN posted_base log = sumN traded_base log + sumN returned_base log + sumN cancelled_base log + resting_base m /\
  sumN ordered_base log = sumN traded_base log + sumN posted_base log.
Proof.
  intros Hc Hh Hs. induction Hs as [|log m o r m' Hs IH Hty He]; intros Hl; [cbn; lia|].
  rewrite !app_length in Hl. cbn [length] in Hl.
  assert (Hr : reachable same_id c m).
  { split; [done|]. exists (log0 ++ log). split; [by eapply steps_app|]. rewrite app_length. lia. }
  assert (Hr' : reachable same_id c m').
  { split; [done|]. exists (log0 ++ (log ++ [mk_entry o r (emitted m m')])).
    split; [eapply steps_app; [done|by econstructor]|]. rewrite !app_length. cbn [length]. lia. }
  destruct IH as [H1 H2]; [rewrite app_length; lia|].
  destruct (volume_step c m o r m' Hr Hr' Hty He) as [H3 H4]. cbn zeta in H3, H4.
  rewrite !sumN_app. cbn [sumN]. lia.
Qed.
Lemma steps_level c log0 m0 log m sd price : config_ok c -> history same_id c log0 m0 -> steps same_id m0 log m ->
  N.of_nat (length (log0 ++ log)) < p63 ->
  exists gone, resting_at sd price m0 + sumN (posted_at sd price) log =
    sumN (traded_at sd price) log + sumN (returned_at sd price) log + gone + resting_at sd price m /\
    ((forall id, id ∈ cancelled log -> at_level sd price id = false) -> gone = 0).
Proof.
  intros Hc Hh Hs. induction Hs as [|log m o r m' Hs IH Hty He]; intros Hl; [exists 0; cbn; split; [lia|done]|].
  rewrite !app_length in Hl. cbn [length] in Hl.
  assert (Hr : reachable same_id c m).
  { split; [done|]. exists (log0 ++ log). split; [by eapply steps_app|]. rewrite app_length. lia. }
  assert (Hr' : reachable same_id c m').
  { split; [done|]. exists (log0 ++ (log ++ [mk_entry o r (emitted m m')])).
    split; [eapply steps_app; [done|by econstructor]|]. rewrite !app_length. cbn [length]. lia. }
  destruct IH as (g1&H1&H2); [rewrite app_length; lia|].
  destruct (level_step c m o r m' sd price Hr Hr' Hty He) as (g2&H3&H4). cbn zeta in H3, H4.
  exists (g1 + g2). rewrite !sumN_app. cbn [sumN]. split; [lia|]. intros Hg.
  unfold cancelled in *. rewrite flat_map_app in Hg. cbn [flat_map] in Hg. rewrite app_nil_r in Hg.
  rewrite H2, H4; [done| |]; intros id Hid; apply Hg, elem_of_app; auto.
Qed.

(** ** Quote units *)
Definition value_bounds (sd : side) (price base quote trades : N) : Prop :=
  match sd with
  | Ask => base * price <= quote * p32 <= base * price + (p32 - 1) * trades
  | Bid => quote * p32 <= base * price <= quote * p32 + (p32 - 1) * trades
  end.
Lemma bounds_add sd price b1 q1 n1 b2 q2 n2 : value_bounds sd price b1 q1 n1 -> value_bounds sd price b2 q2 n2 ->
  value_bounds sd price (b1 + b2) (q1 + q2) (n1 + n2).
Proof.
  destruct sd; cbn [value_bounds]; rewrite !N.mul_add_distr_r, !N.mul_add_distr_l; lia.
Qed.
Lemma bounds_none sd price : value_bounds sd price 0 0 0.
Proof. by destruct sd. Qed.
Lemma bounds_one sd price b : value_bounds sd price b (quote_amount (opposite sd) b price) 1.
Proof.
  unfold value_bounds, quote_amount. set (v := b * price). clearbody v. assert (Hp : p32 <> 0) by done.
  destruct sd; cbn [opposite].
  - pose proof (N.div_mod v p32 Hp) as H1. pose proof (N.mod_lt v p32 Hp) as H2. revert H1 H2.
    generalize (v / p32), (v mod p32). intros; lia.
  - pose proof (N.div_mod (v + (p32 - 1)) p32 Hp) as H1. pose proof (N.mod_lt (v + (p32 - 1)) p32 Hp) as H2. revert H1 H2.
    generalize ((v + (p32 - 1)) / p32), ((v + (p32 - 1)) mod p32). intros; lia.
Qed.
Lemma events_value sd price E :
  (forall ev, ev ∈ E -> (exists cb, maker_fill (side_of_id (event_id ev)) (event_id ev) cb ev) \/ is_fill (C:=C) ev = false) ->
  let at_ := List.filter (fun ev => at_level sd price (event_id ev)) E in
  value_bounds sd price (sumN fill_base at_) (sumN fill_quote at_)
    (N.of_nat (length (List.filter (fun ev => is_fill ev && at_level sd price (event_id ev)) E))).
Proof.
  induction E as [|ev E IH]; intros H; [apply bounds_none|].
  specialize (IH ltac:(intros x Hx; apply H; by right)). cbn zeta in *. cbn [List.filter].
  destruct (at_level sd price (event_id ev)) eqn:El; [|by rewrite andb_false_r].
  rewrite andb_true_r. cbn [sumN]. destruct (H ev ltac:(left)) as [(cb&Hf)|Hf].
  - destruct ev as [f mk tk|f cb']; [|done]. cbn [is_fill fill_base fill_quote event_id] in *.
    destruct Hf as (_&_&_&_&->). unfold at_level in El. apply andb_prop in El as [Es Ep]. apply N.eqb_eq in Ep. rewrite Ep.
    rewrite same_side_u8 in Es. apply side_u8_eqb in Es. rewrite Es. cbn [length]. rewrite Nat2N.inj_succ, <- N.add_1_l.
    apply bounds_add; [apply bounds_one|done].
  - rewrite Hf. destruct ev; [done|]. cbn [fill_base fill_quote]. by rewrite !N.add_0_l.
Qed.
Lemma steps_turnover c log0 m0 log m sd price : config_ok c -> history same_id c log0 m0 -> steps same_id m0 log m ->
  N.of_nat (length (log0 ++ log)) < p63 ->
  value_bounds sd price (sumN (traded_at sd price) log) (sumN (turnover_at sd price) log) (sumN (trades_at sd price) log).
Proof.
  intros Hc Hh Hs. induction Hs as [|log m o r m' Hs IH Hty He]; intros Hl; [apply bounds_none|].
  rewrite !app_length in Hl. cbn [length] in Hl.
  assert (Hr : reachable same_id c m).
  { split; [done|]. exists (log0 ++ log). split; [by eapply steps_app|]. rewrite app_length. lia. }
  rewrite !sumN_app. apply bounds_add; [apply IH; rewrite app_length; lia|].
  cbn [sumN]. rewrite !N.add_0_r. apply events_value. cbn [en_events]. intros ev Hev.
  destruct (event_shape _ _ _ _ _ _ _ Hr Hty He Hev) as (x&_&_&[Hf|(q&Hq)]); [left; eauto|right]. by rewrite Hq.
Qed.

(** ** Orders *)
Local Notation count := (count_occ N.eq_dec).
Lemma count_nodup l (x : N) : NoDup l -> x ∈ l -> count l x = 1%nat.
Proof.
  intros Hn Hx. apply NoDup_ListNoDup in Hn. apply (NoDup_count_occ' N.eq_dec); [done|]. by apply elem_of_list_In.
Qed.
Lemma count_absent l (x : N) : x ∉ l -> count l x = 0%nat.
Proof. intros Hx. apply count_occ_not_In. by rewrite <- elem_of_list_In. Qed.
Lemma count_outs (E : list (event_ref C)) x :
  count (map event_id (List.filter (fun ev => negb (is_fill ev)) E)) x = length (List.filter (fun ev => negb (is_fill ev)) (about x E)).
Proof.
  induction E as [|ev E IH]; [done|]. unfold about in *. cbn [List.filter].
  destruct (N.eqb_spec (event_id ev) x) as [Hx|Hx]; cbn [List.filter]; destruct (is_fill ev); cbn [negb map]; try done.
  - rewrite count_occ_cons_eq by done. cbn [length]. by rewrite IH.
  - by rewrite count_occ_cons_neq.
Qed.
Lemma fills_only sd id (cb : C) F : Forall (maker_fill sd id cb) F -> List.filter (fun ev => negb (is_fill ev)) F = [].
Proof. induction 1 as [|ev F Hev HF IH]; [done|]. cbn. destruct ev; [done|]. by destruct Hev. Qed.
Lemma resting_ids_nodup c m : reachable same_id c m -> NoDup (resting_ids m).
Proof.
  intros Hr. unfold resting_ids. rewrite map_app. apply NoDup_app. split; [by eapply resting_nodup|]. split; [|by eapply resting_nodup].
  intros id HB HA. apply elem_of_list_fmap in HB as (b&->&Hb). apply elem_of_list_fmap in HA as (a&E&Ha).
  pose proof (proj1 (book_facts _ _ _ _ _ Hr Hb)) as H1. pose proof (proj1 (book_facts _ _ _ _ _ Hr Ha)) as H2. congruence.
Qed.
Lemma elem_resting_ids m id : id ∈ resting_ids m <-> exists sd, id ∈ map o_id (resting m sd).
Proof.
  unfold resting_ids. rewrite map_app, elem_of_app. split; [intros [H|H]; eauto|]. intros ([]&H); auto.
Qed.
Lemma every_order c log m : config_ok c -> history same_id c log m -> N.of_nat (length log) < p63 ->
  Permutation (posted_ids log) (resting_ids m ++ out_ids log ++ cancelled log).
Proof.
  intros Hc Hh Hl.
  assert (Hr : reachable same_id c m) by (split; [done|]; by exists log).
  apply (Permutation_count_occ N.eq_dec). intros id. rewrite !count_occ_app. unfold out_ids. rewrite count_outs.
  change (about id (flat_map en_events log)) with (events_about id log).
  destruct (decide (id ∈ posted_ids log)) as [Hin|Hin].
  - rewrite (count_nodup _ _ (posted_ids_nodup _ _ _ _ Hc Hh Hl) Hin).
    destruct (posted_ids_in _ _ Hin) as (l1&e&l2&El&Hp).
    pose proof Hh as Hh'. rewrite El in Hh'. unfold history in Hh'.
    destruct (steps_split _ _ _ _ _ Hh') as (m1&Hh1&Hs1). change (e :: l2) with ([e] ++ l2) in Hs1.
    destruct (steps_split _ _ _ _ _ Hs1) as (m2&Hs2&_).
    assert (Hr1 : reachable same_id c m1).
    { split; [done|]. exists l1. split; [done|]. rewrite El, app_length in Hl. lia. }
    destruct (posted_id_entry _ _ _ _ _ _ Hr1 Hs2 Hp) as (p&sm&Hop&Hre&Hpo&_).
    destruct (order_life _ _ _ _ _ _ _ _ _ _ Hc Hh Hl El Hop Hre Hpo) as (F&HF&Hcase). cbn zeta in Hcase.
    pose proof (fills_only _ _ _ _ HF) as HF0.
    assert (Hgone : gone m id -> count (resting_ids m) id = 0%nat).
    { intros Hg. apply count_absent. rewrite elem_resting_ids. intros (sd&H). by apply (Hg sd). }
    destruct Hcase as [(Hev&Hnc&y&Hy&Hyid&_)|[(q&Hev&Hnc&Hg&_)|(la&e'&lb&ma&El2&Hha&Hev&Hc1&Hca&Hcb&Hg&_)]].
    + rewrite Hev, HF0, (count_absent (cancelled log)), (count_nodup (resting_ids m)); [done| |  |done].
      * by eapply resting_ids_nodup.
      * apply elem_resting_ids. exists (p_side p). rewrite <- Hyid. by apply elem_of_list_fmap_1.
    + rewrite Hev, List.filter_app, HF0, (count_absent (cancelled log)), Hgone by done. done.
    + rewrite Hev, HF0, Hgone by done. rewrite El2. unfold cancelled. rewrite flat_map_app, count_occ_app. cbn [flat_map].
      rewrite count_occ_app, (count_absent (flat_map _ la)), (count_absent (flat_map _ lb)) by done.
      rewrite count_nodup; [done| |done].
      rewrite El2 in Hh. destruct (steps_split _ _ _ _ _ Hh) as (mb&Hhb&Hsb). change (e' :: lb) with ([e'] ++ lb) in Hsb.
      destruct (steps_split _ _ _ _ _ Hsb) as (mc&Hsc&_). apply steps_one in Hsc as (Hty'&Hex'&Hev').
      assert (Hrb : reachable same_id c mb).
      { split; [done|]. exists la. split; [done|]. rewrite El2, app_length in Hl. lia. }
      destruct (cancelled_nodup _ _ _ _ _ _ Hrb Hex') as (Hnd&_). rewrite <- Hev' in Hnd. by destruct e'.
  - destruct (silent_steps same_id c [] (init_market c) log m id Hc (steps_nil _ _) Hh Hl Hin) as (->&Hnc&Hg).
    { intros sd. rewrite resting_init by done. apply not_elem_of_nil. }
    rewrite !count_absent; [done|done| |done]. rewrite elem_resting_ids. intros (sd&H). by apply (Hg sd).
Qed.
End Volume.
