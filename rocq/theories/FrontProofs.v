(** * FrontProofs.v: a better place or price never costs a resting order trades (C97) *)
From stdpp Require Import sorting.
From Verif Require Import Machine Critbit EventQueue OrderBook Market Spec PartsSpec BestSpec LadderSpec OfferSpec FrontSpec
  ExchangeSpec EngineProofs NewOrderProps NewOrderProps2 CustodyProofs PlaceProofs LadderProofs SellProofs OfferProofs ShareProofs ReachProofs PropsOrder PropsLadder PropsShare.
From Coq Require Import ZifyBool ZifyNat ZifyN.

(** ** Ladders *)
Notation positive := (Forall (fun s : N * N => 0 < fst s)).
Lemma depth_app l k : depth (l ++ k) = depth l + depth k.
Proof. unfold depth. by rewrite sumN_app. Qed.
Lemma total_app sd l k : total sd (l ++ k) = total sd l + total sd k.
Proof. unfold total. by rewrite sumN_app. Qed.
Lemma depth_cons s p l : depth ((s, p) :: l) = s + depth l.
Proof. done. Qed.
Lemma slices_upto P x s p R : positive P -> 0 < x -> x <= s -> slices (depth P + x) (P ++ (s, p) :: R) = P ++ [(x, p)].
Proof.
  intros HP Hx Hs. induction HP as [|[t q] P Ht HP IH]; [change (depth [] + x) with x; cbn [app]; by rewrite slices_part|].
  cbn [app]. rewrite depth_cons. replace (t + depth P + x) with (t + (depth P + x)) by lia. rewrite slices_full by done. by rewrite IH.
Qed.
Lemma value_mono sd a b p : a <= b -> slice_value sd (a, p) <= slice_value sd (b, p).
Proof. intros H. unfold slice_value, quote_amount. cbn [fst snd]. destruct sd; apply N.div_le_mono; try done; nia. Qed.
Lemma value_price sd a p q : p <= q -> slice_value sd (a, p) <= slice_value sd (a, q).
Proof. intros H. unfold slice_value, quote_amount. cbn [fst snd]. destruct sd; apply N.div_le_mono; try done; nia. Qed.
Lemma total_cons sd s l : total sd (s :: l) = slice_value sd s + total sd l.
Proof. done. Qed.
Lemma total_mono sd l : forall a b, a <= b -> total sd (slices a l) <= total sd (slices b l).
Proof.
  induction l as [|[s p] l IH]; intros a b H; [done|]. cbn [slices].
  destruct (a =? 0) eqn:Ea; [unfold total at 1; cbn; lia|]. destruct (b =? 0) eqn:Eb; [lia|]. rewrite !total_cons.
  pose proof (value_mono sd (N.min s a) (N.min s b) p ltac:(lia)). pose proof (IH (a - N.min s a) (b - N.min s b) ltac:(lia)). lia.
Qed.
Lemma total_sub sd l1 l2 : sublist l1 l2 -> total sd l1 <= total sd l2.
Proof. intros Hs. induction Hs as [|x a b H IH|x a b H IH]; [done|rewrite !total_cons; lia..]. Qed.
Lemma sub_forall {A} (Q : A -> Prop) l1 l2 : sublist l1 l2 -> Forall Q l2 -> Forall Q l1.
Proof. induction 1; intros HF; [done|inversion HF; subst; constructor; auto|inversion HF; subst; auto]. Qed.
Lemma sub_filter {A} (g : A -> bool) (l1 l2 : list A) : sublist l1 l2 -> sublist (List.filter g l1) (List.filter g l2).
Proof. induction 1 as [|x a b H IH|x a b H IH]; cbn [List.filter]; [constructor|destruct (g x); [by constructor|done]|destruct (g x); [by constructor|done]]. Qed.
Lemma sub_filtered {A} (g : A -> bool) (l : list A) : sublist (List.filter g l) l.
Proof. induction l as [|x l IH]; cbn [List.filter]; [constructor|destruct (g x); by constructor]. Qed.

(** Sales: the units that are not marked, and whether a seller of [b] units gets past all. *)
Definition open_depth (l : list (N * N * bool)) : N := sumN (fun x : N * N * bool => if snd x then 0 else fst (fst x)) l.
Fixpoint passes (b : N) (l : list (N * N * bool)) : Prop :=
  match l with
  | [] => True
  | (s, p, w) :: l => slice_value Ask (N.min s b, p) <> 0 /\ passes (if w then b else b - N.min s b) l
  end.
Lemma passes_sub l1 l2 : sublist l2 l1 -> forall b1 b2, b1 <= b2 -> passes b1 l1 -> passes b2 l2.
Proof.
  induction 1 as [|[[s p] w] l2 l1 H IH|[[s p] w] l2 l1 H IH]; intros b1 b2 Hb HP; [done| |].
  - destruct HP as [Hv HP]. split; [pose proof (value_mono Ask (N.min s b1) (N.min s b2) p ltac:(lia)); lia|].
    eapply IH; [|exact HP]. destruct w; lia.
  - destruct HP as [Hv HP]. eapply IH; [|exact HP]. destruct w; lia.
Qed.
Definition sale b l := depth (selling b l).
Lemma sale_cons b s p w l : sale b ((s, p, w) :: l) = if slice_value Ask (N.min s b, p) =? 0 then 0 else
  if w then sale b l else N.min s b + sale (b - N.min s b) l.
Proof. unfold sale. cbn [selling]. destruct (_ =? 0); [done|]. by destruct w. Qed.
Lemma sale_le l : forall b, sale b l <= b.
Proof. induction l as [|[[s p] w] l IH]; intros b; [cbn; lia|]. rewrite sale_cons. destruct (_ =? 0); [lia|]. destruct w; [done|]. specialize (IH (b - N.min s b)). lia. Qed.
Lemma sale_depth l : forall b, sale b l <= open_depth l.
Proof.
  induction l as [|[[s p] w] l IH]; intros b; [cbn; lia|]. rewrite sale_cons. change (open_depth ((s, p, w) :: l)) with ((if w then 0 else s) + open_depth l).
  destruct (_ =? 0); [lia|]. destruct w; [apply IH|]. specialize (IH (b - N.min s b)). lia.
Qed.
Lemma sale_reaches P s p R : forall b, open_depth P < sale b (P ++ (s, p, false) :: R) ->
  passes b P /\ slice_value Ask (N.min s (b - open_depth P), p) <> 0.
Proof.
  induction P as [|[[t q] w] P IH]; intros b H; cbn [app] in H; rewrite sale_cons in H.
  - change (open_depth []) with 0 in *. rewrite N.sub_0_r. destruct (slice_value Ask (N.min s b, p) =? 0) eqn:Ev; [lia|]. split; [done|lia].
  - change (open_depth ((t, q, w) :: P)) with ((if w then 0 else t) + open_depth P) in *.
    destruct (slice_value Ask (N.min t b, q) =? 0) eqn:Ev; [lia|]. cbn [passes]. destruct w.
    + destruct (IH b) as (F&V); [lia|]. replace (b - (0 + open_depth P)) with (b - open_depth P) by lia. split_and!; [lia|done..].
    + pose proof (sale_le (P ++ (s, p, false) :: R) (b - N.min t b)) as Hle. destruct (IH (b - N.min t b)) as (F&V); [lia|].
      replace (b - (t + open_depth P)) with (b - N.min t b - open_depth P) by lia. split_and!; [lia|done..].
Qed.
Lemma sale_least P s p R : forall b, passes b P -> open_depth P < b -> slice_value Ask (N.min s (b - open_depth P), p) <> 0 ->
  open_depth P + N.min s (b - open_depth P) <= sale b (P ++ (s, p, false) :: R).
Proof.
  induction P as [|[[t q] w] P IH]; intros b HP Hb Hv; cbn [app]; rewrite sale_cons.
  - change (open_depth []) with 0 in *. rewrite N.sub_0_r in *. destruct (slice_value Ask (N.min s b, p) =? 0) eqn:Ev; lia.
  - change (open_depth ((t, q, w) :: P)) with ((if w then 0 else t) + open_depth P) in *. destruct HP as [HP1 HP2].
    destruct (slice_value Ask (N.min t b, q) =? 0) eqn:Ev; [lia|]. destruct w.
    + replace (b - (0 + open_depth P)) with (b - open_depth P) in * by lia. specialize (IH b HP2 ltac:(lia) Hv). lia.
    + replace (N.min t b) with t in * by lia. replace (b - (t + open_depth P)) with (b - t - open_depth P) in * by lia.
      specialize (IH (b - t) HP2 ltac:(lia) Hv). lia.
Qed.

Section Front.
Context {C : Type} (same_id : C -> C -> bool).
Notation nw p := (fun o : order C => negb (withdraws same_id p o)).
(** The part of the ladder made of some orders. *)
Definition rungs (p : params C) (os : list (order C)) : list (N * N) :=
  map step_of (List.filter (nw p) (List.filter (within_limit p) os)).
Definition seen_rungs (p : params C) (l : list (N * N * C)) : list (N * N) :=
  map fst (List.filter (fun x => negb (match stb p with CancelProvide => same_id (p_callback p) (snd x) | _ => false end))
    (List.filter (fun x => match p_side p with Bid => snd (fst x) <=? limit_price p | Ask => limit_price p <=? snd (fst x) end) l)).
Lemma rungs_seen p os : rungs p os = seen_rungs p (map seen os).
Proof. unfold rungs, seen_rungs. rewrite !filter_mapl, map_map. done. Qed.
Lemma rungs_sub (p : params C) (os1 os2 : list (order C)) : sublist (map seen os2) (map seen os1) -> sublist (rungs p os2) (rungs p os1).
Proof. intros H. rewrite !rungs_seen. unfold seen_rungs. apply sub_map, sub_filter, sub_filter, H. Qed.
Definition marked (p : params C) (os : list (order C)) : list (N * N * bool) :=
  map (fun o => (o_qty o, id_price (o_id o), withdraws same_id p o)) (List.filter (within_limit p) os).
Lemma marked_sub (p : params C) (os1 os2 : list (order C)) : sublist (map seen os2) (map seen os1) -> sublist (marked p os2) (marked p os1).
Proof.
  intros H. set (g := fun x : N * N * C => match p_side p with Bid => snd (fst x) <=? limit_price p | Ask => limit_price p <=? snd (fst x) end).
  set (h := fun x : N * N * C => (fst x, match stb p with CancelProvide => same_id (p_callback p) (snd x) | _ => false end)).
  assert (E : forall os, marked p os = map h (List.filter g (map seen os))) by (intros os; unfold marked; rewrite filter_mapl, map_map; done).
  rewrite !E. apply sub_map, sub_filter, H.
Qed.
Lemma marked_depth (p : params C) (os : list (order C)) : open_depth (marked p os) = depth (rungs p os).
Proof.
  unfold marked, rungs. induction (List.filter (within_limit p) os) as [|o l IH]; [done|]. cbn [map List.filter].
  unfold open_depth in *. cbn [sumN fst snd]. rewrite IH.
  destruct (withdraws same_id p o); cbn [negb map]; [lia|]. unfold depth. cbn [sumN]. done.
Qed.
Lemma within_sub (p : params C) (os1 os2 : list (order C)) : sublist (map seen os2) (map seen os1) ->
  (length (List.filter (within_limit p) os2) <= length (List.filter (within_limit p) os1))%nat.
Proof.
  intros H. apply (sub_filter (fun x => match p_side p with Bid => snd (fst x) <=? limit_price p | Ask => limit_price p <=? snd (fst x) end)) in H.
  rewrite !filter_mapl in H. apply sublist_length in H. rewrite !map_length in H. exact H.
Qed.

Section Cut.
Context c m p before (o : order C) after (Hr : reachable same_id c m) (Hface : facing m (p_side p) = before ++ o :: after)
  (Hw : withdraws same_id p o = false).
Lemma beyond_limit : within_limit p o = false -> List.filter (within_limit p) after = [].
Proof.
  intros Ho. pose proof (facing_sorted same_id c m (p_side p) Hr) as H. rewrite Hface in H.
  apply StronglySorted_app_inv_r in H. inversion H as [|?? _ Hall]; subst. clear -Ho Hall.
  induction Hall as [|x l Hx Hall IH]; [done|]. cbn [List.filter]. assert (within_limit p x = false) as ->; [|done].
  unfold within_limit in *. destruct (p_side p); cbn in Hx; lia.
Qed.
Lemma before_limit : within_limit p o = true -> List.filter (within_limit p) before = before.
Proof.
  intros Ho. pose proof (facing_sorted same_id c m (p_side p) Hr) as H. rewrite Hface in H. clear -Ho H.
  induction before as [|x l IH]; [done|]. cbn [app] in H. inversion H as [|?? H' Hall]; subst. cbn [List.filter].
  assert (within_limit p x = true) as ->; [|by rewrite IH].
  rewrite Forall_forall in Hall. specialize (Hall o ltac:(set_solver)). unfold within_limit in *. destruct (p_side p); cbn in Hall; lia.
Qed.
Lemma cut_in : within_limit p o = true -> (length (List.filter (within_limit p) before) < N.to_nat (match_limit p))%nat ->
  exists R, ladder same_id m p = rungs p before ++ step_of o :: R.
Proof.
  intros Ho Hn. unfold ladder, rungs. rewrite Hface, List.filter_app. cbn [List.filter]. rewrite Ho.
  rewrite take_app_ge by lia. destruct (N.to_nat (match_limit p) - _)%nat as [|k] eqn:Ek; [lia|]. cbn [take].
  rewrite List.filter_app, map_app. cbn [List.filter]. rewrite Hw. cbn [negb map]. eexists. reflexivity.
Qed.
Lemma cut_marked : within_limit p o = true -> (length (List.filter (within_limit p) before) < N.to_nat (match_limit p))%nat ->
  exists R, marked_ladder same_id m p = marked p before ++ (o_qty o, id_price (o_id o), false) :: R.
Proof.
  intros Ho Hn. unfold marked_ladder, marked. rewrite Hface, List.filter_app. cbn [List.filter]. rewrite Ho.
  rewrite take_app_ge by lia. destruct (N.to_nat (match_limit p) - _)%nat as [|k] eqn:Ek; [lia|]. cbn [take].
  rewrite map_app. cbn [map]. rewrite Hw. eexists. reflexivity.
Qed.
Lemma cut_out : depth (rungs p before) < depth (ladder same_id m p) ->
  within_limit p o = true /\ (length (List.filter (within_limit p) before) < N.to_nat (match_limit p))%nat.
Proof.
  intros Hd. destruct (within_limit p o) eqn:Ho.
  - split; [done|]. destruct (decide (length (List.filter (within_limit p) before) < N.to_nat (match_limit p))%nat) as [|Hn]; [done|exfalso].
    assert (depth (ladder same_id m p) <= depth (rungs p before)); [|lia]. unfold ladder, rungs. rewrite Hface, List.filter_app, take_app_le by lia.
    apply sub_depth, sub_map, sub_filter, sublist_take.
  - exfalso. assert (depth (ladder same_id m p) <= depth (rungs p before)); [|lia]. unfold ladder, rungs. rewrite Hface, List.filter_app.
    cbn [List.filter]. rewrite Ho, (beyond_limit Ho), app_nil_r. apply sub_depth, sub_map, sub_filter, sublist_take.
Qed.
Lemma rungs_depth : depth (rungs p before) <= sumN o_qty (List.filter (nw p) before).
Proof.
  assert (E : forall l : list (order C), depth (map step_of l) = sumN o_qty l).
  { clear. induction l as [|x l IH]; [done|]. cbn [map sumN]. unfold depth in *. cbn [sumN]. rewrite IH. done. }
  unfold rungs. rewrite <- E. apply sub_depth, sub_map, sub_filter, sub_filtered.
Qed.
Lemma rungs_all : within_limit p o = true -> depth (rungs p before) = sumN o_qty (List.filter (nw p) before).
Proof.
  intros Ho. unfold rungs. rewrite before_limit by done. generalize (List.filter (nw p) before). clear.
  induction l as [|x l IH]; [done|]. cbn [map sumN]. unfold depth in *. cbn [sumN]. rewrite IH. done.
Qed.
Lemma rungs_positive : positive (rungs p before).
Proof.
  pose proof (facing_sizes same_id c m (p_side p) Hr) as H. rewrite Hface, map_app in H. apply Forall_app in H as [H _].
  eapply sub_forall; [|exact H]. apply sub_map. unfold rungs. etrans; apply sub_filtered.
Qed.
End Cut.

Lemma facing_in (m : market C) sd o : o ∈ facing m sd -> o ∈ resting m (opposite sd).
Proof. destruct sd; cbn [facing opposite]; [done|]. intros H. apply elem_of_list_In. apply elem_of_list_In in H. by apply in_rev. Qed.
Lemma withdrawn_none c m p s m' o : accepted same_id c m p s m' -> o ∈ facing m (p_side p) -> withdraws same_id p o = true ->
  sumN fill_base (about (o_id o) (emitted m m')) = 0.
Proof.
  intros H Ho Hw. unfold withdraws in Hw. destruct (stb p) eqn:Hs; try done.
  destruct (C25_cancel_provide _ _ _ _ _ _ _ H Hs o (facing_in _ _ _ Ho) Hw) as [[-> _]|[-> _]]; done.
Qed.

Lemma post_only_none c m p s m' : accepted same_id c m p s m' -> post_only p = true -> sumN fill_base (emitted m m') = 0.
Proof.
  intros H Hpo. pose proof H as (Hr&Hty&He). destruct (post_only_facts _ _ _ _ _ _ H Hpo) as (_&Hno&_).
  apply sum_zero. intros ev Hev. destruct (is_fill ev) eqn:Hif; [|by destruct ev].
  destruct (fill_of _ _ _ _ _ _ _ Hr Hty He Hev Hif) as (p'&sm'&[= <-]&_&Hin&_). by destruct (Hno _ Hev).
Qed.
Lemma better_place c1 c2 m1 m2 p s1 s2 m1' m2' before1 o1 after1 before2 o2 after2 :
  accepted same_id c1 m1 p s1 m1' -> accepted same_id c2 m2 p s2 m2' -> free_to_sell m1 p -> free_to_sell m2 p ->
  facing m1 (p_side p) = before1 ++ o1 :: after1 -> facing m2 (p_side p) = before2 ++ o2 :: after2 ->
  sublist (map seen before2) (map seen before1) -> as_attractive (p_side p) o1 o2 ->
  sumN fill_base (about (o_id o1) (emitted m1 m1')) <= sumN fill_base (about (o_id o2) (emitted m2 m2')).
Proof.
  intros H1 H2 S1 S2 F1 F2 Hsub (Ecb&Hq&Hpr). pose proof H1 as (R1&_). pose proof H2 as (R2&_).
  destruct (withdraws same_id p o1) eqn:W1.
  { rewrite (withdrawn_none _ _ _ _ _ _ H1); [lia| |done]. rewrite F1. set_solver. }
  assert (W2 : withdraws same_id p o2 = false) by (unfold withdraws in *; by rewrite Ecb).
  rewrite (C93_share _ _ _ _ _ _ _ _ _ _ H1 S1 F1 W1), (C93_share _ _ _ _ _ _ _ _ _ _ H2 S2 F2 W2).
  set (T1 := sumN fill_base (emitted m1 m1')). set (T2 := sumN fill_base (emitted m2 m2')).
  set (B1 := sumN o_qty (List.filter (fun z => negb (withdraws same_id p z)) before1)).
  set (B2 := sumN o_qty (List.filter (fun z => negb (withdraws same_id p z)) before2)).
  destruct (N.le_gt_cases T1 B1) as [Hz|Hz]; [lia|].
  destruct (post_only p) eqn:Hpo.
  { exfalso. pose proof (post_only_none _ _ _ _ _ H1 Hpo). lia. }
  pose proof (rungs_depth p before1) as D1. fold B1 in D1. pose proof (rungs_sub p _ _ Hsub) as Hrs.
  pose proof (sub_depth _ _ Hrs) as Hd. pose proof (within_sub p _ _ Hsub) as Hlen.
  assert (HT : T1 <= depth (ladder same_id m1 p)).
  { destruct (p_side p) eqn:E.
    - by destruct (buys same_id _ _ _ _ _ H1 E Hpo) as (_&_&_&G&_).
    - destruct (sells_all same_id _ _ _ _ _ H1 E Hpo (S1 E)) as (_&G&_). unfold T1. rewrite G.
      etrans; [apply sale_depth|]. unfold marked_ladder, ladder. clear.
      match goal with |- context [take ?n ?l] => generalize (take n l) end. intros l. induction l as [|o l IH]; [done|]. cbn [map List.filter].
      unfold open_depth in *. cbn [sumN fst snd]. destruct (withdraws same_id p o); cbn [negb map]; [lia|]. unfold depth in *. cbn [sumN step_of fst]. lia. }
  destruct (cut_out _ _ _ _ _ _ R1 F1 W1 ltac:(lia)) as [L1 N1].
  assert (L2 : within_limit p o2 = true) by (revert Hpr L1; clear; unfold within_limit; destruct (p_side p); lia).
  destruct (cut_in _ _ _ _ _ F1 W1 L1 N1) as (X1&E1). destruct (cut_in _ _ _ _ _ F2 W2 L2 ltac:(lia)) as (X2&E2).
  destruct (cut_marked _ _ _ _ _ F1 W1 L1 N1) as (Y1&M1). destruct (cut_marked _ _ _ _ _ F2 W2 L2 ltac:(lia)) as (Y2&M2).
  pose proof (rungs_all _ _ _ _ _ _ R1 F1 L1) as A1. pose proof (rungs_all _ _ _ _ _ _ R2 F2 L2) as A2. fold B1 in A1. fold B2 in A2.
  pose proof (rungs_positive _ _ _ _ _ _ R1 F1) as Q1. pose proof (rungs_positive _ _ _ _ _ _ R2 F2) as Q2.
  set (x := N.min (o_qty o1) (T1 - B1)).
  assert (Hs1 : 0 < o_qty o1).
  { pose proof (facing_sizes same_id _ _ (p_side p) R1) as HF. rewrite F1, map_app in HF. apply Forall_app in HF as [_ HF].
    by inversion HF. }
  destruct (p_side p) eqn:E.
  - destruct (buys same_id _ _ _ _ _ H1 E Hpo) as (_&G1&G2&_&G4&_). destruct (buys same_id _ _ _ _ _ H2 E Hpo) as (_&_&_&_&_&G).
    fold T1 in G1, G2. fold T2 in G. assert (x > 0) by lia. enough (B2 + x <= T2) by lia. apply G; [lia| |].
    + rewrite E2, depth_app. unfold step_of. rewrite depth_cons. lia.
    + rewrite E2, <- A2. unfold step_of. rewrite slices_upto by (try done; lia). rewrite total_app.
      assert (Hle : total Bid (slices (B1 + x) (ladder same_id m1 p)) <= max_quote_qty p) by (etrans; [apply total_mono with (b := T1); lia|lia]).
      rewrite E1, <- A1 in Hle. unfold step_of in Hle. rewrite slices_upto in Hle by (try done; lia). rewrite total_app in Hle.
      pose proof (total_sub Bid _ _ Hrs). pose proof (value_price Bid x _ _ Hpr) as Hv. rewrite !total_cons in *. cbn in *. lia.
  - destruct (sells_all same_id _ _ _ _ _ H1 E Hpo (S1 E)) as (_&G1&_). destruct (sells_all same_id _ _ _ _ _ H2 E Hpo (S2 E)) as (_&G2&_).
    fold T1 in G1. fold T2 in G2.
    rewrite M1 in G1. rewrite M2 in G2. fold (sale (max_base_qty p) (marked p before1 ++ (o_qty o1, id_price (o_id o1), false) :: Y1)) in G1.
    fold (sale (max_base_qty p) (marked p before2 ++ (o_qty o2, id_price (o_id o2), false) :: Y2)) in G2.
    pose proof (sale_le (marked p before1 ++ (o_qty o1, id_price (o_id o1), false) :: Y1) (max_base_qty p)) as Hx.
    pose proof (marked_depth p before1) as M3. pose proof (marked_depth p before2) as M4.
    destruct (sale_reaches (marked p before1) (o_qty o1) (id_price (o_id o1)) Y1 (max_base_qty p)) as (V&V1); [lia|].
    pose proof (sale_least (marked p before2) (o_qty o2) (id_price (o_id o2)) Y2 (max_base_qty p)
      (passes_sub _ _ (marked_sub p _ _ Hsub) _ _ (N.le_refl _) V) ltac:(lia)) as G.
    rewrite <- G2, M4 in G. rewrite M3 in V1.
    pose proof (value_mono Ask (N.min (o_qty o1) (max_base_qty p - depth (rungs p before1))) (N.min (o_qty o2) (max_base_qty p - depth (rungs p before2))) (id_price (o_id o1)) ltac:(lia)).
    pose proof (value_price Ask (N.min (o_qty o2) (max_base_qty p - depth (rungs p before2))) _ _ Hpr). specialize (G ltac:(lia)). lia.
Qed.
End Front.
