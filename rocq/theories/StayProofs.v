(** * StayProofs.v: cancelling and posting again gains no place (C97) *)
From stdpp Require Import sorting.
From Verif Require Import Machine Critbit EventQueue OrderBook Market Spec PartsSpec BestSpec LadderSpec OfferSpec FrontSpec
  MarketFacts NewOrderProps NewOrderProps2 InstrProps HistoryProps PlaceProofs OfferProofs FrontProofs PropsMarket PropsOrder.
From Coq Require Import Sorted ZifyBool ZifyNat ZifyN.

Lemma sorted_sub {A} (R : A -> A -> Prop) (l1 l2 : list A) : (forall x y, R x y -> R y x -> False) ->
  StronglySorted R l1 -> StronglySorted R l2 -> (forall x, x ∈ l1 -> x ∈ l2) -> sublist l1 l2.
Proof.
  intros Has H1 H2. revert l1 H1. induction H2 as [|y l2 H2 IH Hy]; intros l1 H1 Hin.
  - destruct l1 as [|x l1]; [constructor|]. specialize (Hin x ltac:(left)). by apply elem_of_nil in Hin.
  - destruct l1 as [|x l1]; [apply sublist_nil_l|]. inversion H1 as [|?? H1' Hx]; subst.
    rewrite Forall_forall in Hy, Hx. pose proof (Hin x ltac:(left)) as Hi. apply elem_of_cons in Hi as [->|Hi].
    + apply sublist_skip, IH; [done|]. intros z Hz. specialize (Hin z ltac:(by right)). apply elem_of_cons in Hin as [->|?]; [|done].
      exfalso. specialize (Hx _ Hz). by eapply Has.
    + apply sublist_cons, IH; [done|]. intros z Hz. pose proof (Hin z Hz) as Hi'. apply elem_of_cons in Hi' as [->|?]; [|done].
      exfalso. specialize (Hy _ Hi). apply elem_of_cons in Hz as [->|Hz]; [by eapply Has|]. specialize (Hx _ Hz). by eapply Has.
Qed.

Section Stay.
Context {C : Type} (same_id : C -> C -> bool).
Notation reachable := (reachable same_id).
Notation accepted := (accepted same_id).

Lemma ahead_id sd i j : ahead sd i j <-> match sd with Bid => j < i | Ask => i < j end.
Proof.
  unfold ahead, better_price, id_price, id_seq. pose proof (N.div_mod i p64 ltac:(lia)). pose proof (N.div_mod j p64 ltac:(lia)).
  pose proof (N.mod_lt i p64 ltac:(lia)). pose proof (N.mod_lt j p64 ltac:(lia)).
  destruct sd; split; nia.
Qed.
Definition in_front (sd : side) (x y : order C) : Prop := ahead sd (o_id x) (o_id y).
Lemma in_front_asym sd (x y : order C) : in_front sd x y -> in_front sd y x -> False.
Proof. apply ahead_asym. Qed.
Lemma sorted_weaken {A} (R R' : A -> A -> Prop) (l : list A) : (forall x y, R x y -> R' x y) -> StronglySorted R l -> StronglySorted R' l.
Proof. intros HR. induction 1 as [|x l H IH Hx]; constructor; [done|]. eapply Forall_impl; [exact Hx|]. apply HR. Qed.
Lemma filter_le {A} (f : A -> bool) l : (length (List.filter f l) <= length l)%nat.
Proof. induction l as [|x l IH]; [done|]. cbn. destruct (f x); cbn; lia. Qed.
Lemma sorted_snoc {A} (R : A -> A -> Prop) (l : list A) x : StronglySorted R l -> Forall (fun y => R y x) l -> StronglySorted R (l ++ [x]).
Proof.
  intros H Hx. induction H as [|y l H IH Hy]; [repeat constructor|]. inversion Hx as [|?? Hyx Hx']; subst. cbn [app]. constructor; [by apply IH|].
  apply Forall_app. split; [done|]. by repeat constructor.
Qed.
Lemma sorted_flip {A} (R : A -> A -> Prop) (l : list A) : StronglySorted R l -> StronglySorted (fun x y => R y x) (rev l).
Proof.
  induction 1 as [|x l H IH Hx]; [constructor|]. cbn [rev]. apply sorted_snoc; [done|].
  apply Forall_forall. intros y Hy. rewrite Forall_forall in Hx. apply Hx. apply elem_of_list_In, in_rev, elem_of_list_In. exact Hy.
Qed.
Lemma facing_front c m sd : reachable c m -> StronglySorted (in_front (opposite sd)) (facing m sd).
Proof.
  intros Hr. pose proof (book_sorted _ _ _ (opposite sd) Hr) as H. destruct sd; cbn [facing opposite] in *.
  - eapply sorted_weaken; [|exact H]. intros x y Hxy. by apply ahead_id.
  - apply sorted_flip in H. eapply sorted_weaken; [|exact H]. intros x y Hxy. by apply ahead_id.
Qed.
Lemma facing_elem (m : market C) sd (o : order C) : o ∈ facing m sd <-> o ∈ resting m (opposite sd).
Proof. destruct sd; cbn [facing opposite]; [done|]. rewrite !elem_of_list_In. symmetry. apply in_rev. Qed.

Lemma staying c log m p before o after r1 m1 q sq id m2 s m' s2 m2' :
  config_ok c -> history same_id c log m -> N.of_nat (length log) + 2 < p63 ->
  facing m (p_side p) = before ++ o :: after ->
  exec same_id (CancelOrder (o_id o)) m = (Ok r1, m1) ->
  op_typed (NewOrder q) -> exec same_id (NewOrder q) m1 = (Ok (Some sq), m2) -> p_side q = opposite (p_side p) ->
  posted_order_id sq = Some id -> p_callback q = o_cb o -> total_base_qty_posted sq <= o_qty o ->
  ~ better_price (p_side q) (limit_price q) (id_price (o_id o)) ->
  op_typed (NewOrder p) -> exec same_id (NewOrder p) m = (Ok (Some s), m') -> exec same_id (NewOrder p) m2 = (Ok (Some s2), m2') ->
  free_to_sell m p -> free_to_sell m2 p ->
  sumN fill_base (about id (emitted m2 m2')) <= sumN fill_base (about (o_id o) (emitted m m')).
Proof.
  intros Hc Hh Hl Hf He1 Htq He2 Esd Hid Ecb Hsz Hpr Htp Ep Ep2 S1 S2.
  assert (Hr : reachable c m) by (split; [done|]; exists log; split; [done|lia]).
  assert (Hoin : o ∈ resting m (opposite (p_side p))) by (apply facing_elem; rewrite Hf; set_solver).
  destruct (C29_cancel _ same_id c m _ o Hr Hoin) as (m1'&E1&Hres&_). rewrite E1 in He1. injection He1 as <- <-.
  set (e1 := mk_entry (CancelOrder (o_id o)) (Ok (Some (mk_summary None (o_qty o) (o_qty o * id_price (o_id o) / p32) 0))) (emitted m m1') : entry C).
  set (e2 := mk_entry (NewOrder q) (Ok (Some sq)) (emitted m1' m2) : entry C).
  assert (Ht1 : op_typed (CancelOrder (o_id o) : op C)).
  { destruct (book_facts _ _ _ _ _ Hr Hoin) as (_&_&_&_&_&Hb&_). exact Hb. }
  assert (Hh1 : history same_id c (log ++ [e1]) m1') by (by econstructor).
  assert (Hh2 : history same_id c ((log ++ [e1]) ++ [e2]) m2) by (by econstructor).
  assert (Hr1 : reachable c m1') by (split; [done|]; exists (log ++ [e1]); split; [done|rewrite app_length; cbn; lia]).
  assert (Hr2 : reachable c m2) by (split; [done|]; exists ((log ++ [e1]) ++ [e2]); split; [done|rewrite !app_length; cbn; lia]).
  assert (Hacc : accepted c m1' q sq m2) by done.
  pose proof (C38_posted_visible _ _ _ _ _ _ _ Hacc) as Hv. rewrite Hid in Hv. destruct Hv as (Hv&_&_).
  destruct (posted_side _ _ _ _ _ _ _ Hacc Hid) as [Eside Eprice].
  set (x := (mk_leaf id (total_base_qty_posted sq), p_callback q) : order C) in *.
  (* there was room, so nothing was pushed out *)
  assert (Hroom : (length (resting m1' (p_side q)) < capacity c (p_side q))%nat).
  { pose proof (side_fits _ _ _ (p_side q) Hr) as Hfit. rewrite Esd in *. rewrite Hres.
    apply elem_of_list_split in Hoin as (a&b&Eab). rewrite Eab in Hfit |- *. rewrite List.filter_app. cbn [List.filter].
    rewrite N.eqb_refl. cbn [negb]. rewrite app_length in *. cbn [length] in Hfit.
    pose proof (filter_le (fun x => negb (o_id x =? o_id o)) a). pose proof (filter_le (fun x => negb (o_id x =? o_id o)) b). lia. }
  assert (Hown : resting m2 (p_side q) ≡ₚ x :: resting m1' (p_side q)).
  { rewrite Hv, apply_events_other; [done|]. intros ev Hev Hin. destruct (C26_eviction _ _ _ _ _ _ _ Hacc) as [G _].
    destruct (G ev Hev Hin) as [G1 _]. lia. }
  assert (Hx2 : x ∈ facing m2 (p_side p)) by (apply facing_elem; rewrite <- Esd, Hown; left).
  apply elem_of_list_split in Hx2 as (before2&after2&Hf2).
  pose proof (facing_front _ _ (p_side p) Hr) as HS. rewrite Hf in HS. pose proof (facing_front _ _ (p_side p) Hr2) as HS2. rewrite Hf2 in HS2.
  change id with (o_id x). eapply (better_place same_id c c m2 m p s2 s m2' m' before2 x after2 before o after); try done.
  - apply sub_map. apply (sorted_sub (in_front (opposite (p_side p)))); [apply in_front_asym|..].
    { by apply StronglySorted_app_inv_l in HS. } { by apply StronglySorted_app_inv_l in HS2. }
    intros y Hy.
    assert (Hyo : in_front (opposite (p_side p)) y o).
    { clear -HS Hy. induction before as [|z l IH]; [by apply elem_of_nil in Hy|]. cbn [app] in HS. inversion HS as [|?? HS' Hz]; subst.
      apply elem_of_cons in Hy as [->|Hy]; [|by apply IH]. rewrite Forall_forall in Hz. apply Hz. set_solver. }
    assert (Hym : y ∈ resting m (opposite (p_side p))) by (apply facing_elem; rewrite Hf; set_solver).
    assert (Hy1 : y ∈ resting m1' (opposite (p_side p))).
    { rewrite Hres. apply elem_of_list_In, filter_In. split; [by apply elem_of_list_In|]. apply negb_true_iff, N.eqb_neq. intros E.
      unfold in_front in Hyo. rewrite E in Hyo. by apply ahead_irrefl in Hyo. }
    assert (Hy2 : y ∈ facing m2 (p_side p)) by (apply facing_elem; rewrite <- Esd, Hown; right; by rewrite Esd).
    assert (Hyx : in_front (opposite (p_side p)) y x).
    { (* y came first *)
      destruct (C11_resting_posted _ _ _ _ _ (opposite (p_side p)) Hc Hh ltac:(lia)) as [Hpo _].
      pose proof (Hpo (o_id y) ltac:(by apply elem_of_list_fmap_1)) as Hp. unfold posted_ids in Hp. apply elem_of_list_omap in Hp as (ey&Hey&Epy).
      apply elem_of_list_split in Hey as (l1&l2&El). subst log.
      assert (Hh3 : history same_id c (l1 ++ ey :: (l2 ++ [e1]) ++ e2 :: []) m2).
      { replace (l1 ++ ey :: (l2 ++ [e1]) ++ [e2]) with (((l1 ++ ey :: l2) ++ [e1]) ++ [e2]) by (by rewrite <- !app_assoc). exact Hh2. }
      rewrite app_length in Hl. cbn [length] in Hl.
      assert (Hsy : side_of_id (o_id y) = opposite (p_side p)) by (exact (C12_on_its_side _ _ _ _ _ _ Hr Hym)).
      destruct (C13_time _ _ _ _ _ _ _ _ _ (o_id y) id Hc Hh3) as [_ Htime];
        [rewrite app_length; cbn [length]; rewrite !app_length; cbn [length]; lia|done|exact Hid|by rewrite Hsy, Eside, Esd|].
      rewrite Hsy in Htime. unfold in_front. change (o_id x) with id. unfold in_front in Hyo. unfold ahead in Hyo |- *. unfold ahead in Htime.
      rewrite Esd in Hpr. rewrite Eprice in *.
      destruct (N.eq_dec (id_price (o_id y)) (limit_price q)) as [E|E]; [by apply Htime|]. left.
      revert Hyo Hpr E. clear. unfold better_price. destruct (opposite (p_side p)); lia. }
    rewrite Hf2 in Hy2. apply elem_of_app in Hy2 as [?|Hy2]; [done|]. exfalso.
    apply elem_of_cons in Hy2 as [->|Hy2]; [by apply (ahead_irrefl _ _ Hyx)|].
    apply StronglySorted_app_inv_r in HS2. inversion HS2 as [|?? _ Hall]; subst. rewrite Forall_forall in Hall.
    eapply in_front_asym; [exact Hyx|by apply Hall].
  - unfold as_attractive. change (o_cb x) with (p_callback q). change (o_qty x) with (total_base_qty_posted sq). change (o_id x) with id.
    rewrite Eprice. split; [done|]. split; [done|]. rewrite Esd in Hpr. revert Hpr. clear. destruct (p_side p); cbn; lia.
Qed.
End Stay.
