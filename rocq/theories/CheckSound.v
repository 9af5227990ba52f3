(** * CheckSound.v: a slab that passes the structural check reads as a sorted list (C58) *)
From Coq Require Import Sorting.Sorted.
From stdpp Require Import gmap.
From Verif Require Import Machine Critbit DataSpec MachineProofs TreeProofs SlabProofs SlabProofs2 DataProps
  Check CheckSpec CheckProofs.
From Coq Require Import ZifyBool ZifyNat ZifyN.

Lemma rbind_inv {A B} (m : res A) (f : A -> res B) b : rbind m f = Ok b -> exists a, m = Ok a /\ f a = Ok b.
Proof. destruct m; cbn; try done. intros H. by exists a. Qed.
Lemma assert_inv b : assert_that b = Ok tt -> b = true.
Proof. by destruct b. Qed.
Lemma assert_inv' b u : assert_that b = Ok u -> b = true.
Proof. by destruct b. Qed.
Lemma shift_inv n u : shift_ok n = Ok u -> n < 128.
Proof. unfold shift_ok. by destruct (N.ltb_spec n 128). Qed.
Lemma idx_inv {A} (l : list A) i a : idx l i = Ok a -> getN l i = Some a.
Proof. unfold idx. destruct (getN l i); congruence. Qed.

Lemma getN_lookup {A} (l : list A) i a : getN l i = Some a ->
  i < N.of_nat (length l) /\ l !! N.to_nat i = Some a.
Proof. unfold getN. by destruct (N.ltb_spec i (N.of_nat (length l))). Qed.
Lemma mask_agree last a b : last < 128 ->
  N.land a (prefix_mask last) = N.land b (prefix_mask last) -> agree last a b.
Proof.
  intros H E i Hi Hi'. rewrite !crit_testbit by done.
  apply (f_equal (fun x => N.testbit x (127 - i))) in E. rewrite !N.land_spec in E.
  rewrite mask_testbit in E by lia.
  replace (128 - last <=? 127 - i) with true in E by (symmetry; apply N.leb_le; lia).
  by rewrite !andb_true_r in E.
Qed.
Lemma testbit31 h : h < p32 -> N.testbit h 31 = (p31 <=? h).
Proof.
  intros H. rewrite N.testbit_eqb. change (2 ^ 31) with p31.
  destruct (N.leb_spec p31 h) as [L|L].
  - replace (h / p31) with 1; [done|]. apply (N.div_unique _ _ _ (h - p31)); [|lia].
    change p32 with (2 * p31) in H. lia.
  - rewrite N.div_small by done. done.
Qed.
Lemma not32_lt h : h < p32 -> p31 <= h -> not32 h < p31.
Proof. unfold not32. change p32 with (2 * p31). lia. Qed.

Section CheckSound.
Context {C : Type}.
Implicit Types s : slab C.

Lemma check_rec_sound s : slab_typed s -> forall fuel h last lp cbit a b, h < p32 ->
  check_rec fuel s h last lp cbit = Ok (a, b) ->
  last < 128 /\
  exists t, groot t = h /\ rep (leaf_nodes s) (inner_nodes s) t /\ gwf (last + 1) t /\
    (forall k, k ∈ gkeys t -> agree last lp k /\ crit last k = cbit) /\
    a = N.of_nat (length (gleaves t)) /\ b = N.of_nat (length (ginners t)).
Proof.
  intros (_&TL&TI&_). induction fuel as [|fuel IH]; intros h last lp cbit a b Hh; cbn [check_rec]; [done|].
  unfold is_inner. rewrite testbit31 by done. destruct (N.leb_spec p31 h) as [Hi|Hi]; intros H.
  - apply rbind_inv in H as (n&Hn&H). apply idx_inv in Hn.
    apply rbind_inv in H as (u1&H1&H). apply assert_inv', N.ltb_lt in H1.
    apply rbind_inv in H as (u2&H2&H). apply shift_inv in H2.
    apply rbind_inv in H as (u3&H3&H). apply assert_inv' in H3. rewrite bit_set_crit in H3 by done.
    apply eqb_prop in H3.
    apply rbind_inv in H as (u4&H4&H). apply assert_inv', N.eqb_eq, mask_agree in H4; [|done].
    apply rbind_inv in H as ([la lb]&Hl&H). apply rbind_inv in H as ([ra rb]&Hr&H).
    injection H as <- <-. cbn [fst snd].
    assert (Tn : in_key n < p128 /\ in_plen n < p64 /\ in_c0 n < p32 /\ in_c1 n < p32).
    { apply getN_lookup in Hn as [_ Hn]. rewrite Forall_lookup in TI. by eapply TI. }
    destruct Tn as (Tk&_&T0&T1).
    apply IH in Hl as (Hp&tl&Gl&Rl&Wl&Kl&El1&El2); [|done].
    apply IH in Hr as (_&tr&Gr&Rr&Wr&Kr&Er1&Er2); [|done].
    split; [done|]. exists (GI (not32 h) (in_plen n) (in_key n) tl tr).
    pose proof (not32_lt h Hh Hi) as Hlt.
    split; [cbn; unfold not32; lia|].
    split. { cbn [rep]. split; [done|]. rewrite Gl, Gr. split; [by destruct n|done]. }
    split. { cbn [gwf]. split_and!; try done; lia. }
    split.
    { intros k Hk. rewrite gkeys_GI in Hk.
      assert (Hag : agree (in_plen n) (in_key n) k)
        by (apply elem_of_app in Hk as [Hk|Hk]; [by apply Kl|by apply Kr]).
      split.
      - eapply agree_trans; [exact H4|]. eapply agree_mono; [|exact Hag]. lia.
      - rewrite H3. symmetry. apply Hag; lia. }
    cbn [gleaves ginners length]. rewrite !app_length. lia.
  - apply rbind_inv in H as (lf&Hl&H). apply idx_inv in Hl.
    apply rbind_inv in H as (u2&H2&H). apply shift_inv in H2.
    apply rbind_inv in H as (u3&H3&H). apply assert_inv' in H3. rewrite bit_set_crit in H3 by done.
    apply eqb_prop in H3.
    apply rbind_inv in H as (u4&H4&H). apply assert_inv', N.eqb_eq, mask_agree in H4; [|done].
    injection H as <- <-. split; [done|]. exists (GL h lf).
    split; [done|]. split; [done|].
    split. { cbn. apply getN_lookup in Hl as [_ Hl]. rewrite Forall_lookup in TL. by eapply TL. }
    split; [|done]. intros k Hk. cbn in Hk. apply elem_of_list_singleton in Hk as ->. done.
Qed.


(** The fuel is enough: the check ends on every slab. *)
Lemma rbind_ends {A B} (m : res A) (f : A -> res B) :
  m <> Diverge -> (forall a, m = Ok a -> f a <> Diverge) -> rbind m f <> Diverge.
Proof. destruct m; cbn; try done. intros _ H. by apply H. Qed.
Lemma idx_ends {A} (l : list A) i : idx l i <> Diverge.
Proof. unfold idx. by destruct (getN l i). Qed.
Lemma assert_ends b : assert_that b <> Diverge.
Proof. by destruct b. Qed.
Lemma shift_ends n : shift_ok n <> Diverge.
Proof. unfold shift_ok. by destruct (n <? 128). Qed.
Lemma check_rec_ends s : forall fuel h last lp cbit,
  (1 <= fuel)%nat -> (last < 128 -> 128 < last + N.of_nat fuel) ->
  check_rec fuel s h last lp cbit <> Diverge.
Proof.
  induction fuel as [|fuel IH]; intros h last lp cbit Hf Hl; [lia|]. cbn [check_rec].
  destruct (is_inner h).
  - apply rbind_ends; [apply idx_ends|]. intros n _.
    apply rbind_ends; [apply assert_ends|]. intros u Hu. apply assert_inv', N.ltb_lt in Hu.
    apply rbind_ends; [apply shift_ends|]. intros v Hv. apply shift_inv in Hv.
    apply rbind_ends; [apply assert_ends|]. intros _ _.
    apply rbind_ends; [apply assert_ends|]. intros _ _.
    apply rbind_ends; [apply IH; lia|]. intros [la lb] _.
    apply rbind_ends; [apply IH; lia|]. by intros [ra rb] _.
  - apply rbind_ends; [apply idx_ends|]. intros n _.
    apply rbind_ends; [apply shift_ends|]. intros v Hv.
    apply rbind_ends; [apply assert_ends|]. intros _ _.
    by apply rbind_ends; [apply assert_ends|].
Qed.
Lemma check_ends s : check_invariants s <> Diverge.
Proof.
  unfold check_invariants. apply rbind_ends.
  - destruct (root s) as [r|]; [|done]. destruct (is_inner r); [|done].
    apply rbind_ends; [apply idx_ends|]. intros n _.
    apply rbind_ends; [apply check_rec_ends; unfold walk_fuel; lia|]. intros [la lb] _.
    apply rbind_ends; [apply check_rec_ends; unfold walk_fuel; lia|]. by intros [ra rb] _.
  - intros c _. apply rbind_ends; [apply assert_ends|]. intros _ _.
    apply rbind_ends; [apply assert_ends|]. intros _ _. apply assert_ends.
Qed.

(** The tree the check has walked. *)
Lemma check_tree s : slab_typed s -> check_invariants s = Ok tt ->
  (is_inner (root_node (hdr s)) = false -> leaf_count (hdr s) <> 0 ->
   root_node (hdr s) < N.of_nat (length (leaf_nodes s))) ->
  exists ot, tree_rep s ot.
Proof.
  intros T H Hr. unfold check_invariants in H.
  apply rbind_inv in H as ([a b]&Hc&H). cbn [fst snd] in H.
  apply rbind_inv in H as (u1&_&H). apply rbind_inv in H as (u2&_&H). apply assert_inv, N.eqb_eq in H.
  unfold root in Hc. destruct (N.eqb_spec (leaf_count (hdr s)) 0) as [Z|Z]; [by exists None|].
  pose proof T as (TR&TL&TI&_). revert Hc Hr. unfold is_inner. rewrite testbit31 by done.
  destruct (N.leb_spec p31 (root_node (hdr s))) as [Hi|Hi]; intros Hc Hr.
  - apply rbind_inv in Hc as (n&Hn&Hc). apply idx_inv in Hn.
    apply rbind_inv in Hc as ([la lb]&Hl&Hc). apply rbind_inv in Hc as ([ra rb]&Hr'&Hc).
    injection Hc as <- <-. cbn [fst snd] in *.
    assert (Tn : in_key n < p128 /\ in_plen n < p64 /\ in_c0 n < p32 /\ in_c1 n < p32).
    { apply getN_lookup in Hn as [_ Hn]. rewrite Forall_lookup in TI. by eapply TI. }
    destruct Tn as (Tk&_&T0&T1).
    apply (check_rec_sound s T) in Hl as (Hp&tl&Gl&Rl&Wl&Kl&El1&El2); [|done].
    apply (check_rec_sound s T) in Hr' as (_&tr&Gr&Rr&Wr&Kr&Er1&Er2); [|done].
    exists (Some (GI (not32 (root_node (hdr s))) (in_plen n) (in_key n) tl tr)).
    pose proof (not32_lt _ TR Hi) as Hlt. cbn [tree_rep].
    split; [cbn; unfold not32; lia|].
    split; [cbn [gleaves]; rewrite app_length; lia|].
    split. { cbn [rep]. split; [done|]. rewrite Gl, Gr. split; [by destruct n|done]. }
    cbn [gwf]. split_and!; try done; lia.
  - specialize (Hr eq_refl Z). injection Hc as <- <-.
    destruct (getN (leaf_nodes s) (root_node (hdr s))) as [l|] eqn:E.
    2:{ unfold getN in E. replace (_ <? _) with true in E by (symmetry; by apply N.ltb_lt). apply lookup_ge_None in E. lia. }
    exists (Some (GL (root_node (hdr s)) l)). cbn. split; [done|]. split; [done|]. split; [done|].
    apply getN_lookup in E as [_ E]. rewrite Forall_lookup in TL. by eapply TL.
Qed.

Lemma rep_slot L I t h l : rep L I t -> (h, l) ∈ gleaves t -> getN L h = Some l.
Proof.
  induction t as [h0 l0|i p key tl IHl tr IHr]; cbn; intros R H.
  - apply elem_of_list_singleton in H. injection H as -> ->. apply R.
  - destruct R as (_&_&Rl&Rr). apply elem_of_app in H as [H|H]; [by apply IHl|by apply IHr].
Qed.
(** Distinct keys sit in distinct slots, so there are at most as many as slots. *)
Lemma gleaves_le s t lo : rep (leaf_nodes s) (inner_nodes s) t -> gwf lo t ->
  (length (gleaves t) <= length (leaf_nodes s))%nat.
Proof.
  intros R W.
  assert (ND : NoDup (map fst (gleaves t))).
  { apply gwf_sorted in W. assert (NK : NoDup (gkeys t)).
    { clear R. induction W as [|k ks W IH F]; constructor; [|done]. intros Hin.
      rewrite Forall_forall in F. apply F in Hin. lia. }
    revert NK. unfold gkeys.
    assert (E : map (fun hl => lf_key (snd hl)) (gleaves t) =
      (fun h => match getN (leaf_nodes s) h with Some l => lf_key l | None => 0 end) <$> map fst (gleaves t)).
    { change (map fst (gleaves t)) with (fst <$> gleaves t). rewrite <- list_fmap_compose.
      apply list_fmap_ext. intros i [h l] Hx. cbn.
      by rewrite (rep_slot _ _ _ h l R) by (by eapply elem_of_list_lookup_2). }
    rewrite E. apply NoDup_fmap_1. }
  rewrite <- (map_length fst (gleaves t)).
  assert (Hsub : N.to_nat <$> map fst (gleaves t) ⊆ seq 0 (length (leaf_nodes s))).
  { intros x Hx. apply elem_of_list_fmap in Hx as (h&->&Hh). apply elem_of_list_fmap in Hh as ([h' l]&->&Hin).
    apply (rep_slot _ _ _ _ _ R), getN_lookup in Hin as [Hin _].
    apply elem_of_seq. cbn. lia. }
  assert (ND' : NoDup (N.to_nat <$> map fst (gleaves t))) by (apply NoDup_fmap_2; [|done]; intros ???; lia).
  pose proof (submseteq_length _ _ (NoDup_submseteq _ _ ND' Hsub)) as Hlen.
  rewrite fmap_length, seq_length in Hlen. done.
Qed.

Lemma tree_reads s ot : slab_typed s -> tree_rep s ot -> exists os, reads_as s os.
Proof.
  intros (TR&TL&TI&TC) Ht. destruct ot as [t|]; cbn in Ht.
  2:{ exists []. unfold reads_as, traverse, find_min, find_max, find_min_max, find_by_key, root, iterate. rewrite Ht.
      split; [constructor|]. split; [done|]. split; [done|].
      split; [by destruct (2 * _ + 2)%nat eqn:E; [lia|]|]. split; [by destruct (2 * _ + 2)%nat eqn:E; [lia|]|].
      split; [|done]. intros k _. right. split; [done|]. apply not_elem_of_nil. }
  destruct Ht as (Hroot&Hlc&Hrep&Hwf).
  assert (Hne : (leaf_count (hdr s) =? 0) = false).
  { apply N.eqb_neq. rewrite Hlc. pose proof (gleaves_ne t). destruct (gleaves t); [done|]. cbn. lia. }
  assert (Hes : exists es : list (@ent C), map e_hl es = gleaves t /\
    Forall (fun e => getN (callback_infos s) (e_h e) = Some (e_c e)) es).
  { assert (Hall : forall h l, (h, l) ∈ gleaves t -> exists c, getN (callback_infos s) h = Some c).
    { intros h l Hin. apply (rep_slot _ _ _ _ _ Hrep), getN_lookup in Hin as [Hin _].
      unfold getN. replace (_ <? _) with true by (symmetry; apply N.ltb_lt; lia).
      apply lookup_lt_is_Some_2. lia. }
    revert Hall. clear. induction (gleaves t) as [|[h l] ls IH]; intros Hall; [by exists []|].
    destruct IH as (es&E&F). { intros h' l' Hin. eapply Hall. by right. }
    destruct (Hall h l) as [c Hc]; [left|]. exists (mk_ent h l c :: es). cbn. rewrite E. split; [done|].
    by constructor. }
  destruct Hes as (es&Hes&Hcb). exists (map e_order es).
  assert (Hkeys : map (fun o : leaf * C => lf_key (fst o)) (map e_order es) = gkeys t).
  { unfold gkeys. rewrite <- Hes, !map_map. done. }
  assert (Hfst : map fst (map e_order es) = map e_l es) by (by rewrite map_map).
  assert (Hit : forall asc, iterate s asc = Ok (if asc then map e_l es else rev (map e_l es))).
  { intros asc. unfold iterate. rewrite Hne, Hroot. change [groot t] with (map groot [t]).
    rewrite iter_collect_ok.
    - f_equal. unfold sleaves. cbn. rewrite app_nil_r. unfold dir_leaves. rewrite <- Hes.
      destruct asc; rewrite ?map_rev, map_map; done.
    - by repeat constructor.
    - unfold srank, gsize. cbn. pose proof (ginners_length t). pose proof (gleaves_le s t 0 Hrep Hwf). lia. }
  unfold reads_as. rewrite Hkeys, Hfst.
  split; [by eapply gwf_sorted|].
  split; [by rewrite Hlc, map_length, <- Hes, map_length|].
  split. { unfold traverse, root. rewrite Hne, Hroot. apply walk_rec_ok; [done|done|by apply gwf_fuel|done]. }
  split; [apply (Hit true)|]. split; [apply (Hit false)|].
  split.
  { intros k Hk. unfold find_by_key, root. rewrite Hne, Hroot.
    destruct (find_walk_ok s k Hk t 0 walk_fuel Hrep Hwf) as [(h&l&Hw&Hin&Hkl)|[Hw Hni]]; [by apply gwf_fuel| |].
    - left. pose proof (rep_slot _ _ _ _ _ Hrep Hin) as Hsl. rewrite <- Hes in Hin.
      apply elem_of_list_fmap_2 in Hin as (e&He&Hin). unfold e_hl in He. injection He as -> ->.
      exists (e_h e), (e_l e), (e_c e). rewrite Forall_forall in Hcb.
      split_and!; [done|done|by apply Hcb|done|]. change (e_l e, e_c e) with (e_order e). by apply elem_of_list_fmap_1.
    - by right. }
  assert (Hmm : forall mx, exists h l, find_min_max s mx = Ok (Some h) /\
    (if mx then last (gleaves t) else head (gleaves t)) = Some (h, l)).
  { intros mx. unfold find_min_max. rewrite Hne, Hroot.
    destruct (min_max_walk_ok s mx t walk_fuel Hrep) as (h&l&Hw&Hg); [by apply gwf_fuel|].
    exists h, l. rewrite (rbind_ok _ _ _ Hw). done. }
  destruct (Hmm false) as (h&l&Hmin&Hhd). destruct (Hmm true) as (h'&l'&Hmax&Hlast).
  destruct es as [|e es]; [pose proof (gleaves_ne t); by rewrite <- Hes in H|]. cbn [map e_order].
  rewrite <- Hes in Hhd. cbn in Hhd. unfold e_hl in Hhd. injection Hhd as <- <-.
  exists (e_h e), h', l'.
  assert (Hin1 : (e_h e, e_l e) ∈ gleaves t) by (rewrite <- Hes; left).
  assert (Hin2 : (h', l') ∈ gleaves t).
  { apply last_Some in Hlast as [pre ->]. apply elem_of_app. right. left. }
  split; [done|]. split; [by eapply rep_slot|]. split; [done|]. split; [by eapply rep_slot|].
  change (e_order e :: map e_order es) with (e_order <$> (e :: es)).
  rewrite <- Hes in Hlast. change (map e_hl (e :: es)) with (e_hl <$> (e :: es)) in Hlast.
  rewrite fmap_last in Hlast. rewrite fmap_last. destruct (last (e :: es)) as [e'|]; [|done].
  cbn in *. unfold e_hl in Hlast. congruence.
Qed.
End CheckSound.
