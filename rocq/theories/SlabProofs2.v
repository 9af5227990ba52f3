(** * SlabProofs2.v: updates in place, removal, searches and iteration *)
From Verif Require Import Machine Critbit MachineProofs TreeProofs SlabProofs.
From Coq Require Import ZifyBool ZifyNat ZifyN.
From Coq Require Import Sorting.Sorted.

(** ** Rewriting one leaf of a tree *)
Fixpoint gset (h : N) (lf : leaf) (t : gtree) : gtree :=
  match t with
  | GL h' l => GL h' (if h' =? h then lf else l)
  | GI i p key l r => GI i p key (gset h lf l) (gset h lf r)
  end.
Lemma groot_gset h lf t : groot (gset h lf t) = groot t.
Proof. by destruct t. Qed.
Lemma ginners_gset h lf t : ginners (gset h lf t) = ginners t.
Proof. induction t as [|i p key l IHl r IHr]; cbn; [done|]. by rewrite IHl, IHr. Qed.
Lemma gleaves_gset h lf t :
  gleaves (gset h lf t) = map (fun hl => (fst hl, if fst hl =? h then lf else snd hl)) (gleaves t).
Proof. induction t as [|i p key l IHl r IHr]; cbn; [done|]. by rewrite IHl, IHr, map_app. Qed.
Lemma gkeys_gset h lf t :
  (forall l, (h, l) ∈ gleaves t -> lf_key l = lf_key lf) -> gkeys (gset h lf t) = gkeys t.
Proof.
  intros H. unfold gkeys. rewrite gleaves_gset, map_map. apply map_ext_in.
  intros [h' l] Hin. cbn. destruct (N.eqb_spec h' h) as [->|]; [|done].
  symmetry. apply H. by apply elem_of_list_In.
Qed.
Lemma gwf_gset h lf lo t :
  (forall l, (h, l) ∈ gleaves t -> lf_key l = lf_key lf) -> gwf lo t -> gwf lo (gset h lf t).
Proof.
  revert lo; induction t as [h' l|i p key l IHl r IHr]; intros lo H; cbn.
  - destruct (N.eqb_spec h' h) as [->|]; [|done]. rewrite <- (H l) by (cbn; left). done.
  - intros (?&?&?&Kl&Kr&Wl&Wr). cbn in H.
    assert (Hl : forall l0, (h, l0) ∈ gleaves l -> lf_key l0 = lf_key lf)
      by (intros; apply H, elem_of_app; by left).
    assert (Hr : forall l0, (h, l0) ∈ gleaves r -> lf_key l0 = lf_key lf)
      by (intros; apply H, elem_of_app; by right).
    rewrite !gkeys_gset by done. split; [done|]. split; [done|]. split; [done|].
    split; [done|]. split; [done|]. auto.
Qed.
Lemma rep_gset h lf L I t x :
  getN L h = Some x -> rep L I t -> rep (setN L h lf) I (gset h lf t).
Proof.
  intros Hx. induction t as [h' l|i p key l IHl r IHr]; cbn.
  - intros [? ?]. split; [done|]. destruct (N.eqb_spec h' h) as [->|].
    + by eapply getN_setN_eq.
    + rewrite getN_setN_ne; [done|]. congruence.
  - intros (?&?&?&?). rewrite !groot_gset. auto.
Qed.

Section SlabProofs2.
Context {C : Type}.
Implicit Types s : slab C.

Lemma srep_set_leaf s es1 e es2 lf :
  srep s (es1 ++ e :: es2) -> lf_key lf = e_key e ->
  srep (set_leaf_nodes s (setN (leaf_nodes s) (e_h e) lf))
       (es1 ++ mk_ent (e_h e) lf (e_c e) :: es2).
Proof.
  intros Hs Hk.
  pose proof (srep_handles _ _ Hs) as Hnd.
  destruct (srep_entry _ _ e Hs) as (Hle&Hce&Hlt).
  { apply elem_of_app. right. left. }
  destruct Hs as (ot&fl&ifl&[Hd Ht Hl Hi]&Hes&Hcb).
  destruct ot as [t|]; [|cbn in Hes; by destruct es1].
  cbn [oleaves oinners] in *.
  destruct Ht as (Hroot&Hlc&Hrep&Hwf).
  assert (Hin : e_hl e ∈ gleaves t).
  { rewrite <- Hes, map_app. apply elem_of_app. right. left. }
  assert (Hkeys : forall l, (e_h e, l) ∈ gleaves t -> lf_key l = lf_key lf).
  { intros l Hl'. rewrite <- Hes in Hl'. apply elem_of_list_fmap_2 in Hl' as (e'&He'&Hin').
    rewrite map_app in Hnd. apply NoDup_app in Hnd as (_&Hd1&Hd2). cbn in Hd1, Hd2.
    apply NoDup_cons in Hd2 as [Hd2 _]. unfold e_hl in He'. injection He' as Hh ->.
    apply elem_of_app in Hin' as [Hin'|Hin'].
    - exfalso. apply (Hd1 (e_h e')); [by apply elem_of_list_fmap_1|]. rewrite Hh. left.
    - apply elem_of_cons in Hin' as [->|Hin']; [by rewrite Hk|].
      exfalso. apply Hd2. rewrite Hh. by apply elem_of_list_fmap_1. }
  assert (Hgl : gleaves (gset (e_h e) lf t) =
                map e_hl (es1 ++ mk_ent (e_h e) lf (e_c e) :: es2)).
  { rewrite gleaves_gset, <- Hes, map_map, !map_app. cbn [map].
    rewrite map_app in Hnd. apply NoDup_app in Hnd as (_&Hd1&Hd2). cbn in Hd1, Hd2.
    apply NoDup_cons in Hd2 as [Hd2 _].
    f_equal; [|f_equal].
    - apply map_ext_in. intros e' Hin'. cbn.
      destruct (N.eqb_spec (e_h e') (e_h e)) as [Hh|]; [|done].
      exfalso. apply (Hd1 (e_h e')); [apply elem_of_list_fmap_1, elem_of_list_In, Hin'|].
      rewrite Hh. left.
    - cbn. by rewrite N.eqb_refl.
    - apply map_ext_in. intros e' Hin'. cbn.
      destruct (N.eqb_spec (e_h e') (e_h e)) as [Hh|]; [|done].
      exfalso. apply Hd2. rewrite <- Hh. apply elem_of_list_fmap_1, elem_of_list_In, Hin'. }
  exists (Some (gset (e_h e) lf t)), fl, ifl.
  split; [|split; [by cbn|]].
  - split.
    + destruct Hd. split; cbn; rewrite ?length_setN; done.
    + cbn. rewrite groot_gset. split; [done|]. split.
      { by rewrite gleaves_gset, map_length. }
      split; [by eapply rep_gset|by apply gwf_gset].
    + unfold leaf_alloc in *. cbn [oleaves set_leaf_nodes hdr leaf_nodes]. rewrite length_setN.
      rewrite gleaves_gset, map_map. eapply alloc_ok_ext; [|exact Hl].
      intros y Hy. unfold lnext. rewrite getN_setN_ne; [done|].
      intros <-. eapply alloc_ok_disj; [exact Hl| |exact Hy].
      change (e_h e) with (fst (e_hl e)). by apply elem_of_list_fmap_1.
    + unfold inner_alloc in *. cbn [oinners set_leaf_nodes hdr inner_nodes].
      by rewrite ginners_gset.
  - cbn. apply Forall_app in Hcb as [H1 H2]. apply Forall_cons in H2 as [? ?].
    apply Forall_app. split; [done|]. by constructor.
Qed.

Lemma write_leaf_srep s es1 e es2 lf :
  srep s (es1 ++ e :: es2) -> lf_key lf = e_key e ->
  exists s', write_leaf (e_h e) lf s = (Ok tt, s') /\
    srep s' (es1 ++ mk_ent (e_h e) lf (e_c e) :: es2) /\ same_dims s s' /\
    callback_infos s' = callback_infos s.
Proof.
  intros Hs Hk. destruct (srep_entry _ _ e Hs) as (Hle&Hce&Hlt).
  { apply elem_of_app. right. left. }
  eexists. split; [by apply write_leaf_ok|]. split; [by apply srep_set_leaf|].
  split; [|done]. split; [apply length_setN|done].
Qed.

Lemma insert_clobber_srep s es1 e es2 lf :
  srep s (es1 ++ e :: es2) -> lf_key lf = e_key e ->
  exists s', insert_leaf lf s = (Ok (e_h e, Some (e_l e)), s') /\
    srep s' (es1 ++ mk_ent (e_h e) lf (e_c e) :: es2) /\ same_dims s s' /\
    callback_infos s' = callback_infos s.
Proof.
  intros Hs Hk. destruct (insert_clobber _ _ _ _ _ Hs Hk) as (s'&Hi&->).
  eexists. split; [done|]. split; [by apply srep_set_leaf|].
  split; [|done]. split; [apply length_setN|done].
Qed.

Lemma set_callback_srep s es1 e es2 c :
  srep s (es1 ++ e :: es2) ->
  exists s', set_callback_info (e_h e) c s = (Ok tt, s') /\
    srep s' (es1 ++ mk_ent (e_h e) (e_l e) c :: es2) /\ same_dims s s'.
Proof.
  intros Hs. destruct (srep_entry _ _ e Hs) as (Hle&Hce&Hlt).
  { apply elem_of_app. right. left. }
  pose proof (srep_handles _ _ Hs) as Hnd.
  pose proof (srep_dims _ _ Hs) as [D1 D2 D3].
  eexists. split.
  { unfold set_callback_info. rewrite bind_get. erewrite bind_lift by (apply upd_ok; lia).
    reflexivity. }
  split.
  - destruct Hs as (ot&fl&ifl&[Hd Ht Hl Hi]&Hes&Hcb).
    exists ot, fl, ifl. split; [|split].
    + split; [|done..]. split; cbn; rewrite ?length_setN; done.
    + rewrite <- Hes, !map_app. done.
    + cbn. apply Forall_app in Hcb as [H1 H2]. apply Forall_cons in H2 as [H2 H3].
      rewrite map_app in Hnd. apply NoDup_app in Hnd as (_&Hd1&Hd2). cbn in Hd1, Hd2.
      apply NoDup_cons in Hd2 as [Hd2 _].
      apply Forall_app. split; [|constructor].
      * apply Forall_forall. intros e' He'. rewrite getN_setN_ne.
        { by eapply Forall_forall in H1. }
        intros Hh. apply (Hd1 (e_h e')); [by apply elem_of_list_fmap_1|]. rewrite Hh. left.
      * cbn. by eapply getN_setN_eq.
      * apply Forall_forall. intros e' He'. rewrite getN_setN_ne.
        { by eapply Forall_forall in H3. }
        intros Hh. apply Hd2. rewrite Hh. by apply elem_of_list_fmap_1.
  - split; [done|]. split; [done|]. cbn. apply length_setN.
Qed.

(** ** Removal *)
Lemma remove_walk_ok s key : forall t f ctx fuel lo0,
  rep (leaf_nodes s) (inner_nodes s) t -> gwf lo0 t -> (gheight t < fuel)%nat ->
  exists f' ctx' h l, plug (f' :: ctx') (GL h l) = plug (f :: ctx) t /\
    h < p31 /\ getN (leaf_nodes s) h = Some l /\
    remove_walk fuel s (parent_of ctx) (not32 (f_i f)) (groot t) (f_b f) key =
      (if lf_key l =? key
       then Ok (Some (mk_remove_pos (parent_of ctx') (not32 (f_i f')) h (f_b f')))
       else Ok None) /\
    (forall lo, gwf lo t -> key ∈ gkeys t -> lf_key l = key).
Proof.
  induction t as [h l|i p k0 l IHl r IHr]; intros f ctx fuel lo0 Hrep Hwf0 Hfuel.
  - destruct fuel as [|fuel]; [lia|]. destruct Hrep as [Hh Hl].
    exists f, ctx, h, l. split; [done|]. split; [done|]. split; [done|]. split.
    + cbn [remove_walk groot]. rewrite is_inner_leaf by done.
      rewrite (rbind_ok _ _ _ (idx_Some _ _ _ Hl)). done.
    + intros lo _ Hk. cbn in Hk. by apply elem_of_list_singleton in Hk.
  - destruct fuel as [|fuel]; [lia|]. cbn [gheight] in Hfuel.
    destruct Hrep as (Hi&Hn&Hl&Hr). cbn [remove_walk groot].
    rewrite is_inner_not32 by done. rewrite not32_not32 by lia.
    rewrite (rbind_ok _ _ _ (idx_Some _ _ _ Hn)).
    destruct Hwf0 as (_&Hp0&_&_&_&Wl0&Wr0).
    rewrite walk_down_lt by (cbn [in_plen]; lia). cbn [in_plen rbind fst snd].
    destruct (IHl (down_frame i p k0 l r false) (f :: ctx) fuel _ Hl Wl0 ltac:(lia))
      as (f1&ctx1&h1&l1&Hp1&Hh1&Hl1&Hw1&Hk1).
    destruct (IHr (down_frame i p k0 l r true) (f :: ctx) fuel _ Hr Wr0 ltac:(lia))
      as (f2&ctx2&h2&l2&Hp2&Hh2&Hl2&Hw2&Hk2).
    destruct (crit p key) eqn:Hb; cbn [child in_c0 in_c1].
    + exists f2, ctx2, h2, l2. split; [exact Hp2|]. split; [done|]. split; [done|].
      split; [exact Hw2|]. intros lo (_&_&_&Kl&Kr&Wl&Wr) Hk.
      rewrite gkeys_GI in Hk. apply elem_of_app in Hk as [Hk|Hk]; [|eauto].
      apply Kl in Hk as [_ Hk]. congruence.
    + exists f1, ctx1, h1, l1. split; [exact Hp1|]. split; [done|]. split; [done|].
      split; [exact Hw1|]. intros lo (_&_&_&Kl&Kr&Wl&Wr) Hk.
      rewrite gkeys_GI in Hk. apply elem_of_app in Hk as [Hk|Hk]; [eauto|].
      apply Kr in Hk as [_ Hk]. congruence.
Qed.

Lemma entry_unique es1 e es2 e' :
  StronglySorted N.lt (map e_key (es1 ++ e :: es2)) -> e' ∈ es1 ++ e :: es2 ->
  @e_key C e' = e_key e -> e' = e.
Proof.
  intros Hs Hin Hk. rewrite map_app in Hs. apply ss_app in Hs as (_&Hs2&Hs3).
  cbn in Hs2, Hs3. inversion Hs2 as [|?? _ Hf]; subst.
  apply elem_of_app in Hin as [Hin|Hin].
  - assert (e_key e' < e_key e); [|lia]. apply Hs3; [by apply elem_of_list_fmap_1|left].
  - apply elem_of_cons in Hin as [->|Hin]; [done|].
    assert (e_key e < e_key e'); [|lia].
    eapply Forall_forall in Hf; [done|]. by apply elem_of_list_fmap_1.
Qed.

(** Splitting around a member of a duplicate-free list. *)
Lemma split_unique {A} (l1 l2 k1 k2 : list A) a :
  NoDup (l1 ++ a :: l2) -> l1 ++ a :: l2 = k1 ++ a :: k2 -> l1 = k1 /\ l2 = k2.
Proof.
  revert k1; induction l1 as [|x l1 IH]; intros k1 Hnd He.
  - destruct k1 as [|y k1]; cbn in *; [by simplify_eq|]. simplify_eq.
    apply NoDup_cons in Hnd as [Hni _]. exfalso. apply Hni. apply elem_of_app. right. left.
  - destruct k1 as [|y k1]; cbn in *; simplify_eq.
    + apply NoDup_cons in Hnd as [Hni _]. exfalso. apply Hni. apply elem_of_app. right. left.
    + apply NoDup_cons in Hnd as [_ Hnd]. destruct (IH k1 Hnd) as [-> ->]; done.
Qed.

Lemma remove_present s es1 e es2 :
  srep s (es1 ++ e :: es2) ->
  exists s', remove_by_key (e_key e) s = (Ok (Some (e_l e, e_c e)), s') /\
    srep s' (es1 ++ es2) /\ same_dims s s' /\ callback_infos s' = callback_infos s.
Proof.
  intros Hs. pose proof (srep_length _ _ Hs) as Hcnt.
  pose proof (srep_sorted _ _ Hs) as Hsort.
  pose proof (srep_handles _ _ Hs) as Hnd.
  destruct (srep_entry _ _ e Hs) as (Hle&Hce&Hlt).
  { apply elem_of_app. right. left. }
  assert (Hcnt0 : (leaf_count (hdr s) =? 0) = false).
  { rewrite app_length in Hcnt. cbn in Hcnt. apply N.eqb_neq. lia. }
  destruct Hs as (ot&fl&ifl&[Hd Ht Hl Hi]&Hes&Hcb).
  destruct ot as [t0|]; [|cbn in Hes; by destruct es1].
  pose proof Hd as [D1 D2 D3]. cbn [oleaves oinners] in *.
  destruct Ht as (Hroot&Hlc&Hrep&Hwf).
  assert (Hkin : e_key e ∈ gkeys t0).
  { unfold gkeys. rewrite <- Hes, map_map, map_app. apply elem_of_app. right. left. }
  destruct t0 as [h l|i p k0 tl tr].
  - (* the root is the leaf *)
    cbn in Hes. assert (es1 = [] /\ es2 = []) as [-> ->].
    { destruct es1 as [|? es1]; cbn in Hes; [|by destruct es1].
      by destruct es2. }
    cbn in Hes. unfold e_hl in Hes. injection Hes as He1 He2. subst h l.
    cbn in Hroot.
    destruct (free_leaf_ok s [e_h e] [] fl (e_h e) Hl D2 (reflexivity _)) as [Hfree Ha'].
    eexists. split.
    { unfold remove_by_key. rewrite bind_get, Hcnt0.
      erewrite bind_lift.
      2:{ rewrite Hroot, is_inner_leaf by (destruct Hrep; done).
          rewrite (rbind_ok _ _ _ (idx_Some _ _ _ Hle)). unfold e_key.
          rewrite N.eqb_refl. reflexivity. }
      cbn beta iota. rewrite Hroot. rewrite (bind_ok _ _ _ _ _ Hfree).
      rewrite bind_get.
      rewrite (bind_ok (put_hdr _) _ _ tt _ eq_refl). rewrite bind_get.
      erewrite bind_lift; [reflexivity|]. unfold get_callback_info. cbn.
      by apply idx_Some. }
    split.
    + exists None, (e_h e :: fl), ifl. split; [|split; [done|constructor]].
      split.
      * split; cbn; rewrite ?freed_leaves_length; done.
      * done.
      * unfold leaf_alloc. cbn. rewrite freed_leaves_length. exact Ha'.
      * exact Hi.
    + split; [|done]. split; [apply freed_leaves_length|done].
  - (* the root is an inner node *)
    cbn in Hrep. destruct Hrep as (Hip&Hn&Hrl&Hrr).
    pose proof Hwf as (_&Hp&Hk0&Kl&Kr&Wl&Wr).
    set (b := crit p (e_key e)).
    set (fr := down_frame i p k0 tl tr b).
    set (tc := if b then tr else tl).
    assert (Hplug0 : plug [fr] tc = GI i p k0 tl tr).
    { unfold fr, tc. cbn. apply plug1_down. }
    assert (Hrc : rep (leaf_nodes s) (inner_nodes s) tc) by (unfold tc; by destruct b).
    assert (Hkc : e_key e ∈ gkeys tc).
    { rewrite gkeys_GI in Hkin. unfold tc. apply elem_of_app in Hkin as [Hk|Hk].
      - destruct (Kl _ Hk) as [_ Hc]. unfold b. rewrite Hc. done.
      - destruct (Kr _ Hk) as [_ Hc]. unfold b. rewrite Hc. done. }
    assert (Hwc : gwf (p + 1) tc) by (unfold tc; by destruct b).
    destruct (remove_walk_ok s (e_key e) tc fr [] walk_fuel _ Hrc Hwc) as
      (f&ctx&h&l&Hpl&Hh&Hlh&Hwalk&Hkl).
    { apply gwf_height in Hwc; unfold walk_fuel; lia. }
    specialize (Hkl _ Hwc Hkc). rewrite Hkl, N.eqb_refl in Hwalk.
    rewrite Hplug0 in Hpl.
    (* identify the leaf found with the entry *)
    assert (Hhl : (h, l) = e_hl e).
    { assert (Hin1 : (h, l) ∈ map e_hl (es1 ++ e :: es2)).
      { rewrite Hes, <- Hpl, gleaves_plug. apply elem_of_app. right. left. }
      apply elem_of_list_fmap_2 in Hin1 as (e'&He'&Hin1). rewrite He'. f_equal.
      eapply entry_unique; [done|done|]. rewrite <- Hkl. unfold e_hl in He'.
      unfold e_key. congruence. }
    unfold e_hl in Hhl. injection Hhl as -> ->.
    (* the tree *)
    assert (Hrep0 : rep (leaf_nodes s) (inner_nodes s) (plug (f :: ctx) (GL (e_h e) (e_l e)))).
    { rewrite Hpl. cbn. done. }
    rewrite <- Hpl in Hwf.
    apply rep_plug in Hrep0 as [Hcr _].
    apply gwf_plug in Hwf as (Hcw&_&_).
    cbn [crep] in Hcr. destruct Hcr as (Hfi&Hfn&Hrs&Hcr).
    cbn [cwf] in Hcw. destruct Hcw as (Hlo&Hfp&Hfk&Hws&Hks&Hcw).
    set (sib := f_sib f) in *.
    set (t1 := plug ctx sib).
    assert (Hinn : ginners (GI i p k0 tl tr) ≡ₚ f_i f :: ginners t1).
    { rewrite <- Hpl, ginners_plug. unfold t1. rewrite ginners_plug. done. }
    assert (Hnd_in : NoDup (f_i f :: ginners sib ++ cinners ctx)).
    { rewrite <- (ginners_plug ctx sib : ginners t1 ≡ₚ _). rewrite <- Hinn.
      by eapply alloc_ok_used_nodup. }
    apply NoDup_cons in Hnd_in as [Hfi_ni Hnd_in].
    assert (Hgl0 : gleaves (GI i p k0 tl tr) ≡ₚ (e_h e, e_l e) :: gleaves t1).
    { rewrite <- Hpl. unfold t1. rewrite !gleaves_plug_perm. cbn [gleaves].
      rewrite (cleaves_cons f ctx). done. }
    assert (Hgl1 : gleaves t1 = map e_hl (es1 ++ es2)).
    { assert (Hsplit : exists k1 k2, gleaves (GI i p k0 tl tr) = k1 ++ (e_h e, e_l e) :: k2 /\
                        gleaves t1 = k1 ++ k2).
      { rewrite <- Hpl. unfold t1. rewrite !gleaves_plug. cbn [gleaves pre post]. fold sib.
        destruct (f_b f).
        - exists (pre ctx ++ gleaves sib), (post ctx). split; by rewrite <- ?app_assoc.
        - exists (pre ctx), (gleaves sib ++ post ctx). rewrite app_nil_r. done. }
      destruct Hsplit as (k1&k2&Hg1&Hg2).
      rewrite Hg1, map_app in Hes. cbn [map] in Hes. unfold e_hl in Hes at 2.
      destruct (split_unique _ _ _ _ _ ltac:(
        rewrite Hes, <- Hg1; eapply (NoDup_fmap_1 fst); by eapply alloc_ok_used_nodup) Hes)
        as [H1 H2].
      by rewrite Hg2, map_app, H1, H2. }
    (* run the code *)
    set (other := groot sib).
    set (I1 := relink (inner_nodes s) ctx other).
    set (s1 := mk_slab (set_root (hdr s) (groot t1)) (leaf_nodes s) I1 (callback_infos s)).
    set (s2 := set_hdr s1 (set_count (hdr s1) (leaf_count (hdr s) - 1))).
    assert (Hl2 : leaf_alloc s2 (map fst (gleaves (GI i p k0 tl tr))) fl) by exact Hl.
    destruct (free_leaf_ok s2 _ (map fst (gleaves t1)) fl (e_h e) Hl2 D2) as [Hfl Hal].
    { by rewrite Hgl0. }
    set (s3 := mk_slab (set_leaf_alloc (hdr s2) (leaf_free_list_len (hdr s2) + 1) (e_h e)
                          (leaf_bump_index (hdr s2)))
                 (freed_leaves s2 (e_h e)) (inner_nodes s2) (callback_infos s2)) in *.
    assert (Hdisj : forall y, y ∈ ifl -> y ∉ cinners ctx).
    { intros y Hy Hy'. eapply alloc_ok_disj; [exact Hi| |exact Hy].
      rewrite Hinn. right. unfold t1. rewrite ginners_plug. apply elem_of_app. by right. }
    assert (Hi3 : inner_alloc s3 (ginners (GI i p k0 tl tr)) ifl).
    { unfold inner_alloc. cbn [s3 s2 s1 set_hdr inner_nodes]. unfold I1.
      rewrite relink_length. eapply alloc_ok_ext; [|exact Hi].
      intros y Hy. unfold inext. rewrite relink_other; [done|]. auto. }
    destruct (free_inner_ok s3 _ (ginners t1) ifl (f_i f) Hi3) as [Hfi' Hia].
    { cbn. unfold I1. rewrite relink_length. lia. }
    { done. }
    set (s4 := mk_slab (set_inner_alloc (hdr s3) (inner_node_free_list_len (hdr s3) + 1) (f_i f)
                          (inner_node_bump_index (hdr s3)))
                 (leaf_nodes s3) (freed_inners s3 (f_i f)) (callback_infos s3)) in *.
    assert (Hrm : remove_by_key (e_key e) s = (Ok (Some (e_l e, e_c e)), s4)).
    { unfold remove_by_key. rewrite bind_get, Hcnt0.
      erewrite bind_lift.
      2:{ rewrite Hroot. cbn [groot]. rewrite is_inner_not32, not32_not32 by lia.
          rewrite (rbind_ok _ _ _ (idx_Some _ _ _ Hn)). rewrite walk_down_lt by (cbn [in_plen]; lia). cbn [in_plen rbind fst snd].
          fold b. reflexivity. }
      cbn beta iota. rewrite Hroot. cbn [groot].
      assert (Hch : child (mk_inner k0 p (groot tl) (groot tr)) b = groot tc)
        by (unfold tc; by destruct b).
      rewrite Hch. cbn [parent_of] in Hwalk.
      replace (f_b fr) with b in Hwalk by done. replace (f_i fr) with i in Hwalk by done.
      rewrite (bind_lift _ _ _ _ Hwalk). cbn [rp_parent rp_bit rp_gp rp_child].
      rewrite not32_not32 by lia.
      rewrite (bind_lift _ _ _ _ (idx_Some _ _ _ Hfn)).
      assert (Hoth : child (mk_inner (f_key f) (f_p f)
                        (if f_b f then groot sib else groot (GL (e_h e) (e_l e)))
                        (if f_b f then groot (GL (e_h e) (e_l e)) else groot sib))
                      (negb (f_b f)) = other) by (by destruct (f_b f)).
      rewrite Hoth.
      assert (Hlink : (match parent_of ctx with
                 | Some (g, b) =>
                     let! gn := lift (idx (inner_nodes s) (not32 g)) in
                     write_inner (not32 g) (set_child gn b other)
                 | None => put_hdr (set_root (hdr s) other)
                 end) s = (Ok tt, s1)).
      { unfold s1, I1, t1. destruct ctx as [|g ctx]; cbn [parent_of relink plug].
        - done.
        - cbn in Hcr. destruct Hcr as (Hg&Hgi&_). rewrite not32_not32 by lia.
          rewrite (bind_lift _ _ _ _ (idx_Some _ _ _ Hgi)).
          rewrite write_inner_ok by (by apply getN_lt in Hgi).
          rewrite set_child_frame. f_equal.
          change (plug ctx (plug1 g sib)) with (plug (g :: ctx) sib).
          rewrite (groot_plug g ctx sib (plug1 f (GL (e_h e) (e_l e)))).
          replace (groot (plug (g :: ctx) (plug1 f (GL (e_h e) (e_l e))))) with (root_node (hdr s)).
          { by destruct s as [[] ? ? ?]. }
          rewrite Hroot, <- Hpl. done. }
      rewrite (bind_ok _ _ _ _ _ Hlink). rewrite bind_get.
      erewrite bind_lift.
      2:{ apply sub_w_ok. cbn. lia. }
      rewrite (bind_ok (put_hdr _) _ _ tt s2 eq_refl).
      cbn [s1 leaf_nodes]. rewrite (bind_lift _ _ _ _ (idx_Some _ _ _ Hle)).
      rewrite (bind_ok _ _ _ _ _ Hfl). fold s3.
      rewrite (bind_ok _ _ _ _ _ Hfi'). fold s4. rewrite bind_get.
      erewrite bind_lift; [reflexivity|]. unfold get_callback_info. cbn. by apply idx_Some. }
    exists s4. split; [done|].
    assert (Hsd : same_dims s s4).
    { split; [|split].
      - cbn. rewrite freed_leaves_length. done.
      - cbn [s4 inner_nodes]. rewrite freed_inners_length. cbn. apply relink_length.
      - done. }
    split; [|done].
    exists (Some t1), (e_h e :: fl), (f_i f :: ifl).
    split; [|split; [done|]].
    + split.
      * by eapply dims_same.
      * cbn [tree_rep]. split; [done|]. split.
        { apply Permutation_length in Hgl0. cbn [length] in Hgl0.
          change (leaf_count (hdr s4)) with (leaf_count (hdr s) - 1). rewrite Hlc, Hgl0. lia. }
        split.
        -- assert (Hr1 : rep (leaf_nodes s) I1 t1).
           { unfold t1. apply rep_plug. split.
             - unfold I1. eapply crep_relink; [|done].
               by apply NoDup_app in Hnd_in as (_&_&?).
             - eapply rep_ext; [| |exact Hrs]; [done|].
               intros j Hj. unfold I1. apply relink_other.
               apply NoDup_app in Hnd_in as (_&Hx&_). auto. }
           eapply rep_ext; [| |exact Hr1].
           ++ intros h' Hh'. cbn [s4 s3 leaf_nodes]. rewrite freed_leaves_other; [done|].
              intros ->. apply alloc_ok_used_nodup in Hl. rewrite Hgl0 in Hl. cbn in Hl.
              by apply NoDup_cons in Hl as [? _].
           ++ intros j Hj. cbn [s4 inner_nodes]. rewrite freed_inners_other; [done|].
              intros ->. apply Hfi_ni. unfold t1 in Hj. by rewrite ginners_plug in Hj.
        -- unfold t1. apply gwf_plug. split; [done|]. split.
           ++ eapply gwf_mono; [|done]. lia.
           ++ intros k Hk. by apply Hks.
      * unfold leaf_alloc. cbn [s4 s3 leaf_nodes]. rewrite freed_leaves_length. exact Hal.
      * unfold inner_alloc. cbn [s4 inner_nodes]. rewrite freed_inners_length. exact Hia.
    + cbn. apply Forall_app in Hcb as [H1 H2]. apply Forall_cons in H2 as [_ H2].
      by apply Forall_app.
Qed.

(** Removing an absent key: exact behaviour.  [stale s es k] is the situation in
    which the code consults slot 0 although it is not in the tree. *)
Definition slot0_key s : option N :=
  match getN (leaf_nodes s) 0 with Some l => Some (lf_key l) | None => None end.
Lemma remove_absent s es k :
  srep s es -> k ∉ map e_key es ->
  remove_by_key k s =
    (if (length es =? 1)%nat && bool_decide (slot0_key s = Some k)
     then Panic PIndex else Ok None, s).
Proof.
  intros Hs Hni. pose proof (srep_length _ _ Hs) as Hcnt.
  destruct Hs as (ot&fl&ifl&[Hd Ht Hl Hi]&Hes&Hcb).
  pose proof Hd as [D1 D2 D3]. unfold remove_by_key. rewrite bind_get.
  destruct ot as [t0|].
  2:{ cbn in Hes, Ht. destruct es; [|done]. rewrite Ht. done. }
  cbn [oleaves oinners] in *. destruct Ht as (Hroot&Hlc&Hrep&Hwf).
  assert (Hkni : k ∉ gkeys t0).
  { unfold gkeys. rewrite <- Hes, map_map. done. }
  assert (Hcnt0 : (leaf_count (hdr s) =? 0) = false).
  { apply N.eqb_neq. rewrite Hlc. pose proof (gleaves_ne t0). destruct (gleaves t0); [done|].
    cbn. lia. }
  rewrite Hcnt0. destruct t0 as [h l|i p k0 tl tr].
  - destruct es as [|e [|]]; cbn in Hes; try done. unfold e_hl in Hes.
    injection Hes as <- <-. cbn in Hkni, Hroot.
    destruct Hrep as [Hh Hlh].
    erewrite bind_lift.
    2:{ rewrite Hroot, is_inner_leaf by done.
        rewrite (rbind_ok _ _ _ (idx_Some _ _ _ Hlh)).
        destruct (N.eqb_spec (lf_key (e_l e)) k) as [He|_]; [exfalso; set_solver|].
        reflexivity. }
    cbn beta iota. cbn [length Nat.eqb andb].
    destruct (getN_is_Some (leaf_nodes s) 0) as [l0 Hl0]; [lia|].
    unfold slot0_key. rewrite Hl0.
    assert (Hwalk : remove_walk walk_fuel s None (root_node (hdr s)) 0 false k =
              if lf_key l0 =? k
              then Ok (Some (mk_remove_pos None (root_node (hdr s)) 0 false)) else Ok None).
    { unfold walk_fuel. cbn [remove_walk]. rewrite is_inner_leaf by lia.
      rewrite (rbind_ok _ _ _ (idx_Some _ _ _ Hl0)). done. }
    destruct (N.eqb_spec (lf_key l0) k) as [He|He].
    + rewrite (bind_lift _ _ _ _ Hwalk). cbn [rp_parent rp_bit rp_gp rp_child].
      rewrite Hroot. rewrite bool_decide_true by (by rewrite He).
      assert (Hnone : idx (inner_nodes s) (not32 (e_h e)) = Panic PIndex).
      { unfold idx, getN, not32.
        destruct (N.ltb_spec (p32 - 1 - e_h e) (N.of_nat (length (inner_nodes s)))); [lia|done]. }
      apply bind_panic. unfold lift. by rewrite Hnone.
    + rewrite (bind_lift _ _ _ _ Hwalk). rewrite bool_decide_false by congruence. done.
  - cbn in Hrep. destruct Hrep as (Hip&Hn&Hrl&Hrr).
    assert (Hlen : (length es =? 1)%nat = false).
    { apply Nat.eqb_neq. rewrite <- (map_length e_hl es), Hes. cbn. rewrite app_length.
      pose proof (gleaves_ne tl). pose proof (gleaves_ne tr).
      destruct (gleaves tl), (gleaves tr); cbn; try done; lia. }
    rewrite Hlen. cbn [andb].
    pose proof Hwf as (_&Hp&Hk0&Kl&Kr&Wl&Wr).
    set (b := crit p k).
    set (fr := down_frame i p k0 tl tr b).
    set (tc := if b then tr else tl).
    assert (Hrc : rep (leaf_nodes s) (inner_nodes s) tc) by (unfold tc; by destruct b).
    assert (Hwc : gwf (p + 1) tc) by (unfold tc; by destruct b).
    destruct (remove_walk_ok s k tc fr [] walk_fuel _ Hrc Hwc) as
      (f&ctx&h&l&Hpl&Hh&Hlh&Hwalk&_).
    { apply gwf_height in Hwc; unfold walk_fuel; lia. }
    assert (Hplug0 : plug [fr] tc = GI i p k0 tl tr).
    { unfold fr, tc. cbn. apply plug1_down. }
    rewrite Hplug0 in Hpl.
    destruct (N.eqb_spec (lf_key l) k) as [He|He].
    { exfalso. apply Hkni. rewrite <- Hpl. unfold gkeys. rewrite gleaves_plug, !map_app.
      apply elem_of_app. right. cbn. rewrite He. left. }
    erewrite bind_lift.
    2:{ rewrite Hroot. cbn [groot]. rewrite is_inner_not32, not32_not32 by lia.
        rewrite (rbind_ok _ _ _ (idx_Some _ _ _ Hn)). rewrite walk_down_lt by (cbn [in_plen]; lia). cbn [in_plen rbind fst snd].
        fold b. reflexivity. }
    cbn beta iota. rewrite Hroot. cbn [groot].
    assert (Hch : child (mk_inner k0 p (groot tl) (groot tr)) b = groot tc)
      by (unfold tc; by destruct b).
    rewrite Hch. cbn [parent_of] in Hwalk.
    replace (f_b fr) with b in Hwalk by done. replace (f_i fr) with i in Hwalk by done.
    rewrite (bind_lift _ _ _ _ Hwalk). done.
Qed.

(** ** Minimum and maximum *)
Lemma min_max_walk_ok s mx : forall t fuel,
  rep (leaf_nodes s) (inner_nodes s) t -> (gheight t < fuel)%nat ->
  exists h l, min_max_walk fuel s mx (groot t) = Ok h /\
    (if mx then last (gleaves t) else head (gleaves t)) = Some (h, l).
Proof.
  induction t as [h l|i p k0 l IHl r IHr]; intros fuel Hrep Hfuel;
    (destruct fuel as [|fuel]; [lia|]); cbn [min_max_walk groot].
  - destruct Hrep as [Hh Hl]. rewrite is_inner_leaf by done. exists h, l.
    split; [done|]. by destruct mx.
  - destruct Hrep as (Hi&Hn&Hl&Hr). cbn [gheight] in Hfuel.
    rewrite is_inner_not32 by done. rewrite not32_not32 by lia.
    rewrite (rbind_ok _ _ _ (idx_Some _ _ _ Hn)). cbn [gleaves].
    destruct mx; cbn [child in_c0 in_c1].
    + destruct (IHr fuel Hr) as (h&l'&?&?); [lia|]. exists h, l'. split; [done|].
      rewrite last_app. by rewrite H0.
    + destruct (IHl fuel Hl) as (h&l'&?&?); [lia|]. exists h, l'. split; [done|].
      pose proof (gleaves_ne l). by destruct (gleaves l).
Qed.

Lemma find_min_max_ok s es mx : srep s es ->
  find_min_max s mx = Ok (e_h <$> (if mx then last es else head es)).
Proof.
  intros (ot&fl&ifl&[Hd Ht Hl Hi]&Hes&Hcb). unfold find_min_max.
  destruct ot as [t|]; cbn in *.
  - destruct Ht as (Hroot&Hlc&Hrep&Hwf). rewrite Hroot.
    destruct (N.eqb_spec (leaf_count (hdr s)) 0) as [Hz|_].
    { exfalso. pose proof (gleaves_ne t). destruct (gleaves t); [done|]. cbn in Hlc. lia. }
    destruct (min_max_walk_ok s mx t walk_fuel Hrep) as (h&l&Hw&Hg); [by apply gwf_fuel|].
    rewrite (rbind_ok _ _ _ Hw). rewrite <- Hes in Hg. f_equal.
    destruct mx.
    + change (map e_hl es) with (e_hl <$> es) in Hg. rewrite fmap_last in Hg.
      destruct (last es) as [e|]; [|done]. cbn in *. unfold e_hl in Hg. congruence.
    + destruct es as [|e es]; [done|]. cbn in *. unfold e_hl in Hg. congruence.
  - rewrite Ht. destruct es; [|done]. by destruct mx.
Qed.

(** ** Searching by key *)
Lemma find_walk_ok s k : k < p128 -> forall t lo fuel,
  rep (leaf_nodes s) (inner_nodes s) t -> gwf lo t -> (gheight t < fuel)%nat ->
  (exists h l, find_walk fuel s (groot t) k = Ok (Some h) /\ (h, l) ∈ gleaves t /\ lf_key l = k) \/
  (find_walk fuel s (groot t) k = Ok None /\ k ∉ gkeys t).
Proof.
  intros Hk. induction t as [h l|i p k0 l IHl r IHr]; intros lo fuel Hrep Hwf Hfuel;
    (destruct fuel as [|fuel]; [lia|]); cbn [find_walk groot].
  - destruct Hrep as [Hh Hl]. rewrite is_inner_leaf by done.
    rewrite (rbind_ok _ _ _ (idx_Some _ _ _ Hl)).
    destruct (N.eqb_spec k (lf_key l)) as [He|He].
    + left. exists h, l. split; [done|]. split; [cbn; left|done].
    + right. split; [done|]. cbn. by rewrite elem_of_list_singleton.
  - destruct Hrep as (Hi&Hn&Hl&Hr). cbn [gheight] in Hfuel.
    destruct Hwf as (Hlo&Hp&Hk0&Kl&Kr&Wl&Wr).
    rewrite is_inner_not32 by done. rewrite not32_not32 by lia.
    rewrite (rbind_ok _ _ _ (idx_Some _ _ _ Hn)). cbn [in_key in_plen].
    rewrite as_u32_small by lia.
    destruct (N.ltb_spec (lz128 (N.lxor k k0)) p) as [Hlt|Hge].
    + right. split; [done|]. rewrite gkeys_GI, elem_of_app. intros Hin.
      assert (Hag : agree p k0 k) by (destruct Hin as [Hin|Hin]; [by apply Kl|by apply Kr]).
      apply agree_sym in Hag. apply lz_agree in Hag; [|done|done|lia]. lia.
    + rewrite walk_down_lt by (cbn [in_plen]; lia). cbn [in_plen rbind fst snd].
      destruct (crit p k) eqn:Hb; cbn [child in_c0 in_c1].
      * destruct (IHr (p + 1) fuel Hr Wr) as [(h&l'&?&?&?)|[? Hni]]; [lia| |].
        -- left. exists h, l'. split; [done|]. split; [|done]. cbn. apply elem_of_app. by right.
        -- right. split; [done|]. rewrite gkeys_GI, elem_of_app. intros [Hin|Hin]; [|done].
           apply Kl in Hin as [_ Hc]. congruence.
      * destruct (IHl (p + 1) fuel Hl Wl) as [(h&l'&?&?&?)|[? Hni]]; [lia| |].
        -- left. exists h, l'. split; [done|]. split; [|done]. cbn. apply elem_of_app. by left.
        -- right. split; [done|]. rewrite gkeys_GI, elem_of_app. intros [Hin|Hin]; [done|].
           apply Kr in Hin as [_ Hc]. congruence.
Qed.
Lemma find_by_key_ok s es k : srep s es -> k < p128 ->
  (exists e, e ∈ es /\ e_key e = k /\ find_by_key s k = Ok (Some (e_h e))) \/
  (k ∉ map e_key es /\ find_by_key s k = Ok None).
Proof.
  intros (ot&fl&ifl&[Hd Ht Hl Hi]&Hes&Hcb) Hk. unfold find_by_key, root.
  destruct ot as [t|]; cbn in *.
  - destruct Ht as (Hroot&Hlc&Hrep&Hwf). rewrite Hroot.
    destruct (N.eqb_spec (leaf_count (hdr s)) 0) as [Hz|_].
    { exfalso. pose proof (gleaves_ne t). destruct (gleaves t); [done|]. cbn in Hlc. lia. }
    destruct (find_walk_ok s k Hk t 0 walk_fuel Hrep Hwf) as [(h&l&Hw&Hin&Hkl)|[Hw Hni]];
      [by apply gwf_fuel| |].
    + left. rewrite <- Hes in Hin. apply elem_of_list_fmap_2 in Hin as (e&He&Hin).
      unfold e_hl in He. injection He as -> ->. exists e. done.
    + right. split; [|done]. intros Hin. apply Hni. unfold gkeys. by rewrite <- Hes, map_map.
  - right. rewrite Ht. destruct es; [|done]. split; [|done]. cbn. apply not_elem_of_nil.
Qed.

(** ** Traversal *)
Definition e_order (e : ent) : leaf * C := (e_l e, e_c e).

Lemma walk_rec_ok s es : Forall (fun e => getN (callback_infos s) (e_h e) = Some (e_c e)) es ->
  forall t fuel, rep (leaf_nodes s) (inner_nodes s) t -> (gheight t < fuel)%nat ->
  map e_hl es = gleaves t -> walk_rec fuel s (groot t) = Ok (map e_order es).
Proof.
  intros Hcb t. revert es Hcb.
  induction t as [h l|i p k0 l IHl r IHr]; intros es Hcb fuel Hrep Hfuel Hes;
    (destruct fuel as [|fuel]; [lia|]); cbn [walk_rec groot].
  - destruct Hrep as [Hh Hl]. rewrite is_inner_leaf by done.
    cbn in Hes. destruct es as [|e [|]]; cbn in Hes; try done.
    apply Forall_cons in Hcb as [Hc _]. unfold e_hl in Hes. injection Hes as <- <-.
    unfold get_callback_info.
    rewrite (rbind_ok _ _ _ (idx_Some _ _ _ Hc)), (rbind_ok _ _ _ (idx_Some _ _ _ Hl)). done.
  - destruct Hrep as (Hi&Hn&Hl&Hr). cbn [gheight] in Hfuel.
    rewrite is_inner_not32 by done. rewrite not32_not32 by lia.
    rewrite (rbind_ok _ _ _ (idx_Some _ _ _ Hn)). cbn [in_c0 in_c1].
    cbn in Hes. apply map_app_split in Hes as (es1&es2&->&He1&He2).
    apply Forall_app in Hcb as [Hc1 Hc2].
    rewrite (rbind_ok _ _ _ (IHl es1 Hc1 fuel Hl ltac:(lia) He1)).
    rewrite (rbind_ok _ _ _ (IHr es2 Hc2 fuel Hr ltac:(lia) He2)).
    by rewrite map_app.
Qed.
Lemma traverse_ok s es : srep s es -> traverse s = Ok (map e_order es).
Proof.
  intros (ot&fl&ifl&[Hd Ht Hl Hi]&Hes&Hcb). unfold traverse, root.
  destruct ot as [t|]; cbn [oleaves oinners tree_rep] in *.
  - destruct Ht as (Hroot&Hlc&Hrep&Hwf). rewrite Hroot.
    destruct (N.eqb_spec (leaf_count (hdr s)) 0) as [Hz|_].
    { exfalso. pose proof (gleaves_ne t). destruct (gleaves t); [done|]. cbn in Hlc. lia. }
    apply walk_rec_ok; [done|done|by apply gwf_fuel|done].
  - rewrite Ht. destruct es; done.
Qed.

(** ** The iterator *)
Definition gsize (t : gtree) : nat := length (gleaves t) + length (ginners t).
(** A stack of subtrees, as the iterator holds them. *)
Definition srank (ts : list gtree) : nat := sum_list_with gsize ts.
Definition dir_leaves (asc : bool) (t : gtree) : list (N * leaf) :=
  if asc then gleaves t else rev (gleaves t).
Definition sleaves (asc : bool) (ts : list gtree) : list (N * leaf) :=
  concat (map (dir_leaves asc) ts).

Lemma iter_next_ok s asc : forall fuel ts,
  Forall (rep (leaf_nodes s) (inner_nodes s)) ts -> (srank ts < fuel)%nat ->
  match sleaves asc ts with
  | [] => iter_next fuel s asc (map groot ts) = Ok (None, [])
  | (h, l) :: rest =>
      exists ts', iter_next fuel s asc (map groot ts) = Ok (Some l, map groot ts') /\
        Forall (rep (leaf_nodes s) (inner_nodes s)) ts' /\ sleaves asc ts' = rest /\
        (srank ts' < srank ts)%nat
  end.
Proof.
  induction fuel as [|fuel IH]; intros ts Hts Hf; [lia|].
  destruct ts as [|t ts]; [done|].
  apply Forall_cons in Hts as [Ht Hts]. cbn [map iter_next].
  destruct t as [h l|i p k0 l r].
  - destruct Ht as [Hh Hl]. cbn [groot]. rewrite is_inner_leaf by done.
    rewrite (rbind_ok _ _ _ (idx_Some _ _ _ Hl)).
    assert (sleaves asc (GL h l :: ts) = (h, l) :: sleaves asc ts) as ->
      by (unfold sleaves; cbn; by destruct asc).
    exists ts. split; [done|]. split; [done|]. split; [done|]. unfold srank, gsize. cbn. lia.
  - destruct Ht as (Hi&Hn&Hl&Hr). cbn [groot].
    rewrite is_inner_not32 by done. rewrite not32_not32 by lia.
    rewrite (rbind_ok _ _ _ (idx_Some _ _ _ Hn)).
    set (ts2 := if asc then l :: r :: ts else r :: l :: ts).
    assert (Hs2 : sleaves asc (GI i p k0 l r :: ts) = sleaves asc ts2).
    { unfold sleaves, ts2. destruct asc; cbn; rewrite ?rev_app_distr, <- ?app_assoc; done. }
    assert (Hr2 : srank (GI i p k0 l r :: ts) = S (srank ts2)).
    { unfold srank, ts2, gsize. destruct asc; cbn; rewrite !app_length; lia. }
    assert (Hst : child (mk_inner k0 p (groot l) (groot r)) (negb asc)
                  :: child (mk_inner k0 p (groot l) (groot r)) asc :: map groot ts =
                  map groot ts2) by (unfold ts2; by destruct asc).
    rewrite Hst, Hs2. specialize (IH ts2).
    destruct (sleaves asc ts2) as [|[h' l'] rest].
    + apply IH; [unfold ts2; destruct asc; by repeat constructor|lia].
    + destruct IH as (ts'&?&?&?&?);
        [unfold ts2; destruct asc; by repeat constructor|lia|].
      exists ts'. split; [done|]. split; [done|]. split; [done|]. lia.
Qed.
Lemma iter_collect_ok s asc : forall fuel ts,
  Forall (rep (leaf_nodes s) (inner_nodes s)) ts -> (srank ts < fuel)%nat ->
  iter_collect fuel s asc (map groot ts) = Ok (map snd (sleaves asc ts)).
Proof.
  induction fuel as [|fuel IH]; intros ts Hts Hf; [lia|].
  cbn [iter_collect]. pose proof (iter_next_ok s asc (S fuel) ts Hts Hf) as H.
  destruct (sleaves asc ts) as [|[h l] rest].
  - rewrite (rbind_ok _ _ _ H). done.
  - destruct H as (ts'&H1&H2&H3&H4). rewrite (rbind_ok _ _ _ H1).
    rewrite (rbind_ok _ _ _ (IH ts' H2 ltac:(lia))). by rewrite H3.
Qed.
Lemma iterate_ok s es asc : srep s es ->
  iterate s asc = Ok (if asc then map e_l es else rev (map e_l es)).
Proof.
  intros Hs. pose proof (srep_le_cap _ _ Hs) as Hcap.
  destruct Hs as (ot&fl&ifl&[Hd Ht Hl Hi]&Hes&Hcb). unfold iterate.
  destruct ot as [t|]; cbn [oleaves oinners tree_rep] in *.
  - destruct Ht as (Hroot&Hlc&Hrep&Hwf). rewrite Hroot.
    destruct (N.eqb_spec (leaf_count (hdr s)) 0) as [Hz|_].
    { exfalso. pose proof (gleaves_ne t). destruct (gleaves t); [done|]. cbn in Hlc. lia. }
    change [groot t] with (map groot [t]). rewrite iter_collect_ok.
    + f_equal. unfold sleaves. cbn. rewrite app_nil_r. unfold dir_leaves. rewrite <- Hes.
      destruct asc; rewrite ?map_rev, map_map; done.
    + by repeat constructor.
    + unfold srank, gsize. cbn. pose proof (ginners_length t).
      assert (length (gleaves t) <= length (leaf_nodes s))%nat; [|lia].
      by rewrite <- Hes, map_length.
  - rewrite Ht. destruct es; [|done]. cbn [N.eqb].
    rewrite (iter_collect_ok s asc _ []); [by destruct asc|constructor|cbn; lia].
Qed.
End SlabProofs2.
