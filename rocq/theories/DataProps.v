(** * DataProps.v: slabs are finite maps, queues are lists (C01-C10) *)
From stdpp Require Import gmap.
From Verif Require Import Machine Bytes Critbit EventQueue DataSpec MachineProofs TreeProofs
  SlabProofs SlabProofs2 QueueProofs.
From Coq Require Import ZifyBool ZifyNat ZifyN.
From Coq Require Import Sorting.Sorted.

Section SlabProps.
Context {C : Type}.
Implicit Types s : slab C.
Implicit Types es : list (@ent C).
Implicit Types mp : omap_t C.

Definition e_pair (e : @ent C) : N * (N * C) := (e_key e, (lf_qty (e_l e), e_c e)).
Definition to_map es : omap_t C := list_to_map (map e_pair es).

Lemma e_pair_keys es : (map e_pair es).*1 = map e_key es.
Proof. induction es; cbn; congruence. Qed.
Lemma srep_nodup s es : srep s es -> NoDup (map e_key es).
Proof.
  intros Hs. pose proof (srep_sorted _ _ Hs) as H. induction H as [|k l H IH Hf]; [constructor|].
  constructor; [|done]. intros Hin. apply (proj1 (Forall_forall _ _) Hf) in Hin. lia.
Qed.
Lemma to_map_lookup es k v : NoDup (map e_key es) ->
  to_map es !! k = Some v <-> exists e, e ∈ es /\ e_key e = k /\ (lf_qty (e_l e), e_c e) = v.
Proof.
  intros Hnd. unfold to_map. rewrite <- elem_of_list_to_map by by rewrite e_pair_keys.
  rewrite elem_of_list_In, in_map_iff. split.
  - intros (e&He&Hin). exists e. rewrite elem_of_list_In. unfold e_pair in He. by simplify_eq.
  - intros (e&Hin&<-&<-). exists e. rewrite elem_of_list_In in Hin. done.
Qed.
Lemma to_map_None es k : NoDup (map e_key es) -> to_map es !! k = None <-> k ∉ map e_key es.
Proof.
  intros Hnd. split.
  - intros Hn Hin. apply elem_of_list_fmap in Hin as (e&->&Hin).
    assert (to_map es !! e_key e = Some (lf_qty (e_l e), e_c e)); [|congruence].
    apply to_map_lookup; eauto.
  - intros Hni. destruct (to_map es !! k) as [v|] eqn:Hv; [|done]. exfalso. apply Hni.
    apply to_map_lookup in Hv as (e&He&<-&_); [|done]. by apply elem_of_list_fmap_1.
Qed.
Lemma to_map_size es : NoDup (map e_key es) -> size (to_map es) = length es.
Proof.
  intros Hnd. unfold size, map_size, to_map. rewrite map_to_list_to_map by by rewrite e_pair_keys.
  by rewrite map_length.
Qed.
Lemma to_map_mid es1 e es2 : NoDup (map e_key (es1 ++ e :: es2)) ->
  to_map (es1 ++ e :: es2) = <[e_key e := (lf_qty (e_l e), e_c e)]> (to_map (es1 ++ es2)).
Proof.
  intros Hnd. unfold to_map. rewrite (list_to_map_proper _ (map e_pair (e :: es1 ++ es2))).
  - done.
  - by rewrite e_pair_keys.
  - by rewrite Permutation_middle.
Qed.
Lemma mid_keys es1 e es2 : NoDup (map (@e_key C) (es1 ++ e :: es2)) ->
  e_key e ∉ map e_key (es1 ++ es2) /\ NoDup (map e_key (es1 ++ es2)).
Proof.
  assert (Hp : map e_key (es1 ++ e :: es2) ≡ₚ e_key e :: map e_key (es1 ++ es2)).
  { change (e_key e :: map e_key (es1 ++ es2)) with (map e_key (e :: es1 ++ es2)).
    apply Permutation_map. by rewrite Permutation_middle. }
  rewrite Hp. intros H. by apply NoDup_cons in H.
Qed.

(** The state of a run. *)
Definition sinv (n : nat) s mp : Prop :=
  exists es, srep s es /\ mp = to_map es /\ length (leaf_nodes s) = n.

Lemma sinv_size n s es : srep s es -> length (leaf_nodes s) = n -> (length es <= n)%nat.
Proof. intros H <-. by apply srep_le_cap. Qed.

(** A present key, with its entry. *)
Lemma present_split s es k q c : srep s es -> to_map es !! k = Some (q, c) ->
  exists es1 e es2, es = es1 ++ e :: es2 /\ e_key e = k /\ lf_qty (e_l e) = q /\ e_c e = c.
Proof.
  intros Hs Hk. apply to_map_lookup in Hk as (e&He&Hke&Hv); [|by eapply srep_nodup].
  apply elem_of_list_split in He as (es1&es2&->). exists es1, e, es2. by simplify_eq.
Qed.
Lemma find_present s es1 e es2 : srep s (es1 ++ e :: es2) -> find_by_key s (e_key e) = Ok (Some (e_h e)).
Proof.
  intros Hs. assert (He : e ∈ es1 ++ e :: es2) by (apply elem_of_app; right; left).
  destruct (find_by_key_ok _ _ (e_key e) Hs) as [(e'&He'&Hk&Hf)|[Hni _]].
  - by eapply srep_key_lt.
  - rewrite Hf. do 2 f_equal. f_equal. eapply entry_unique; [by eapply srep_sorted|done|done].
  - exfalso. apply Hni. by apply elem_of_list_fmap_1.
Qed.
Lemma leaf_eta (l : leaf) : mk_leaf (lf_key l) (lf_qty l) = l.
Proof. by destruct l. Qed.

Lemma sinv_update n s es1 e es2 s' e' : srep s (es1 ++ e :: es2) -> length (leaf_nodes s) = n ->
  srep s' (es1 ++ e' :: es2) -> same_dims s s' -> e_key e' = e_key e ->
  sinv n s' (<[e_key e := (lf_qty (e_l e'), e_c e')]> (to_map (es1 ++ e :: es2))).
Proof.
  intros Hs Hn Hs' (Hd&_) Hk. exists (es1 ++ e' :: es2). split; [done|].
  pose proof (srep_nodup _ _ Hs) as Hnd. pose proof (srep_nodup _ _ Hs') as Hnd'.
  split; [|by rewrite Hd].
  rewrite (to_map_mid _ _ _ Hnd), (to_map_mid _ _ _ Hnd'), Hk. by rewrite insert_insert.
Qed.

Lemma slab_exec_ok n s mp o : sinv n s mp -> slab_op_typed o ->
  exists s', (slab_exec o s = (fst (map_exec n o mp), s') /\ sinv n s' (snd (map_exec n o mp)) /\
              (is_ok (fst (map_exec n o mp)) = false -> s' = s)) \/
    (exists k, o = SRemove k /\ mp !! k = None /\ size mp = 1%nat /\ slot0_key s = Some k /\
       slab_exec o s = (Panic PIndex, s)).
Proof.
  intros (es&Hs&->&Hn) Hty. pose proof (srep_nodup _ _ Hs) as Hnd.
  destruct o as [k q c|k q|k c|k]; cbn [map_exec slab_op_typed] in *.
  - destruct (to_map es !! k) as [[q0 c0]|] eqn:Hk.
    + destruct (present_split _ _ _ _ _ Hs Hk) as (es1&e&es2&->&<-&<-&<-).
      destruct (insert_clobber_srep _ _ _ _ (mk_leaf (e_key e) q) Hs eq_refl) as (s1&H1&Hs1&Hd1&_).
      destruct (set_callback_srep _ _ _ _ c Hs1) as (s2&H2&Hs2&Hd2). exists s2. left. split_and!.
      * cbn [slab_exec fst]. rewrite (bind_ok _ _ _ _ _ H1). cbn [fst snd].
        cbn [e_h] in H2. rewrite (bind_ok _ _ _ _ _ H2). done.
      * cbn [snd]. cbn [e_h e_l] in Hs2. eapply (sinv_update n s es1 e es2 s2 _ Hs Hn Hs2); [|done].
        by eapply same_dims_trans.
      * done.
    + apply to_map_None in Hk as Hni; [|done]. rewrite to_map_size by done.
      destruct (Nat.ltb_spec (length es) n) as [Hlt|Hge].
      * destruct (insert_fresh s es (mk_leaf k q) Hs Hty Hni ltac:(lia))
          as (h&c0&es1&es2&s1&->&H1&Hs1&Hd1&_).
        destruct (set_callback_srep _ _ _ _ c Hs1) as (s2&H2&Hs2&Hd2). exists s2. left. split_and!.
        -- cbn [slab_exec fst]. rewrite (bind_ok _ _ _ _ _ H1). cbn [fst snd].
           cbn [e_h] in H2. rewrite (bind_ok _ _ _ _ _ H2). done.
        -- cbn [snd]. cbn [e_h e_l] in Hs2. eexists. split; [exact Hs2|].
           destruct Hd1 as (Hd1&_), Hd2 as (Hd2&_). split; [|by rewrite Hd2, Hd1].
           rewrite to_map_mid by by eapply srep_nodup. done.
        -- done.
      * pose proof (sinv_size _ _ _ Hs Hn). exists s. left. split_and!; [|by exists es|done].
        cbn [slab_exec fst]. erewrite bind_err; [done|]. eapply insert_full; [done|done|done|lia].
  - destruct (to_map es !! k) as [[q0 c0]|] eqn:Hk.
    + destruct (present_split _ _ _ _ _ Hs Hk) as (es1&e&es2&->&<-&<-&<-).
      destruct (srep_entry _ _ e Hs) as (Hle&_); [apply elem_of_app; right; left|].
      destruct (write_leaf_srep _ _ _ _ (mk_leaf (e_key e) q) Hs eq_refl) as (s1&H1&Hs1&Hd1&_).
      exists s1. left. split_and!.
      * cbn [slab_exec fst]. rewrite bind_get, (find_present _ _ _ _ Hs).
        erewrite bind_lift by reflexivity. cbv beta iota. erewrite bind_lift by (unfold idx; by rewrite Hle).
        by rewrite (bind_ok _ _ _ _ _ H1).
      * cbn [snd]. by eapply (sinv_update n s es1 e es2 s1 _ Hs Hn Hs1).
      * done.
    + apply to_map_None in Hk; [|done]. exists s. left. split_and!; [|by exists es|done].
      cbn [slab_exec fst]. rewrite bind_get.
      destruct (find_by_key_ok _ _ k Hs Hty) as [(e&He&<-&_)|[_ Hf]].
      { exfalso. apply Hk. by apply elem_of_list_fmap_1. }
      rewrite Hf. by erewrite bind_lift by reflexivity.
  - destruct (to_map es !! k) as [[q0 c0]|] eqn:Hk.
    + destruct (present_split _ _ _ _ _ Hs Hk) as (es1&e&es2&->&<-&<-&<-).
      destruct (set_callback_srep _ _ _ _ c Hs) as (s1&H1&Hs1&Hd1). exists s1. left. split_and!.
      * cbn [slab_exec fst]. rewrite bind_get, (find_present _ _ _ _ Hs).
        erewrite bind_lift by reflexivity. cbv beta iota. by rewrite (bind_ok _ _ _ _ _ H1).
      * cbn [snd]. by eapply (sinv_update n s es1 e es2 s1 _ Hs Hn Hs1).
      * done.
    + apply to_map_None in Hk; [|done]. exists s. left. split_and!; [|by exists es|done].
      cbn [slab_exec fst]. rewrite bind_get.
      destruct (find_by_key_ok _ _ k Hs Hty) as [(e&He&<-&_)|[_ Hf]].
      { exfalso. apply Hk. by apply elem_of_list_fmap_1. }
      rewrite Hf. by erewrite bind_lift by reflexivity.
  - destruct (to_map es !! k) as [[q0 c0]|] eqn:Hk.
    + destruct (present_split _ _ _ _ _ Hs Hk) as (es1&e&es2&->&<-&<-&<-).
      destruct (remove_present _ _ _ _ Hs) as (s1&H1&Hs1&(Hd1&_)&_). exists s1. left. split_and!.
      * cbn [slab_exec fst]. by rewrite (bind_ok _ _ _ _ _ H1).
      * cbn [snd]. exists (es1 ++ es2). split; [done|]. split; [|by rewrite Hd1].
        rewrite to_map_mid by done. destruct (mid_keys _ _ _ Hnd) as [Hni Hnd'].
        rewrite delete_insert; [done|]. by apply to_map_None.
      * done.
    + apply to_map_None in Hk as Hni; [|done].
      pose proof (remove_absent _ _ _ Hs Hni) as Hrm.
      destruct (Nat.eqb_spec (length es) 1) as [Hone|Hone]; cbn [andb] in Hrm;
        [case_bool_decide as Hs0|].
      * exists s. right. exists k. rewrite to_map_size by done. split_and!; try done.
        cbn [slab_exec]. unfold bind. by rewrite Hrm.
      * exists s. left. split_and!; [|by exists es|done]. cbn [slab_exec fst].
        by rewrite (bind_ok _ _ _ _ _ Hrm).
      * exists s. left. split_and!; [|by exists es|done]. cbn [slab_exec fst].
        by rewrite (bind_ok _ _ _ _ _ Hrm).
Qed.

Lemma map_run_snoc n os (o : slab_op C) :
  map_run n (os ++ [o]) =
    (fst (map_run n os) ++ [fst (map_exec n o (snd (map_run n os)))],
     snd (map_exec n o (snd (map_run n os)))).
Proof.
  unfold map_run. rewrite fold_left_app. cbn. destruct (fold_left _ os _) as [rs mp]. cbn.
  by destruct (map_exec n o mp).
Qed.

Lemma slab_run_sinv z n x log s : (1 <= n)%nat -> N.of_nat n <= p31 -> slab_run z n x log s ->
  fst (map_run n (map fst log)) = map snd log /\ sinv n s (snd (map_run n (map fst log))).
Proof.
  intros Hn1 Hn2. induction 1 as [|log s o r s' Hrun [IH1 IH2] Hty He Hp].
  - split; [done|]. exists []. split; [by apply empty_srep|]. split; [done|].
    cbn. by rewrite replicate_length.
  - rewrite !map_app. cbn [map fst snd]. rewrite map_run_snoc. cbn [fst snd].
    destruct (slab_exec_ok _ _ _ _ IH2 Hty) as (s1&[(H1&H2&_)|(k&->&_&_&_&H1)]).
    + rewrite H1 in He. simplify_eq. by rewrite IH1.
    + rewrite H1 in He. simplify_eq. by destruct (Hp PIndex).
Qed.

Lemma sinv_shows n s mp : sinv n s mp -> shows s mp.
Proof.
  intros (es&Hs&->&Hn). pose proof (srep_nodup _ _ Hs) as Hnd. exists (map e_order es).
  split; [by apply traverse_ok|]. split_and!.
  - rewrite map_map. by apply srep_sorted in Hs.
  - intros k q c. rewrite to_map_lookup by done. rewrite elem_of_list_In, in_map_iff. split.
    + intros (e&He&Hin). exists e. rewrite elem_of_list_In. unfold e_order in He.
      injection He as Hl Hc. split; [done|]. unfold e_key. by rewrite Hl, Hc.
    + intros (e&Hin&Hk&Hv). exists e. rewrite <- elem_of_list_In. simplify_eq.
      split; [|done]. unfold e_order, e_key. by rewrite leaf_eta.
  - rewrite (srep_length _ _ Hs). by rewrite to_map_size.
Qed.

(** ** Reads *)
Lemma entry_designates s es e : srep s es -> e ∈ es ->
  designates s (e_h e) (e_key e) (lf_qty (e_l e)) (e_c e).
Proof.
  intros Hs He. destruct (srep_entry _ _ _ Hs He) as (H1&H2&_). split; [|done].
  unfold e_key. by rewrite leaf_eta.
Qed.
Lemma ss_head_min es e x : StronglySorted N.lt (map (@e_key C) es) -> head es = Some e -> x ∈ es ->
  e_key e <= e_key x.
Proof.
  intros Hs Hh Hx. destruct es as [|e0 es]; [done|]. cbn in *. simplify_eq.
  apply StronglySorted_inv in Hs as [_ Hf]. apply elem_of_cons in Hx as [->|Hx]; [done|].
  assert (e_key x ∈ map e_key es) as Hin by by apply elem_of_list_fmap_1.
  apply (proj1 (Forall_forall _ _) Hf) in Hin. lia.
Qed.
Lemma ss_last_max es e x : StronglySorted N.lt (map (@e_key C) es) -> last es = Some e -> x ∈ es ->
  e_key x <= e_key e.
Proof.
  intros Hs Hl Hx. apply last_Some in Hl as (es'&->). rewrite map_app in Hs.
  apply ss_app in Hs as (_&_&H). apply elem_of_app in Hx as [Hx|Hx].
  - cbn in H. assert (e_key x ∈ map e_key es') as Hin by by apply elem_of_list_fmap_1.
    specialize (H (e_key x) (e_key e)). cut (e_key x < e_key e); [lia|]. apply H; [done|left].
  - apply elem_of_list_singleton in Hx as ->. done.
Qed.

Lemma find_extreme n s mp mx : sinv n s mp ->
  (mp = ∅ /\ find_min_max s mx = Ok None) \/
  (exists h k q c, find_min_max s mx = Ok (Some h) /\ mp !! k = Some (q, c) /\ designates s h k q c /\
     forall k', is_Some (mp !! k') -> if mx then k' <= k else k <= k').
Proof.
  intros (es&Hs&->&Hn). pose proof (srep_nodup _ _ Hs) as Hnd. pose proof (srep_sorted _ _ Hs) as Hss.
  rewrite (find_min_max_ok _ _ mx Hs).
  destruct (if mx then last es else head es) as [e|] eqn:He.
  - right. assert (Hin : e ∈ es).
    { destruct mx; [by eapply last_Some_elem_of|]. destruct es; [done|]. cbn in He. simplify_eq. left. }
    exists (e_h e), (e_key e), (lf_qty (e_l e)), (e_c e). split; [done|]. split_and!.
    + apply to_map_lookup; eauto.
    + by eapply entry_designates.
    + intros k' [v Hv]. apply to_map_lookup in Hv as (x&Hx&<-&_); [|done].
      destruct mx; [by eapply ss_last_max|by eapply ss_head_min].
  - left. assert (es = []) as ->; [|done].
    destruct mx; [by apply last_None|by destruct es].
Qed.

Lemma find_key n s mp k : sinv n s mp -> k < p128 ->
  match mp !! k with
  | Some (q, c) => exists h, find_by_key s k = Ok (Some h) /\ designates s h k q c
  | None => find_by_key s k = Ok None
  end.
Proof.
  intros (es&Hs&->&Hn) Hk. pose proof (srep_nodup _ _ Hs) as Hnd.
  destruct (to_map es !! k) as [[q c]|] eqn:Hv.
  - destruct (present_split _ _ _ _ _ Hs Hv) as (es1&e&es2&->&<-&<-&<-). exists (e_h e).
    split; [by eapply find_present|]. eapply entry_designates; [done|]. apply elem_of_app. right. left.
  - apply to_map_None in Hv; [|done].
    destruct (find_by_key_ok _ _ k Hs Hk) as [(e&He&<-&_)|[_ ?]]; [|done].
    exfalso. apply Hv. by apply elem_of_list_fmap_1.
Qed.

Lemma iterate_sorted n s mp : sinv n s mp ->
  exists l, iterate s true = Ok l /\ iterate s false = Ok (rev l) /\
    StronglySorted N.lt (map lf_key l) /\
    (forall k q, mk_leaf k q ∈ l <-> exists c, mp !! k = Some (q, c)).
Proof.
  intros (es&Hs&->&Hn). pose proof (srep_nodup _ _ Hs) as Hnd. exists (map e_l es).
  split_and!; [exact (iterate_ok _ _ true Hs)|exact (iterate_ok _ _ false Hs)| |].
  - rewrite map_map. by apply srep_sorted in Hs.
  - intros k q. rewrite elem_of_list_In, in_map_iff. split.
    + intros (e&He&Hin). exists (e_c e). apply to_map_lookup; [done|]. exists e.
      rewrite elem_of_list_In. split; [done|]. unfold e_key. by rewrite He.
    + intros [c Hc]. apply to_map_lookup in Hc as (e&He&Hk&Hv); [|done]. exists e.
      rewrite <- elem_of_list_In. split; [|done]. simplify_eq. symmetry; apply leaf_eta.
Qed.

(** ** Walks are short *)
Lemma walks_short n s mp k : sinv n s mp -> mp <> ∅ -> k < p128 ->
  let r := root_node (hdr s) in
  insert_walk 129 s r None k <> Diverge /\ find_walk 129 s r k <> Diverge /\
  min_max_walk 129 s true r <> Diverge /\ min_max_walk 129 s false r <> Diverge /\
  (forall nd, is_inner r = true -> idx (inner_nodes s) (not32 r) = Ok nd ->
     exists w, walk_down nd k = Ok w /\ remove_walk 128 s None r (fst w) (snd w) k <> Diverge) /\
  (is_inner r = false -> remove_walk 1 s None r 0 false k <> Diverge).
Proof.
  intros (es&Hs&->&Hn) Hne Hk r. pose proof Hs as (ot&fl&ifl&[Hd Ht Hl Hi]&Hes&Hcb).
  destruct ot as [t|]; cbn in Ht, Hes; [|by destruct es].
  destruct Ht as (Hroot&Hlc&Hrep&Hwf). subst r. rewrite Hroot.
  assert (Hh : (gheight t < 129)%nat) by (apply gwf_height in Hwf; lia).
  split_and!.
  - destruct (insert_walk_ok s k Hk t [] 129 Hrep Hwf (Forall_nil_2 _) Hh)
      as (ctx&t'&_&_&_&[(h&l&_&_&H)|(pl&H&_)]);
      cbn [parent_of] in H; by rewrite H.
  - destruct (find_walk_ok s k Hk t 0 129 Hrep Hwf Hh) as [(h&l&H&_)|[H _]]; by rewrite H.
  - destruct (min_max_walk_ok s true t 129 Hrep Hh) as (h&l&H&_). by rewrite H.
  - destruct (min_max_walk_ok s false t 129 Hrep Hh) as (h&l&H&_). by rewrite H.
  - intros nd Hin Hnd. destruct t as [h l|i p k0 tl tr].
    { destruct Hrep as [Hlt _]. by rewrite is_inner_leaf in Hin. }
    cbn [groot] in *. destruct Hrep as (Hip&Hnn&Hrl&Hrr). rewrite not32_not32 in Hnd by lia.
    rewrite (idx_Some _ _ _ Hnn) in Hnd. injection Hnd as <-.
    destruct Hwf as (_&Hp&Hk0&Kl&Kr&Wl&Wr).
    set (b := crit p k). set (tc := if b then tr else tl).
    assert (Hrc : rep (leaf_nodes s) (inner_nodes s) tc) by (unfold tc; by destruct b).
    assert (Hwc : gwf (p + 1) tc) by (unfold tc; by destruct b).
    destruct (remove_walk_ok s k tc (mk_frame i p k0 b (if b then tl else tr)) [] 128 _ Hrc Hwc) as
      (f&ctx&h&l&Hpl&_&_&Hwalk&_).
    { apply gwf_height in Hwc; lia. }
    eexists. split; [apply walk_down_lt; cbn [in_plen]; lia|]. cbn [in_plen fst snd]. fold b.
    assert (Hch : child (mk_inner k0 p (groot tl) (groot tr)) b = groot tc)
      by (unfold tc; by destruct b).
    rewrite Hch. cbn [parent_of f_i f_b] in Hwalk. rewrite Hwalk. by destruct (_ =? _).
  - intros _. cbn [remove_walk]. rewrite is_inner_leaf by lia.
    pose proof Hd as [D1 D2 D3]. destruct (getN_is_Some (leaf_nodes s) 0) as [l0 Hl0]; [lia|].
    rewrite (rbind_ok _ _ _ (idx_Some _ _ _ Hl0)). by destruct (_ =? _).
Qed.

(** ** The stale key of slot 0 was inserted before *)
Definition keys_seen s (K : list N) : Prop :=
  forall i l, i < leaf_bump_index (hdr s) -> getN (leaf_nodes s) i = Some l -> lf_key l ∈ K.

Lemma bind_inv {S A B} (m : M S A) (f : A -> M S B) (s : S) b (s' : S) : bind m f s = (Ok b, s') ->
  exists a (s1 : S), m s = (Ok a, s1) /\ f a s1 = (Ok b, s').
Proof. unfold bind. destruct (m s) as [[]]; try done. eauto. Qed.
Lemma lift_inv {S A} (r : res A) (s : S) a (s' : S) : lift r s = (Ok a, s') -> r = Ok a /\ s' = s.
Proof. unfold lift. by intros [= -> ->]. Qed.
Lemma ret_inv {S A} (x : A) (s : S) a (s' : S) : ret x s = (Ok a, s') -> x = a /\ s' = s.
Proof. unfold ret. by intros [= -> ->]. Qed.
Lemma put_hdr_inv h s (a : unit) s' : put_hdr h s = (Ok a, s') -> s' = set_hdr s h.
Proof. unfold put_hdr, modify. by intros [= _ ->]. Qed.
Lemma put_inv {S} (x s : S) (a : unit) (s' : S) : put x s = (Ok a, s') -> s' = x.
Proof. unfold put. by intros [= _ ->]. Qed.
(** Inverts a successful run of straight-line code. *)
Ltac binv1 :=
  match goal with
  | H : bind get _ _ = _ |- _ => rewrite bind_get in H
  | H : bind _ _ _ = (Ok _, _) |- _ =>
      let a := fresh "a" in let s1 := fresh "s1" in let H1 := fresh "Hb" in
      apply bind_inv in H as (a&s1&H1&H)
  | H : lift _ _ = (Ok _, _) |- _ => apply lift_inv in H as [H ->]
  | H : ret _ _ = (Ok _, _) |- _ => apply ret_inv in H as [H ->]
  | H : put_hdr _ _ = (Ok _, _) |- _ => apply put_hdr_inv in H as ->
  | H : put _ _ = (Ok _, _) |- _ => apply put_inv in H as ->
  | x : unit |- _ => destruct x
  end.
Ltac binv := repeat (cbv zeta in *; binv1).

Lemma write_leaf_inv h lf s s' : write_leaf h lf s = (Ok tt, s') ->
  s' = set_leaf_nodes s (setN (leaf_nodes s) h lf).
Proof.
  unfold write_leaf. intros H. binv. unfold upd in Hb. destruct (h <? _); by simplify_eq.
Qed.
Lemma write_inner_inv h nd s s' : write_inner h nd s = (Ok tt, s') ->
  s' = set_inner_nodes s (setN (inner_nodes s) h nd).
Proof.
  unfold write_inner. intros H. binv. unfold upd in Hb. destruct (h <? _); by simplify_eq.
Qed.
Lemma allocate_leaf_inv s h s' : allocate_leaf s = (Ok h, s') ->
  leaf_nodes s' = leaf_nodes s /\
  (leaf_bump_index (hdr s') = leaf_bump_index (hdr s) \/
   (h = leaf_bump_index (hdr s) /\ leaf_bump_index (hdr s') = leaf_bump_index (hdr s) + 1)).
Proof.
  unfold allocate_leaf. intros H. rewrite bind_get in H. cbv zeta in H.
  destruct (_ =? 0).
  - destruct (_ <=? _); [done|]. binv. unfold add_w in Hb. destruct (_ <? _); simplify_eq. cbn. auto.
  - binv. cbn. auto.
Qed.
Lemma allocate_inner_inv s h s' : allocate_inner_node s = (Ok h, s') ->
  leaf_nodes s' = leaf_nodes s /\ leaf_bump_index (hdr s') = leaf_bump_index (hdr s).
Proof.
  unfold allocate_inner_node. intros H. rewrite bind_get in H. cbv zeta in H.
  destruct (_ =? 0).
  - destruct (_ <=? _); [done|]. binv. cbn. auto.
  - binv. cbn. auto.
Qed.
Lemma insert_leaf_inv lf s r s' : insert_leaf lf s = (Ok r, s') ->
  exists h, leaf_nodes s' = setN (leaf_nodes s) h lf /\
  (leaf_bump_index (hdr s') = leaf_bump_index (hdr s) \/
   (h = leaf_bump_index (hdr s) /\ leaf_bump_index (hdr s') = leaf_bump_index (hdr s) + 1)).
Proof.
  unfold insert_leaf. intros H. rewrite bind_get in H. destruct (_ =? 0).
  - binv. apply allocate_leaf_inv in Hb as [Hl Hbu]. apply write_leaf_inv in Hb0 as ->.
    cbn. exists a. by rewrite Hl.
  - apply bind_inv in H as (pos&s0&H1&H). apply lift_inv in H1 as [_ ->].
    destruct pos as [h old|h plen parent].
    + binv. apply write_leaf_inv in Hb as ->. exists h. cbn. auto.
    + apply bind_inv in H as (u&s0&H0&H). apply lift_inv in H0 as [_ ->].
      cbv zeta in H. apply bind_inv in H as (lh&s1&H1&H). apply bind_inv in H as ([]&s2&H2&H).
      apply bind_inv in H as (ih&s3&H3&H). apply bind_inv in H as ([]&s4&H4&H).
      apply bind_inv in H as ([]&s5&H5&H). binv. subst r.
      apply allocate_leaf_inv in H1 as [Hl Hbu]. apply write_leaf_inv in H2 as ->.
      apply allocate_inner_inv in H3 as [Hl' Hb']. apply write_inner_inv in H4 as ->.
      cbn in *. exists lh. destruct parent as [[ph b]|].
      * binv. apply write_inner_inv in H5 as ->. cbn. rewrite Hl', Hb', <- Hl. auto.
      * binv. cbn. rewrite Hl', Hb', <- Hl. auto.
Qed.
Lemma keys_seen_set s s' h lf K : leaf_nodes s' = setN (leaf_nodes s) h lf ->
  (leaf_bump_index (hdr s') = leaf_bump_index (hdr s) \/
   (h = leaf_bump_index (hdr s) /\ leaf_bump_index (hdr s') = leaf_bump_index (hdr s) + 1)) ->
  keys_seen s K -> keys_seen s' (K ++ [lf_key lf]).
Proof.
  intros Hl Hb Hk i l Hi Hg. rewrite Hl in Hg. destruct (decide (i = h)) as [->|Hne].
  - apply elem_of_app. right. assert (l = lf) as ->; [|left].
    unfold setN in Hg. destruct (N.ltb_spec h (N.of_nat (length (leaf_nodes s)))) as [Hlt|Hge].
    + unfold getN in Hg. rewrite insert_length in Hg. destruct (h <? _); [|done].
      rewrite list_lookup_insert in Hg by lia. by simplify_eq.
    + unfold getN in Hg. destruct (N.ltb_spec h (N.of_nat (length (leaf_nodes s)))); [lia|done].
  - apply elem_of_app. left. apply (Hk i l).
    + destruct Hb as [Hb|[-> Hb]]; lia.
    + rewrite getN_setN_ne in Hg by congruence. exact Hg.
Qed.
Lemma free_leaf_inv h s s' : free_leaf h s = (Ok tt, s') ->
  leaf_bump_index (hdr s') = leaf_bump_index (hdr s) /\
  (forall i l, getN (leaf_nodes s') i = Some l ->
     exists l0, getN (leaf_nodes s) i = Some l0 /\ lf_key l0 = lf_key l).
Proof.
  unfold free_leaf. intros H. rewrite bind_get in H. cbv zeta in H.
  apply bind_inv in H as ([]&s1&H1&H). binv. cbn.
  split; [done|]. destruct (_ =? 0).
  - binv. eauto.
  - binv. unfold idx in Hb0. destruct (getN (leaf_nodes s) h) as [lh|] eqn:Hlh; simplify_eq.
    apply write_leaf_inv in H1 as ->. cbn. intros i l Hg. destruct (decide (i = h)) as [->|Hne].
    + erewrite getN_setN_eq in Hg by exact Hlh. simplify_eq. eauto.
    + rewrite getN_setN_ne in Hg by congruence. eauto.
Qed.
Lemma free_inner_inv h s s' : free_inner_node h s = (Ok tt, s') ->
  leaf_nodes s' = leaf_nodes s /\ leaf_bump_index (hdr s') = leaf_bump_index (hdr s).
Proof.
  unfold free_inner_node. intros H. rewrite bind_get in H. cbv zeta in H.
  apply bind_inv in H as ([]&s1&H1&H). binv. cbn. destruct (_ =? 0).
  - by binv.
  - binv. by apply write_inner_inv in H1 as ->.
Qed.
Lemma remove_inv k s r s' : remove_by_key k s = (Ok r, s') ->
  leaf_bump_index (hdr s') = leaf_bump_index (hdr s) /\
  (forall i l, getN (leaf_nodes s') i = Some l ->
     exists l0, getN (leaf_nodes s) i = Some l0 /\ lf_key l0 = lf_key l).
Proof.
  unfold remove_by_key. intros H. rewrite bind_get in H. destruct (_ =? 0).
  { binv. eauto. }
  cbv zeta in H. apply bind_inv in H as ([[[l|] ch] bit]&s1&H1&H); apply lift_inv in H1 as [_ ->].
  - apply bind_inv in H as ([]&s1&H1&H). apply free_leaf_inv in H1 as [Hb Hl]. binv. cbn. auto.
  - apply bind_inv in H as ([rp|]&s1&H1&H); apply lift_inv in H1 as [_ ->].
    2:{ binv. eauto. }
    apply bind_inv in H as (nd&s1&H1&H); apply lift_inv in H1 as [_ ->].
    apply bind_inv in H as ([]&s1&H1&H).
    rewrite bind_get in H. apply bind_inv in H as (cnt&s2&H2&H); apply lift_inv in H2 as [_ ->].
    apply bind_inv in H as ([]&s2&H2&H). apply put_hdr_inv in H2 as ->.
    apply bind_inv in H as (l&s2&H2&H); apply lift_inv in H2 as [_ ->].
    apply bind_inv in H as ([]&s2&H2&H). apply bind_inv in H as ([]&s3&H3&H). binv.
    apply free_leaf_inv in H2 as [Hbl Hl]. apply free_inner_inv in H3 as [Hl' Hb'].
    rewrite Hl', Hb', Hbl. cbn in Hl |- *.
    assert (Heq : leaf_nodes s1 = leaf_nodes s /\ leaf_bump_index (hdr s1) = leaf_bump_index (hdr s)).
    { destruct (rp_gp rp) as [[g b]|]; binv; [|done]. by apply write_inner_inv in H1 as ->. }
    destruct Heq as [E1 E2]. rewrite E1 in Hl. rewrite E2. auto.
Qed.

Lemma slab_run_seen z n x log s : (1 <= n)%nat -> N.of_nat n <= p31 -> slab_run z n x log s ->
  keys_seen s (inserted log).
Proof.
  intros Hn1 Hn2. induction 1 as [|log s o r s' Hrun IH Hty He Hp].
  - intros i l Hi. cbn in Hi. lia.
  - destruct (slab_run_sinv _ _ _ _ _ Hn1 Hn2 Hrun) as [_ Hinv].
    destruct (slab_exec_ok _ _ _ _ Hinv Hty) as (s1&[(H1&_&Hbad)|(k&_&_&_&_&H1)]).
    2:{ rewrite H1 in He. simplify_eq. by destruct (Hp PIndex). }
    rewrite H1 in He. injection He as Hr ->. rewrite Hr in H1, Hbad.
    unfold inserted. rewrite omap_app. fold (inserted log).
    assert (Hmono : forall K, keys_seen s' (inserted log) -> keys_seen s' (inserted log ++ K)).
    { intros K Hk i l Hi Hg. apply elem_of_app. left. by eapply Hk. }
    destruct r as [a|e|p|]; [| |by destruct (Hp p)|].
    2:{ rewrite (Hbad eq_refl). rewrite (Hbad eq_refl) in Hmono. by apply Hmono. }
    2:{ rewrite (Hbad eq_refl). rewrite (Hbad eq_refl) in Hmono. by apply Hmono. }
    clear Hbad. destruct o as [k q c|k q|k c|k]; cbn [slab_exec] in H1; cbn [omap list_omap fst].
    + apply bind_inv in H1 as ([h o]&s1&H1&H). apply insert_leaf_inv in H1 as (h'&Hl&Hb).
      unfold set_callback_info in H. binv. eapply (keys_seen_set s _ h' (mk_leaf k q)); [exact Hl|exact Hb|done].
    + rewrite app_nil_r. rewrite bind_get in H1. apply bind_inv in H1 as ([h|]&s1&H2&H); apply lift_inv in H2 as [_ ->].
      2:{ by binv. }
      binv. unfold idx in Hb. destruct (getN (leaf_nodes s) h) as [lh|] eqn:Hlh; simplify_eq.
      apply write_leaf_inv in Hb0 as ->.
      intros i l Hi Hg. cbn in Hi, Hg. destruct (decide (i = h)) as [->|Hne].
      * erewrite getN_setN_eq in Hg by exact Hlh. simplify_eq. cbn. by eapply IH.
      * rewrite getN_setN_ne in Hg by congruence. by eapply IH.
    + rewrite app_nil_r. rewrite bind_get in H1. apply bind_inv in H1 as ([h|]&s1&H2&H); apply lift_inv in H2 as [_ ->].
      2:{ by binv. }
      unfold set_callback_info in H. binv. exact IH.
    + rewrite app_nil_r. apply bind_inv in H1 as (r&s1&H1&H). binv. apply remove_inv in H1 as [Hb Hl].
      intros i l Hi Hg. rewrite Hb in Hi. destruct (Hl _ _ Hg) as (l0&Hl0&<-). by eapply IH.
Qed.

Lemma slot0_inserted z n x log s k : (1 <= n)%nat -> N.of_nat n <= p31 -> slab_run z n x log s ->
  snd (map_run n (map fst log)) <> ∅ -> slot0_key s = Some k -> k ∈ inserted log.
Proof.
  intros Hn1 Hn2 Hrun Hne Hs0. pose proof (slab_run_seen _ _ _ _ _ Hn1 Hn2 Hrun) as Hk.
  destruct (slab_run_sinv _ _ _ _ _ Hn1 Hn2 Hrun) as [_ (es&Hs&Hmp&_)].
  unfold slot0_key in Hs0. destruct (getN (leaf_nodes s) 0) as [l|] eqn:Hl; simplify_eq.
  eapply Hk; [|exact Hl]. rewrite Hmp in Hne.
  destruct Hs as (ot&fl&ifl&[_ _ Ha _]&Hes&_).
  destruct es as [|e es]; [done|]. rewrite <- Hes in Ha.
  destruct Ha as [Hbnd Hnd Hle Hcap Hx Hy]. cbn in Hle. lia.
Qed.

(** ** Statements over runs *)
Section Runs.
Context (z : C) (n x : nat) (log : list (slab_op C * res (slab_answer C))) (s : slab C).
Context (Hn1 : (1 <= n)%nat) (Hn2 : N.of_nat n <= p31) (Hrun : slab_run z n x log s).

Lemma slab_is_map :
  map snd log = fst (map_run n (map fst log)) /\ shows s (snd (map_run n (map fst log))).
Proof.
  destruct (slab_run_sinv _ _ _ _ _ Hn1 Hn2 Hrun) as [H1 H2]. split; [done|]. by eapply sinv_shows.
Qed.
Lemma stale_slot_slot0 k : stale_slot s k <-> leaf_count (hdr s) = 1 /\ slot0_key s = Some k.
Proof.
  unfold stale_slot, slot0_key. split; intros [H1 H2]; (split; [done|]).
  - destruct H2 as [q ->]. done.
  - destruct (getN (leaf_nodes s) 0) as [[k0 q]|]; [|done]. cbn in H2. exists q. congruence.
Qed.
Lemma absent_removal k :
  snd (map_run n (map fst log)) !! k = None ->
  (~ stale_slot s k -> remove_by_key k s = (Ok None, s)) /\
  (stale_slot s k -> remove_by_key k s = (Panic PIndex, s) /\ k ∈ inserted log).
Proof.
  intros Hk. destruct (slab_run_sinv _ _ _ _ _ Hn1 Hn2 Hrun) as [_ (es&Hs&Hmp&_)].
  pose proof (srep_nodup _ _ Hs) as Hnd. pose proof (srep_length _ _ Hs) as Hlen.
  rewrite Hmp in Hk. apply to_map_None in Hk; [|done]. rewrite (remove_absent _ _ _ Hs Hk).
  rewrite stale_slot_slot0, Hlen. split.
  - intros Hst. destruct (Nat.eqb_spec (length es) 1) as [H1|]; [|done]. cbn [andb].
    case_bool_decide; [|done]. destruct Hst. split; [lia|done].
  - intros [H1 H2]. split.
    + destruct (Nat.eqb_spec (length es) 1) as [_|]; [|lia]. by rewrite bool_decide_true.
    + eapply slot0_inserted; [done|done|exact Hrun| |done]. rewrite Hmp. intros H0.
      apply (f_equal size) in H0. rewrite to_map_size in H0 by done. rewrite map_size_empty in H0. lia.
Qed.
(** Every operation has the map's answer, except the removal of [absent_removal]. *)
Lemma slab_progress o : slab_op_typed o ->
  (exists s', slab_exec o s = (fst (map_exec n o (snd (map_run n (map fst log)))), s') /\
     shows s' (snd (map_exec n o (snd (map_run n (map fst log))))) /\
     (is_ok (fst (map_exec n o (snd (map_run n (map fst log))))) = false -> s' = s)) \/
  (exists k, o = SRemove k /\ snd (map_run n (map fst log)) !! k = None /\ stale_slot s k /\
     slab_exec o s = (Panic PIndex, s)).
Proof.
  intros Hty. destruct (slab_run_sinv _ _ _ _ _ Hn1 Hn2 Hrun) as [_ Hi].
  destruct (slab_exec_ok _ _ _ _ Hi Hty) as (s'&[(H1&H2&H3)|(k&->&Hk&Hsz&Hs0&He)]).
  - left. exists s'. split; [done|]. split; [by eapply sinv_shows|done].
  - right. exists k. split_and!; try done. apply stale_slot_slot0. split; [|done].
    destruct (sinv_shows _ _ _ Hi) as (l&_&_&_&->). lia.
Qed.
Lemma capacity_exact k q c : k < p128 -> snd (map_run n (map fst log)) !! k = None ->
  if (size (snd (map_run n (map fst log))) <? n)%nat
  then exists s', slab_exec (SInsert k q c) s = (Ok ANew, s')
  else slab_exec (SInsert k q c) s = (Err SlabOutOfSpace, s).
Proof.
  intros Hty Hk. destruct (slab_progress (SInsert k q c) Hty) as [(s'&H1&_&H3)|(k'&?&_)]; [|done].
  cbn [map_exec] in H1, H3. rewrite Hk in H1, H3. destruct (_ <? _)%nat.
  - by exists s'.
  - rewrite H1. f_equal. by apply H3.
Qed.
End Runs.
End SlabProps.

(** ** Queues *)
Section QueueProps.
Context {C : Type}.
Implicit Types q : queue C.

Lemma list_run_snoc n os (o : queue_op C) :
  list_run n (os ++ [o]) =
    (fst (list_run n os) ++ [fst (list_exec n o (snd (list_run n os)))],
     snd (list_exec n o (snd (list_run n os)))).
Proof.
  unfold list_run. rewrite fold_left_app. cbn. destruct (fold_left _ os _) as [rs st]. cbn.
  by destruct (list_exec n o st).
Qed.

Definition qinv (n : nat) q (st : list (event_ref C) * N) : Prop :=
  qrep q (fst st) /\ q_seq q = snd st /\ q_cap q = N.of_nat n.

Lemma queue_exec_ok n q st o : qinv n q st -> queue_op_typed o -> snd st + 1 < p64 ->
  exists q', queue_exec o q = (fst (list_exec n o st), q') /\
    qinv n q' (snd (list_exec n o st)) /\ (is_ok (fst (list_exec n o st)) = false -> q' = q).
Proof.
  destruct st as [evs sq]. intros (Hq&Hsq&Hcap) Hty Hlt. cbn [fst snd] in *.
  pose proof (qrep_len _ _ Hq) as Hle. rewrite Hcap in Hle.
  destruct o as [e m t|e c|k|]; cbn [list_exec].
  - destruct (Nat.ltb_spec (length evs) n).
    + destruct (push_fill_ok q evs e m t Hq ltac:(lia)) as (q'&H1&H2&H3&H4). exists q'. cbn [fst snd].
      split_and!; [|split_and!|done]; cbn [fst snd]; [|done|congruence|congruence].
      cbn [queue_exec]. by rewrite (bind_ok _ _ _ _ _ H1).
    + exists q. cbn [fst snd]. split_and!; [|done|done]. cbn [queue_exec].
      erewrite bind_err; [done|]. eapply push_back_full; [done|lia].
  - destruct (Nat.ltb_spec (length evs) n).
    + destruct (push_out_ok q evs e c Hq ltac:(lia) Hty) as (q'&H1&H2&H3&H4). exists q'. cbn [fst snd].
      split_and!; [|split_and!|done]; cbn [fst snd]; [|done|congruence|congruence].
      cbn [queue_exec]. by rewrite (bind_ok _ _ _ _ _ H1).
    + exists q. cbn [fst snd]. split_and!; [|done|done]. cbn [queue_exec].
      erewrite bind_err; [done|]. eapply push_back_full; [done|lia].
  - destruct (pop_n_ok q evs k Hq) as (q'&H1&H2&H3&H4). exists q'. cbn [fst snd].
    split_and!; [|split_and!|done]; cbn [fst snd]; [|done|congruence|congruence].
    cbn [queue_exec]. by rewrite (bind_ok _ _ _ _ _ H1).
  - eexists. cbn [fst snd queue_exec]. split.
    { unfold gen_seq_num. rewrite bind_get. erewrite bind_lift by (apply add_w_ok; lia).
      rewrite bind_put. rewrite Hsq. reflexivity. }
    split; [|done]. split_and!; cbn [fst snd]; [by apply qrep_seq|cbn; lia|done].
Qed.

Lemma list_seq_le n os : snd (snd (list_run n os)) <= N.of_nat (length (os : list (queue_op C))).
Proof.
  induction os as [|o os IH] using rev_ind; [done|]. rewrite list_run_snoc, app_length. cbn [snd length].
  destruct (snd (list_run n os)) as [evs sq]. cbn [snd] in IH.
  destruct o; unfold list_exec; try case_match; cbn [fst snd]; lia.
Qed.

Lemma queue_run_qinv z n log q : (1 <= n)%nat -> N.of_nat n <= p31 -> queue_run z n log q ->
  N.of_nat (length log) < p63 ->
  fst (list_run n (map fst log)) = map snd log /\ qinv n q (snd (list_run n (map fst log))).
Proof.
  intros Hn1 Hn2. induction 1 as [|log q o r q' Hrun IH Hty He]; intros Hl.
  - split; [done|]. split_and!; cbn; [by apply empty_qrep|done|]. unfold q_cap. cbn.
    by rewrite replicate_length.
  - rewrite app_length in Hl. cbn in Hl. destruct (IH ltac:(lia)) as [IH1 IH2].
    rewrite !map_app. cbn [map fst snd]. rewrite list_run_snoc. cbn [fst snd].
    pose proof (list_seq_le n (map fst log)) as Hsq. rewrite map_length in Hsq.
    destruct (queue_exec_ok _ _ _ _ IH2 Hty ltac:(lia)) as (q1&H1&H2&_).
    rewrite H1 in He. injection He as <- <-. by rewrite IH1.
Qed.

(** ** Statements over runs *)
Section QRuns.
Context (z : C) (n : nat) (log : list (queue_op C * res N)) (q : queue C).
Context (Hn1 : (1 <= n)%nat) (Hn2 : N.of_nat n <= p31) (Hlog : N.of_nat (length log) < p63).
Context (Hrun : queue_run z n log q).
Lemma queue_is_fifo :
  let evs := fst (snd (list_run n (map fst log))) in
  map snd log = fst (list_run n (map fst log)) /\
  queue_iter q = Ok evs /\ (forall i, peek_at q i = Ok (evs !! N.to_nat i)) /\
  queue_len q = N.of_nat (length evs) /\ (queue_is_empty q = true <-> evs = []) /\
  (length evs <= n)%nat.
Proof.
  destruct (queue_run_qinv _ _ _ _ Hn1 Hn2 Hrun Hlog) as [H1 (H2&H3&H4)]. cbv zeta. split_and!.
  - done.
  - by apply queue_iter_ok.
  - intros i. by apply peek_at_ok.
  - by apply queue_len_ok.
  - rewrite (queue_is_empty_ok _ _ H2). apply bool_decide_eq_true.
  - pose proof (qrep_len _ _ H2). lia.
Qed.
Lemma queue_push o : queue_op_typed o -> (forall k, o <> QPop k) -> o <> QSeq ->
  let evs := fst (snd (list_run n (map fst log))) in
  if (length evs <? n)%nat
  then exists q', queue_exec o q = (Ok 0, q') /\
    queue_iter q' = Ok (fst (snd (list_exec n o (snd (list_run n (map fst log)))))) /\
    length (fst (snd (list_exec n o (snd (list_run n (map fst log)))))) = S (length evs) /\
    q_seq q' = q_seq q
  else queue_exec o q = (Err EventQueueFull, q).
Proof.
  intros Hty Ho1 Ho2. destruct (queue_run_qinv _ _ _ _ Hn1 Hn2 Hrun Hlog) as [_ H2]. cbv zeta.
  pose proof (list_seq_le n (map fst log)) as Hsq. rewrite map_length in Hsq.
  destruct (queue_exec_ok _ _ _ _ H2 Hty ltac:(lia)) as (q1&H3&H4&H5).
  destruct (snd (list_run n (map fst log))) as [evs sq]. cbn [fst snd] in *.
  destruct H2 as (_&Hs2&_), H4 as (Hq4&Hs4&_).
  destruct o as [e mk t|e cb|k|]; [| |by destruct (Ho1 k)|done]; cbn [list_exec] in *;
    (destruct (length evs <? n)%nat;
     [exists q1; cbn [fst snd] in *; split; [done|]; split; [by apply queue_iter_ok|];
      split; [rewrite app_length; cbn; lia|congruence]
     |cbn [fst snd] in *; rewrite H3; f_equal; by apply H5]).
Qed.
Lemma push_read_back o ev q' : queue_op_typed o ->
  (forall st, list_exec n o st =
     if (length (fst st) <? n)%nat then (Ok 0, (fst st ++ [ev], snd st)) else (Err EventQueueFull, st)) ->
  queue_exec o q = (Ok 0, q') -> peek_at q' (queue_len q) = Ok (Some ev).
Proof.
  intros Hty Ho He. destruct (queue_run_qinv _ _ _ _ Hn1 Hn2 Hrun Hlog) as [_ H2].
  pose proof (list_seq_le n (map fst log)) as Hsq. rewrite map_length in Hsq.
  destruct (queue_exec_ok _ _ _ _ H2 Hty ltac:(lia)) as (q1&H3&H4&_). rewrite He in H3.
  rewrite Ho in H3, H4. destruct H2 as (Hq&_). rewrite (queue_len_ok _ _ Hq).
  destruct (_ <? n)%nat; cbn [fst snd] in *; [|congruence].
  injection H3 as <-. destruct H4 as (Hq'&_). cbn [fst] in Hq'.
  rewrite (peek_at_ok _ _ _ Hq'). rewrite lookup_app_r by lia.
  replace (_ - _)%nat with 0%nat by lia. done.
Qed.
Lemma fill_read_back e maker taker q' : queue_op_typed (QFill e maker taker) ->
  queue_exec (QFill e maker taker) q = (Ok 0, q') ->
  peek_at q' (queue_len q) =
    Ok (Some (EvFill (mk_fill_event tag_fill (fe_taker_side e) (fe_pad e) (fe_quote e)
                        (fe_maker_id e) (fe_base e)) maker taker)).
Proof. intros Hty. apply push_read_back; [done|]. by intros [evs sq]. Qed.
Lemma out_read_back e cb q' : queue_op_typed (QOut e cb) -> queue_exec (QOut e cb) q = (Ok 0, q') ->
  peek_at q' (queue_len q) =
    Ok (Some (EvOut (mk_out_event tag_out (oe_side e) (oe_pad e) (oe_id e) (oe_base e)) cb)).
Proof. intros Hty. apply push_read_back; [done|]. by intros [evs sq]. Qed.
End QRuns.
End QueueProps.
