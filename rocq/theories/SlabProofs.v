(** * SlabProofs.v: the slab code maintains a crit-bit tree *)
From Verif Require Import Machine Critbit MachineProofs TreeProofs.
From Coq Require Import ZifyBool ZifyNat ZifyN.
From Coq Require Import Sorting.Sorted.

(** ** Allocators: a bump index and an intrusive free list *)
Fixpoint chain (nxt : N -> N) (head : N) (fl : list N) : Prop :=
  match fl with
  | [] => True
  | x :: fl => head = x /\ chain nxt (nxt x) fl
  end.
Lemma chain_ext nxt nxt' head fl :
  (forall x, x ∈ fl -> nxt' x = nxt x) -> chain nxt head fl -> chain nxt' head fl.
Proof.
  revert head; induction fl as [|x fl IH]; intros head H; cbn; [done|].
  intros [-> Hc]. split; [done|]. rewrite H by left.
  apply IH; [|done]. intros; apply H; by right.
Qed.

Record alloc_ok (nxt : N -> N) (used fl : list N) (len head bump cap : N) : Prop := {
  al_nodup : NoDup (used ++ fl);
  al_lt : forall x, x ∈ used ++ fl -> x < bump;
  al_len : N.of_nat (length used + length fl) = bump;
  al_cap : bump <= cap;
  al_fl : len = N.of_nat (length fl);
  al_chain : chain nxt head fl;
}.

Lemma alloc_ok_ext nxt nxt' used fl len head bump cap :
  (forall x, x ∈ fl -> nxt' x = nxt x) ->
  alloc_ok nxt used fl len head bump cap -> alloc_ok nxt' used fl len head bump cap.
Proof. intros H []. split; try done. by eapply chain_ext. Qed.
Lemma alloc_ok_perm nxt used used' fl len head bump cap :
  used ≡ₚ used' ->
  alloc_ok nxt used fl len head bump cap -> alloc_ok nxt used' fl len head bump cap.
Proof.
  intros H []. split; try done.
  - by rewrite <- H.
  - intros x. rewrite <- H. auto.
  - by rewrite <- H.
Qed.
Lemma alloc_ok_disj nxt used fl len head bump cap x :
  alloc_ok nxt used fl len head bump cap -> x ∈ used -> x ∈ fl -> False.
Proof. intros [Hn _ _ _ _ _] H1 H2. apply NoDup_app in Hn as (_&Hd&_). by eapply Hd. Qed.
Lemma alloc_ok_used_nodup nxt used fl len head bump cap :
  alloc_ok nxt used fl len head bump cap -> NoDup used.
Proof. intros [Hn _ _ _ _ _]. by apply NoDup_app in Hn as (?&_&_). Qed.
Lemma alloc_ok_used_lt nxt used fl len head bump cap x :
  alloc_ok nxt used fl len head bump cap -> x ∈ used -> x < cap.
Proof. intros [_ Hlt _ ? _ _] Hx. assert (x < bump); [|lia]. apply Hlt, elem_of_app. by left. Qed.

(** Taking a slot from the bump index. *)
Lemma alloc_bump nxt used fl len head bump cap :
  alloc_ok nxt used fl len head bump cap -> len = 0 -> bump < cap ->
  fl = [] /\ alloc_ok nxt (bump :: used) [] len head (bump + 1) cap /\ bump ∉ used.
Proof.
  intros [Hn Hlt Hl Hc Hf Hch] -> Hb.
  assert (fl = []) as -> by (destruct fl; [done|cbn in Hf; lia]).
  rewrite app_nil_r in *. cbn in *.
  assert (Hni : bump ∉ used) by (intros Hin; apply Hlt in Hin; lia).
  split; [done|]. split; [|done]. split; rewrite ?app_nil_r; cbn; try done; try lia.
  - by constructor.
  - intros x Hx. apply elem_of_cons in Hx as [->|Hx]; [lia|]. apply Hlt in Hx. lia.
Qed.
(** Taking a slot from the free list. *)
Lemma alloc_pop nxt used fl len head bump cap :
  alloc_ok nxt used fl len head bump cap -> len <> 0 ->
  exists fl', fl = head :: fl' /\ alloc_ok nxt (head :: used) fl' (len - 1) (nxt head) bump cap /\
  head ∉ used /\ head ∉ fl' /\ head < cap.
Proof.
  intros [Hn Hlt Hl Hc Hf Hch] Hne.
  destruct fl as [|x fl]; [cbn in Hf; lia|]. cbn in Hch. destruct Hch as [-> Hch].
  exists fl. split; [done|].
  assert (Hp : used ++ x :: fl ≡ₚ (x :: used) ++ fl) by (cbn; solve_Permutation).
  rewrite Hp in Hn. pose proof Hn as Hn'. cbn in Hn'. apply NoDup_cons in Hn' as [Hx _].
  rewrite elem_of_app in Hx.
  split; [|split; [tauto|split; [tauto|]]].
  - split; try done; cbn in *; try lia.
    intros y Hy. apply Hlt. rewrite Hp. done.
  - assert (x < bump); [|lia]. apply Hlt. apply elem_of_app. right. left.
Qed.
(** Returning a slot. *)
Lemma alloc_free nxt nxt' used used' fl len head bump cap x :
  alloc_ok nxt used fl len head bump cap -> used ≡ₚ x :: used' ->
  (forall y, y ∈ fl -> nxt' y = nxt y) -> (fl <> [] -> nxt' x = head) ->
  alloc_ok nxt' used' (x :: fl) (len + 1) x bump cap.
Proof.
  intros [Hn Hlt Hl Hc Hf Hch] Hp Hne Hx.
  assert (Hp' : used ++ fl ≡ₚ used' ++ x :: fl) by (rewrite Hp; cbn; solve_Permutation).
  split.
  - by rewrite <- Hp'.
  - intros y. rewrite <- Hp'. auto.
  - rewrite Hp in Hl. cbn in *. lia.
  - done.
  - cbn. lia.
  - cbn. split; [done|]. destruct fl as [|y fl]; [done|]. rewrite Hx by done.
    eapply chain_ext; [|done]. done.
Qed.

Section SlabProofs.
Context {C : Type}.
Implicit Types s : slab C.

Definition lnext (L : list leaf) (h : N) : N :=
  match getN L h with Some l => as_u32 (lf_qty l) | None => 0 end.
Definition inext (I : list inner) (i : N) : N :=
  match getN I i with Some n => as_u32 (in_plen n) | None => 0 end.

Definition leaf_alloc s (used fl : list N) : Prop :=
  alloc_ok (lnext (leaf_nodes s)) used fl (leaf_free_list_len (hdr s))
    (leaf_free_list_head (hdr s)) (leaf_bump_index (hdr s)) (N.of_nat (length (leaf_nodes s))).
Definition inner_alloc s (used fl : list N) : Prop :=
  alloc_ok (inext (inner_nodes s)) used fl (inner_node_free_list_len (hdr s))
    (inner_node_free_list_head (hdr s)) (inner_node_bump_index (hdr s))
    (N.of_nat (length (inner_nodes s))).

(** *** Primitive steps *)
Lemma write_leaf_ok s i l : i < N.of_nat (length (leaf_nodes s)) ->
  write_leaf i l s = (Ok tt, set_leaf_nodes s (setN (leaf_nodes s) i l)).
Proof.
  intros. unfold write_leaf. rewrite bind_get, (bind_lift _ _ _ _ (upd_ok _ _ _ H)). done.
Qed.
Lemma write_inner_ok s i l : i < N.of_nat (length (inner_nodes s)) ->
  write_inner i l s = (Ok tt, set_inner_nodes s (setN (inner_nodes s) i l)).
Proof.
  intros. unfold write_inner. rewrite bind_get, (bind_lift _ _ _ _ (upd_ok _ _ _ H)). done.
Qed.

Lemma allocate_leaf_ok s used fl :
  leaf_alloc s used fl -> N.of_nat (length (leaf_nodes s)) <= p31 ->
  (length used < length (leaf_nodes s))%nat ->
  exists x fl' len head bump,
    allocate_leaf s = (Ok x, set_hdr s (set_leaf_alloc (hdr s) len head bump)) /\
    x ∉ used /\ x ∉ fl' /\ x < N.of_nat (length (leaf_nodes s)) /\
    alloc_ok (lnext (leaf_nodes s)) (x :: used) fl' len head bump
      (N.of_nat (length (leaf_nodes s))).
Proof.
  intros Ha Hmax Hlt. unfold allocate_leaf. rewrite bind_get.
  destruct (N.eqb_spec (leaf_free_list_len (hdr s)) 0) as [Hz|Hnz].
  - assert (Hb : leaf_bump_index (hdr s) < N.of_nat (length (leaf_nodes s))).
    { destruct Ha as [_ _ Hl _ Hf _]. assert (length fl = 0)%nat by lia. lia. }
    destruct (alloc_bump _ _ _ _ _ _ _ Ha Hz Hb) as (->&Ha'&Hni).
    destruct (N.leb_spec (N.of_nat (length (leaf_nodes s))) (leaf_bump_index (hdr s))); [lia|].
    erewrite bind_lift by (apply add_w_ok; lia).
    eexists _, [], _, _, _. split; [reflexivity|]. split; [done|]. split; [set_solver|].
    split; [done|]. done.
  - destruct (alloc_pop _ _ _ _ _ _ _ Ha Hnz) as (fl'&->&Ha'&H1&H2&H3).
    destruct (getN_is_Some (leaf_nodes s) _ H3) as [l Hl].
    rewrite (bind_lift _ _ _ _ (idx_Some _ _ _ Hl)).
    erewrite bind_lift by (apply sub_w_ok; lia).
    eexists _, fl', _, _, _. split; [reflexivity|]. split; [done|]. split; [done|].
    split; [done|]. unfold lnext in Ha' at 2. by rewrite Hl in Ha'.
Qed.
Lemma allocate_leaf_full s used fl :
  leaf_alloc s used fl -> (length (leaf_nodes s) <= length used)%nat ->
  allocate_leaf s = (Err SlabOutOfSpace, s).
Proof.
  intros [_ _ Hl Hc Hf _] Hlt. unfold allocate_leaf. rewrite bind_get.
  destruct (N.eqb_spec (leaf_free_list_len (hdr s)) 0) as [Hz|Hnz]; [|lia].
  destruct (N.leb_spec (N.of_nat (length (leaf_nodes s))) (leaf_bump_index (hdr s))); [done|lia].
Qed.

Lemma allocate_inner_ok s used fl :
  inner_alloc s used fl -> N.of_nat (length (inner_nodes s)) <= p31 ->
  (length used < length (inner_nodes s))%nat ->
  exists x fl' len head bump,
    allocate_inner_node s = (Ok (not32 x), set_hdr s (set_inner_alloc (hdr s) len head bump)) /\
    x ∉ used /\ x ∉ fl' /\ x < N.of_nat (length (inner_nodes s)) /\
    alloc_ok (inext (inner_nodes s)) (x :: used) fl' len head bump
      (N.of_nat (length (inner_nodes s))).
Proof.
  intros Ha Hmax Hlt. unfold allocate_inner_node. rewrite bind_get.
  destruct (N.eqb_spec (inner_node_free_list_len (hdr s)) 0) as [Hz|Hnz].
  - assert (Hb : inner_node_bump_index (hdr s) < N.of_nat (length (inner_nodes s))).
    { destruct Ha as [_ _ Hl _ Hf _]. assert (length fl = 0)%nat by lia. lia. }
    destruct (alloc_bump _ _ _ _ _ _ _ Ha Hz Hb) as (->&Ha'&Hni).
    destruct (N.leb_spec (N.of_nat (length (inner_nodes s))) (inner_node_bump_index (hdr s)));
      [lia|].
    erewrite bind_lift by (apply add_w_ok; lia).
    eexists _, [], _, _, _. split; [reflexivity|]. split; [done|]. split; [set_solver|].
    split; [done|]. done.
  - destruct (alloc_pop _ _ _ _ _ _ _ Ha Hnz) as (fl'&->&Ha'&H1&H2&H3).
    destruct (getN_is_Some (inner_nodes s) _ H3) as [l Hl].
    rewrite (bind_lift _ _ _ _ (idx_Some _ _ _ Hl)).
    erewrite bind_lift by (apply sub_w_ok; lia).
    eexists _, fl', _, _, _. split; [reflexivity|]. split; [done|]. split; [done|].
    split; [done|]. unfold inext in Ha' at 2. by rewrite Hl in Ha'.
Qed.

(** The leaf array after freeing [h]. *)
Definition freed_leaves s (h : N) : list leaf :=
  if leaf_free_list_len (hdr s) =? 0 then leaf_nodes s
  else match getN (leaf_nodes s) h with
       | Some l => setN (leaf_nodes s) h (mk_leaf (lf_key l) (leaf_free_list_head (hdr s)))
       | None => leaf_nodes s
       end.
Definition freed_inners s (i : N) : list inner :=
  if inner_node_free_list_len (hdr s) =? 0 then inner_nodes s
  else match getN (inner_nodes s) i with
       | Some n => setN (inner_nodes s) i
                     (mk_inner (in_key n) (inner_node_free_list_head (hdr s)) (in_c0 n) (in_c1 n))
       | None => inner_nodes s
       end.

Lemma freed_leaves_other s h x : x <> h -> getN (freed_leaves s h) x = getN (leaf_nodes s) x.
Proof.
  intros. unfold freed_leaves. destruct (_ =? _); [done|].
  destruct (getN (leaf_nodes s) h); [|done]. by apply getN_setN_ne.
Qed.
Lemma freed_inners_other s h x : x <> h -> getN (freed_inners s h) x = getN (inner_nodes s) x.
Proof.
  intros. unfold freed_inners. destruct (_ =? _); [done|].
  destruct (getN (inner_nodes s) h); [|done]. by apply getN_setN_ne.
Qed.
Lemma freed_leaves_key s h l : getN (leaf_nodes s) h = Some l ->
  exists l', getN (freed_leaves s h) h = Some l' /\ lf_key l' = lf_key l.
Proof.
  intros Hl. unfold freed_leaves. destruct (_ =? _); [eauto|].
  rewrite Hl. erewrite getN_setN_eq by done. eauto.
Qed.
Lemma freed_leaves_length s h : length (freed_leaves s h) = length (leaf_nodes s).
Proof.
  unfold freed_leaves. destruct (_ =? _); [done|]. destruct (getN _ h); [|done]. apply length_setN.
Qed.
Lemma freed_inners_length s h : length (freed_inners s h) = length (inner_nodes s).
Proof.
  unfold freed_inners. destruct (_ =? _); [done|]. destruct (getN _ h); [|done]. apply length_setN.
Qed.

Lemma free_leaf_ok s used used' fl h :
  leaf_alloc s used fl -> N.of_nat (length (leaf_nodes s)) <= p31 -> used ≡ₚ h :: used' ->
  free_leaf h s =
    (Ok tt, mk_slab (set_leaf_alloc (hdr s) (leaf_free_list_len (hdr s) + 1) h
                       (leaf_bump_index (hdr s)))
              (freed_leaves s h) (inner_nodes s) (callback_infos s)) /\
  alloc_ok (lnext (freed_leaves s h)) used' (h :: fl) (leaf_free_list_len (hdr s) + 1) h
    (leaf_bump_index (hdr s)) (N.of_nat (length (leaf_nodes s))).
Proof.
  intros Ha Hmax Hp.
  assert (Hh : h ∈ used) by (rewrite Hp; left).
  assert (Hlt : h < N.of_nat (length (leaf_nodes s))) by (by eapply alloc_ok_used_lt).
  destruct (getN_is_Some (leaf_nodes s) _ Hlt) as [l Hl].
  assert (Hlen : leaf_free_list_len (hdr s) < p31).
  { destruct Ha as [_ _ Hn Hc Hf _]. rewrite Hp in Hn. cbn in Hn. lia. }
  split.
  - unfold free_leaf, freed_leaves. rewrite bind_get.
    destruct (N.eqb_spec (leaf_free_list_len (hdr s)) 0) as [Hz|Hnz].
    + rewrite bind_ret. erewrite bind_lift by (apply add_w_ok; lia). done.
    + rewrite bind_assoc, (bind_lift _ _ _ _ (idx_Some _ _ _ Hl)), Hl.
      rewrite (bind_ok _ _ _ _ _ (write_leaf_ok _ _ _ Hlt)).
      erewrite bind_lift by (apply add_w_ok; lia). done.
  - eapply alloc_free; [done|done| |].
    + intros y Hy. unfold lnext. rewrite freed_leaves_other; [done|].
      intros ->. by eapply alloc_ok_disj.
    + intros Hne. unfold lnext, freed_leaves.
      destruct (N.eqb_spec (leaf_free_list_len (hdr s)) 0) as [Hz|Hnz].
      { destruct Ha as [_ _ _ _ Hf _]. destruct fl; [done|]. cbn in Hf. lia. }
      rewrite Hl. erewrite getN_setN_eq by done. cbn. apply as_u32_small.
      destruct fl as [|y fl]; [done|]. destruct Ha as [_ Hlt' _ Hc _ [-> _]].
      assert (y < leaf_bump_index (hdr s)); [|lia]. apply Hlt'. set_solver.
Qed.

Lemma free_inner_ok s used used' fl i :
  inner_alloc s used fl -> N.of_nat (length (inner_nodes s)) <= p31 -> used ≡ₚ i :: used' ->
  free_inner_node (not32 i) s =
    (Ok tt, mk_slab (set_inner_alloc (hdr s) (inner_node_free_list_len (hdr s) + 1) i
                       (inner_node_bump_index (hdr s)))
              (leaf_nodes s) (freed_inners s i) (callback_infos s)) /\
  alloc_ok (inext (freed_inners s i)) used' (i :: fl) (inner_node_free_list_len (hdr s) + 1) i
    (inner_node_bump_index (hdr s)) (N.of_nat (length (inner_nodes s))).
Proof.
  intros Ha Hmax Hp.
  assert (Hh : i ∈ used) by (rewrite Hp; left).
  assert (Hlt : i < N.of_nat (length (inner_nodes s))) by (by eapply alloc_ok_used_lt).
  destruct (getN_is_Some (inner_nodes s) _ Hlt) as [l Hl].
  assert (Hlen : inner_node_free_list_len (hdr s) < p31).
  { destruct Ha as [_ _ Hn Hc Hf _]. rewrite Hp in Hn. cbn in Hn. lia. }
  split.
  - unfold free_inner_node, freed_inners. rewrite bind_get, not32_not32 by lia.
    destruct (N.eqb_spec (inner_node_free_list_len (hdr s)) 0) as [Hz|Hnz].
    + rewrite bind_ret. erewrite bind_lift by (apply add_w_ok; lia). done.
    + rewrite bind_assoc, (bind_lift _ _ _ _ (idx_Some _ _ _ Hl)), Hl.
      rewrite (bind_ok _ _ _ _ _ (write_inner_ok _ _ _ Hlt)).
      erewrite bind_lift by (apply add_w_ok; lia). done.
  - eapply alloc_free; [done|done| |].
    + intros y Hy. unfold inext. rewrite freed_inners_other; [done|].
      intros ->. by eapply alloc_ok_disj.
    + intros Hne. unfold inext, freed_inners.
      destruct (N.eqb_spec (inner_node_free_list_len (hdr s)) 0) as [Hz|Hnz].
      { destruct Ha as [_ _ _ _ Hf _]. destruct fl; [done|]. cbn in Hf. lia. }
      rewrite Hl. erewrite getN_setN_eq by done. cbn. apply as_u32_small.
      destruct fl as [|y fl]; [done|]. destruct Ha as [_ Hlt' _ Hc _ [-> _]].
      assert (y < inner_node_bump_index (hdr s)); [|lia]. apply Hlt'. set_solver.
Qed.

(** ** The slab invariant *)
Definition oleaves (ot : option gtree) : list (N * leaf) :=
  match ot with None => [] | Some t => gleaves t end.
Definition oinners (ot : option gtree) : list N :=
  match ot with None => [] | Some t => ginners t end.
Definition tree_rep s (ot : option gtree) : Prop :=
  match ot with
  | None => leaf_count (hdr s) = 0
  | Some t =>
      root_node (hdr s) = groot t /\
      leaf_count (hdr s) = N.of_nat (length (gleaves t)) /\
      rep (leaf_nodes s) (inner_nodes s) t /\ gwf 0 t
  end.
Record dims s : Prop := {
  d_inner : S (length (inner_nodes s)) = length (leaf_nodes s);
  d_max : N.of_nat (length (leaf_nodes s)) <= p31;
  d_cb : (length (leaf_nodes s) <= length (callback_infos s))%nat;
}.
Record inv s (ot : option gtree) (fl ifl : list N) : Prop := {
  i_dims : dims s;
  i_tree : tree_rep s ot;
  i_leaf : leaf_alloc s (map fst (oleaves ot)) fl;
  i_inner : inner_alloc s (oinners ot) ifl;
}.

(** Entries: handle, leaf and callback info of each order, in key order. *)
Record ent := mk_ent { e_h : N; e_l : leaf; e_c : C }.
Definition e_hl (e : ent) : N * leaf := (e_h e, e_l e).
Definition e_key (e : ent) : N := lf_key (e_l e).
Definition srep s (es : list ent) : Prop :=
  exists ot fl ifl,
    inv s ot fl ifl /\ map e_hl es = oleaves ot /\
    Forall (fun e => getN (callback_infos s) (e_h e) = Some (e_c e)) es.

Definition same_dims s s' : Prop :=
  length (leaf_nodes s') = length (leaf_nodes s) /\
  length (inner_nodes s') = length (inner_nodes s) /\
  length (callback_infos s') = length (callback_infos s).
Lemma same_dims_refl s : same_dims s s.
Proof. done. Qed.
Lemma same_dims_trans s1 s2 s3 : same_dims s1 s2 -> same_dims s2 s3 -> same_dims s1 s3.
Proof. unfold same_dims. intuition congruence. Qed.
Lemma dims_same s s' : same_dims s s' -> dims s -> dims s'.
Proof. intros (H1&H2&H3) []. split; rewrite ?H1, ?H2, ?H3; done. Qed.

Lemma empty_srep z n x :
  (1 <= n)%nat -> N.of_nat n <= p31 -> srep (empty_slab z n x) [].
Proof.
  intros. exists None, [], []. split; [|split; [done|constructor]].
  split.
  - split; cbn; rewrite !replicate_length; lia.
  - done.
  - split; cbn; try lia; try done; [by apply NoDup_nil|by intros ? ?%elem_of_nil].
  - split; cbn; try lia; try done; [by apply NoDup_nil|by intros ? ?%elem_of_nil].
Qed.

(** ** Walks *)
(** Descent into the child designated by the key. *)
Definition down_frame (i p k0 : N) (l r : gtree) (b : bool) : frame :=
  mk_frame i p k0 b (if b then l else r).
Lemma plug1_down i p k0 l r b :
  plug1 (down_frame i p k0 l r b) (if b then r else l) = GI i p k0 l r.
Proof. by destruct b. Qed.

Lemma insert_walk_ok s key : key < p128 -> forall t ctx fuel,
  rep (leaf_nodes s) (inner_nodes s) t -> gwf 0 (plug ctx t) -> fok ctx key ->
  (gheight t < fuel)%nat ->
  exists ctx' t', plug ctx' t' = plug ctx t /\ fok ctx' key /\
    rep (leaf_nodes s) (inner_nodes s) t' /\
    ((exists h l, t' = GL h l /\ lf_key l = key /\
        insert_walk fuel s (groot t) (parent_of ctx) key = Ok (Clobber h l)) \/
     (exists plen, insert_walk fuel s (groot t) (parent_of ctx) key =
                     Ok (Split (groot t') plen (parent_of ctx')) /\
        lo_of ctx' <= plen /\ plen < 128 /\ gwf (plen + 1) t' /\
        (forall k, k ∈ gkeys t' -> agree plen key k /\ crit plen k = negb (crit plen key)))).
Proof.
  intros Hkey. induction t as [h l|i p k0 l IHl r IHr]; intros ctx fuel Hrep Hwf Hfok Hfuel.
  - destruct fuel as [|fuel]; [lia|]. cbn [insert_walk groot].
    destruct Hrep as [Hh Hl]. rewrite is_inner_leaf by done.
    rewrite (rbind_ok _ _ _ (idx_Some _ _ _ Hl)).
    apply gwf_plug in Hwf as Hwf'. destruct Hwf' as (Hc&Hw&Hk).
    exists ctx, (GL h l). split; [done|]. split; [done|]. split; [done|].
    destruct (N.eqb_spec (lf_key l) key) as [He|Hne].
    + left. exists h, l. split; [done|]. done.
    + right. cbn in Hw.
      pose proof (lz_diff (lf_key l) key Hw Hkey Hne) as (Hlt&Hag&Hcr).
      exists (lz128 (N.lxor (lf_key l) key)).
      split; [done|].
      split; [|split; [done|split; [done|]]].
      * destruct ctx as [|f ctx]; cbn [lo_of]; [lia|].
        cbn in Hc. destruct Hc as (?&?&_).
        apply lz_agree; [done|done|lia|].
        specialize (Hk (lf_key l) ltac:(cbn; left)).
        apply Forall_cons in Hk as [[A1 C1] _]. apply Forall_cons in Hfok as [[A2 C2] _].
        apply agree_S; [eapply agree_trans; [by apply agree_sym|done]|congruence].
      * intros k Hk'. cbn in Hk'. apply elem_of_list_singleton in Hk' as ->. cbn.
        split; [by apply agree_sym|done].
  - destruct fuel as [|fuel]; [lia|]. cbn [gheight] in Hfuel. cbn [insert_walk groot].
    destruct Hrep as (Hi&Hn&Hl&Hr).
    rewrite is_inner_not32 by done. rewrite not32_not32 by lia.
    rewrite (rbind_ok _ _ _ (idx_Some _ _ _ Hn)). cbn [in_key in_plen].
    apply gwf_plug in Hwf as Hwf'. destruct Hwf' as (Hc&Hw&Hk).
    pose proof Hw as (Hlo&Hp&Hk0&Kl&Kr&Wl&Wr).
    rewrite as_u32_small by lia.
    destruct (N.leb_spec p (lz128 (N.lxor k0 key))) as [Hle|Hgt].
    + (* descend *)
      apply lz_agree in Hle; [|done|done|lia].
      rewrite walk_down_lt by (cbn [in_plen]; lia). cbn [in_plen rbind fst snd].
      set (b := crit p key).
      specialize (IHl (down_frame i p k0 l r false :: ctx) fuel Hl Hwf).
      specialize (IHr (down_frame i p k0 l r true :: ctx) fuel Hr Hwf).
      destruct b eqn:Hb; cbn [child in_c0 in_c1].
      * destruct IHr as (ctx'&t'&Hpl&H); [by constructor|lia|].
        exists ctx', t'. split; [by rewrite Hpl|]. exact H.
      * destruct IHl as (ctx'&t'&Hpl&H); [by constructor|lia|].
        exists ctx', t'. split; [by rewrite Hpl|]. exact H.
    + (* split above this node *)
      exists ctx, (GI i p k0 l r). split; [done|]. split; [done|]. split; [done|]. right.
      assert (Hne : k0 <> key).
      { intros ->. rewrite lz_self in Hgt. lia. }
      pose proof (lz_diff k0 key Hk0 Hkey Hne) as (Hlt&Hag&Hcr).
      assert (Hall : forall k, k ∈ gkeys (GI i p k0 l r) -> agree p k0 k).
      { intros k Hk'. rewrite gkeys_GI in Hk'. apply elem_of_app in Hk' as [Hk'|Hk'].
        - by apply Kl. - by apply Kr. }
      set (plen := lz128 (N.lxor k0 key)) in *.
      exists plen. split; [done|]. split; [|split; [done|split]].
      * destruct ctx as [|f ctx]; cbn [lo_of] in *; [lia|].
        cbn in Hc. destruct Hc as (?&?&_).
        apply lz_agree; [done|done|lia|].
        destruct (gkeys_ne (GI i p k0 l r)) as [k Hk'].
        specialize (Hk k Hk'). apply Forall_cons in Hk as [[A1 C1] _].
        apply Forall_cons in Hfok as [[A2 C2] _].
        eapply agree_trans with k.
        { eapply agree_mono; [|by apply Hall]. lia. }
        apply agree_S; [eapply agree_trans; [by apply agree_sym|done]|congruence].
      * cbn [gwf]. clearbody plen. split; [lia|]. done.
      * intros k Hk'. specialize (Hall k Hk'). split.
        -- eapply agree_trans; [by apply agree_sym|]. eapply agree_mono; [|done]. lia.
        -- rewrite <- Hcr. symmetry. apply Hall; lia.
Qed.

Lemma srep_length s es : srep s es -> leaf_count (hdr s) = N.of_nat (length es).
Proof.
  intros (ot&fl&ifl&[_ Ht _ _]&Hes&_). rewrite <- (map_length e_hl es), Hes.
  destruct ot as [t|]; cbn in *; [apply Ht|done].
Qed.
Lemma srep_dims s es : srep s es -> dims s.
Proof. by intros (ot&fl&ifl&[? _ _ _]&_). Qed.
Lemma e_key_map es ot : map e_hl es = oleaves ot ->
  map e_key es = map (fun hl => lf_key (snd hl)) (oleaves ot).
Proof. intros <-. rewrite map_map. done. Qed.
Lemma srep_sorted s es : srep s es -> StronglySorted N.lt (map e_key es).
Proof.
  intros (ot&fl&ifl&[_ Ht _ _]&Hes&_). rewrite (e_key_map _ _ Hes).
  destruct ot as [t|]; cbn in *; [|constructor]. by eapply gwf_sorted, Ht.
Qed.
Lemma srep_key_lt s es e : srep s es -> e ∈ es -> e_key e < p128.
Proof.
  intros (ot&fl&ifl&[_ Ht _ _]&Hes&_) He.
  assert (Hk : e_key e ∈ map e_key es) by (by apply elem_of_list_fmap_1).
  rewrite (e_key_map _ _ Hes) in Hk.
  destruct ot as [t|]; cbn in *; [|by apply elem_of_nil in Hk].
  eapply gwf_key_lt; [apply Ht|done].
Qed.
Lemma srep_le_cap s es : srep s es -> (length es <= length (leaf_nodes s))%nat.
Proof.
  intros (ot&fl&ifl&[_ _ [_ _ Hl Hc _ _] _]&Hes&_).
  rewrite <- (map_length e_hl es), Hes. rewrite map_length in Hl. lia.
Qed.
Lemma srep_entry s es e : srep s es -> e ∈ es ->
  getN (leaf_nodes s) (e_h e) = Some (e_l e) /\
  getN (callback_infos s) (e_h e) = Some (e_c e) /\
  e_h e < N.of_nat (length (leaf_nodes s)).
Proof.
  intros (ot&fl&ifl&[_ Ht Hl _]&Hes&Hcb) He.
  assert (Hin : e_hl e ∈ oleaves ot) by (rewrite <- Hes; by apply elem_of_list_fmap_1).
  split; [|split].
  - destruct ot as [t|]; cbn in *; [|by apply elem_of_nil in Hin].
    destruct Ht as (_&_&Hr&_). clear -Hr Hin.
    induction t as [h l|i p k l IHl r IHr]; cbn in *.
    + apply elem_of_list_singleton in Hin. unfold e_hl in Hin. destruct Hr. by simplify_eq.
    + apply elem_of_app in Hin as [?|?]; [apply IHl|apply IHr]; tauto.
  - by eapply Forall_forall in Hcb.
  - eapply alloc_ok_used_lt; [apply Hl|]. change (e_h e) with (fst (e_hl e)).
    by apply elem_of_list_fmap_1.
Qed.
Lemma srep_handles s es : srep s es -> NoDup (map e_h es).
Proof.
  intros (ot&fl&ifl&[_ _ Hl _]&Hes&_). apply alloc_ok_used_nodup in Hl.
  rewrite <- Hes, map_map in Hl. done.
Qed.

Lemma gwf_fuel t : gwf 0 t -> (gheight t < walk_fuel)%nat.
Proof. intros H. apply gwf_height in H; unfold walk_fuel; lia. Qed.

(** Splitting a list of entries along a split of its handles. *)
Lemma map_app_split {A B} (f : A -> B) l k1 k2 : map f l = k1 ++ k2 ->
  exists l1 l2, l = l1 ++ l2 /\ map f l1 = k1 /\ map f l2 = k2.
Proof.
  revert l; induction k1 as [|b k1 IH]; intros l H; cbn in H.
  - by exists [], l.
  - destruct l as [|a l]; cbn in H; [done|]. simplify_eq.
    destruct (IH l) as (l1&l2&->&<-&<-); [done|]. by exists (a :: l1), l2.
Qed.

Lemma inv_frame_leaf s t fl ifl h l :
  inv s (Some t) fl ifl -> h ∉ map fst (gleaves t) ->
  rep (setN (leaf_nodes s) h l) (inner_nodes s) t.
Proof.
  intros [_ (_&_&Hr&_) _ _] Hni. eapply rep_ext; [| |done]; [|done].
  intros h' Hh'. apply getN_setN_ne. congruence.
Qed.

(** The first insertion. *)
Lemma insert_empty s es lf : srep s es -> es = [] -> lf_key lf < p128 ->
  exists h c s', insert_leaf lf s = (Ok (h, None), s') /\ srep s' [mk_ent h lf c] /\
    same_dims s s' /\ callback_infos s' = callback_infos s.
Proof.
  intros Hs -> Hk. pose proof (srep_length _ _ Hs) as Hcnt. cbn in Hcnt.
  destruct Hs as (ot&fl&ifl&[Hd Ht Hl Hi]&Hes&_).
  destruct ot as [t|].
  { cbn in Hes. symmetry in Hes. by apply gleaves_ne in Hes. }
  cbn in *. destruct Hd as [D1 D2 D3].
  destruct (allocate_leaf_ok _ _ _ Hl D2) as (x&fl'&len&head&bump&Hal&Hx1&Hx2&Hx3&Ha');
    [cbn; lia|].
  destruct (getN_is_Some (callback_infos s) x) as [c Hc]; [lia|].
  exists x, c. eexists. split.
  { unfold insert_leaf. rewrite bind_get, Hcnt. cbn [N.eqb].
    rewrite (bind_ok _ _ _ _ _ Hal).
    rewrite (bind_ok _ _ _ _ _
      (write_leaf_ok (set_hdr s (set_leaf_alloc (hdr s) len head bump)) x lf Hx3)).
    rewrite bind_get. cbn. rewrite Hcnt.
    erewrite bind_lift by (apply add_w_ok; lia). reflexivity. }
  destruct (getN_is_Some (leaf_nodes s) _ Hx3) as [l0 Hl0].
  split.
  - exists (Some (GL x lf)), fl', ifl. split; [|split].
    + split; cbn.
      * split; cbn; rewrite ?length_setN; done.
      * split; [done|]. split; [done|]. split; [|done]. split; [lia|].
        by eapply getN_setN_eq.
      * unfold leaf_alloc. cbn. rewrite length_setN.
        eapply alloc_ok_ext; [|exact Ha'].
        intros y Hy. unfold lnext. rewrite getN_setN_ne; [done|]. congruence.
      * exact Hi.
    + done.
    + constructor; [done|constructor].
  - split; [|done]. split; [apply length_setN|done].
Qed.

Lemma NoDup_cinners_plug ctx t : NoDup (ginners (plug ctx t)) ->
  NoDup (ginners t ++ cinners ctx).
Proof. by rewrite (ginners_plug ctx t). Qed.

(** Redirecting the link above the focus. *)
Definition relink (I : list inner) (ctx : list frame) (r : N) : list inner :=
  match ctx with
  | [] => I
  | f :: _ =>
      setN I (f_i f) (mk_inner (f_key f) (f_p f) (if f_b f then groot (f_sib f) else r)
                        (if f_b f then r else groot (f_sib f)))
  end.
Lemma relink_other I ctx r j : j ∉ cinners ctx -> getN (relink I ctx r) j = getN I j.
Proof.
  destruct ctx as [|f ctx]; cbn; [done|]. intros Hj. apply getN_setN_ne. set_solver.
Qed.
Lemma relink_length I ctx r : length (relink I ctx r) = length I.
Proof. destruct ctx; cbn; [done|]. apply length_setN. Qed.
Lemma crep_relink L I ctx r r' :
  NoDup (cinners ctx) -> crep L I ctx r -> crep L (relink I ctx r') ctx r'.
Proof.
  destruct ctx as [|f ctx]; cbn; [done|]. intros Hnd (?&Hi&Hs&Hc).
  apply NoDup_cons in Hnd as [Hni Hnd].
  split; [done|]. split; [by eapply getN_setN_eq|]. split.
  - eapply rep_ext; [| |done]; [done|]. intros j Hj. apply getN_setN_ne. set_solver.
  - eapply crep_ext; [| |done]; [done|]. intros j Hj. apply getN_setN_ne. set_solver.
Qed.
Lemma set_child_frame f r r' :
  set_child (mk_inner (f_key f) (f_p f) (if f_b f then groot (f_sib f) else r)
                      (if f_b f then r else groot (f_sib f))) (f_b f) r' =
  mk_inner (f_key f) (f_p f) (if f_b f then groot (f_sib f) else r')
           (if f_b f then r' else groot (f_sib f)).
Proof. by destruct f as [? ? ? [] ?]. Qed.

Lemma groot_plug f ctx t t' : groot (plug (f :: ctx) t) = groot (plug (f :: ctx) t').
Proof.
  revert f t t'; induction ctx as [|g ctx IH]; intros f t t'.
  - cbn. unfold plug1. by destruct (f_b f).
  - apply IH.
Qed.

Lemma insert_fresh s es lf :
  srep s es -> lf_key lf < p128 -> lf_key lf ∉ map e_key es ->
  (length es < length (leaf_nodes s))%nat ->
  exists h c es1 es2 s', es = es1 ++ es2 /\ insert_leaf lf s = (Ok (h, None), s') /\
    srep s' (es1 ++ mk_ent h lf c :: es2) /\ same_dims s s' /\
    callback_infos s' = callback_infos s.
Proof.
  intros Hs Hk Hni Hlt.
  destruct (decide (es = [])) as [->|Hne].
  { destruct (insert_empty _ _ _ Hs eq_refl Hk) as (h&c&s'&?&?&?&?).
    exists h, c, [], [], s'. done. }
  pose proof (srep_length _ _ Hs) as Hcnt.
  destruct Hs as (ot&fl&ifl&Hinv&Hes&Hcb).
  destruct ot as [t0|]; [|cbn in Hes; by destruct es].
  pose proof Hinv as [Hd (Hroot&Hlc&Hrep&Hwf) Hl Hi].
  pose proof Hd as [D1 D2 D3].
  destruct (insert_walk_ok s (lf_key lf) Hk t0 [] walk_fuel Hrep Hwf)
    as (ctx&t&Hpl&Hfok&Hrt&Hcase); [constructor|by apply gwf_fuel|].
  cbn in Hpl. cbn [parent_of plug] in Hcase.
  destruct Hcase as [(h&l&->&Hkey&_)|(plen&Hwalk&Hlo&Hp&Hwt&Hkt)].
  { exfalso. apply Hni. rewrite (e_key_map _ _ Hes). cbn [oleaves]. rewrite <- Hpl.
    rewrite gleaves_plug, !map_app. cbn. rewrite Hkey.
    apply elem_of_app. right. left. }
  (* structure of the old tree *)
  rewrite <- Hpl in Hrep, Hwf.
  apply rep_plug in Hrep as [Hcr _].
  apply gwf_plug in Hwf as (Hcw&Hw&Hkf).
  assert (Hni_ctx : NoDup (ginners t ++ cinners ctx)).
  { rewrite <- ginners_plug, Hpl. by eapply alloc_ok_used_nodup. }
  (* allocation of the leaf *)
  cbn [oleaves oinners] in Hl, Hi, Hes.
  assert (Hlen : length (gleaves t0) = length es).
  { rewrite <- (map_length e_hl es). by rewrite Hes. }
  destruct (allocate_leaf_ok _ _ _ Hl D2) as (x&fl'&len&head&bump&Hal&Hx1&Hx2&Hx3&Ha').
  { rewrite map_length. lia. }
  destruct (getN_is_Some (callback_infos s) x) as [c Hc]; [lia|].
  set (s1 := set_hdr s (set_leaf_alloc (hdr s) len head bump)) in *.
  set (s2 := set_leaf_nodes s1 (setN (leaf_nodes s1) x lf)).
  (* allocation of the inner node *)
  assert (Hi2 : inner_alloc s2 (ginners t0) ifl) by exact Hi.
  destruct (allocate_inner_ok _ _ _ Hi2) as (y&ifl'&ilen&ihead&ibump&Hial&Hy1&Hy2&Hy3&Hia').
  { cbn. lia. }
  { cbn. pose proof (ginners_length t0). lia. }
  cbn in Hy3.
  set (s3 := set_hdr s2 (set_inner_alloc (hdr s2) ilen ihead ibump)) in *.
  set (nb := crit plen (lf_key lf)) in *.
  set (node := mk_inner (lf_key lf) plen (if nb then groot t else x) (if nb then x else groot t)).
  set (s4 := set_inner_nodes s3 (setN (inner_nodes s3) y node)).
  set (I' := relink (setN (inner_nodes s) y node) ctx (not32 y)).
  set (t1 := if nb then GI y plen (lf_key lf) t (GL x lf) else GI y plen (lf_key lf) (GL x lf) t).
  assert (Hg1 : groot t1 = not32 y) by (unfold t1; by destruct nb).
  set (s5 := mk_slab (set_root (hdr s3) (groot (plug ctx t1))) (leaf_nodes s2) I'
                     (callback_infos s)).
  set (s6 := set_hdr s5 (set_count (hdr s5) (leaf_count (hdr s) + 1))).
  assert (Hy_t : y ∉ ginners t /\ y ∉ cinners ctx).
  { rewrite <- Hpl, ginners_plug in Hy1. by apply not_elem_of_app in Hy1. }
  destruct (getN_is_Some (leaf_nodes s) _ Hx3) as [l0 Hl0].
  destruct (getN_is_Some (inner_nodes s) _ Hy3) as [n0 Hn0].
  assert (Hins : insert_leaf lf s = (Ok (x, None), s6)).
  { unfold insert_leaf. rewrite bind_get.
    destruct (N.eqb_spec (leaf_count (hdr s)) 0) as [Hz|_].
    { destruct es; [done|]. cbn in Hcnt. lia. }
    rewrite Hroot, (bind_lift _ _ _ _ Hwalk).
    assert (Hsh : shift_ok plen = Ok tt) by (unfold shift_ok; by destruct (N.ltb_spec plen 128); [|lia]).
    rewrite (bind_lift _ _ _ _ Hsh).
    rewrite (bind_ok _ _ _ _ _ Hal). fold s1.
    rewrite (bind_ok _ _ _ _ _ (write_leaf_ok s1 x lf Hx3)). fold s2.
    rewrite (bind_ok _ _ _ _ _ Hial). fold s3.
    rewrite not32_not32 by lia.
    rewrite (bind_ok _ _ _ _ _ (write_inner_ok s3 y _ Hy3)). fold nb node s4.
    assert (Hlink : (match parent_of ctx with
             | Some (ph, b) =>
                 let! s := get in
                 let! n := lift (idx (inner_nodes s) (not32 ph)) in
                 write_inner (not32 ph) (set_child n b (not32 y))
             | None =>
                 let! s := get in
                 put_hdr (set_root (hdr s) (not32 y))
             end) s4 = (Ok tt, s5)).
    { destruct ctx as [|f ctx]; cbn [parent_of].
      - rewrite bind_get. unfold s5, I'. cbn [relink plug]. by rewrite Hg1.
      - rewrite bind_get. cbn in Hcr. destruct Hcr as (Hf&Hfi&_).
        rewrite not32_not32 by lia.
        assert (Hfy : f_i f <> y).
        { intros E. destruct Hy_t as [_ Hy_t]. apply Hy_t. rewrite <- E. left. }
        assert (Hf4 : getN (inner_nodes s4) (f_i f) = getN (inner_nodes s) (f_i f)).
        { cbn. by apply getN_setN_ne. }
        rewrite Hfi in Hf4.
        rewrite (bind_lift _ _ _ _ (idx_Some _ _ _ Hf4)).
        rewrite write_inner_ok.
        2:{ by apply getN_lt in Hf4. }
        rewrite set_child_frame. unfold s5, I'. cbn [relink].
        f_equal. rewrite (groot_plug f ctx t1 t), Hpl, <- Hroot. by destruct s. }
    rewrite (bind_ok _ _ _ _ _ Hlink). rewrite bind_get. cbn [hdr s5 set_root leaf_count].
    cbn [s3 s2 s1 hdr set_hdr set_leaf_nodes set_inner_alloc set_leaf_alloc leaf_count].
    erewrite bind_lift by (apply add_w_ok; lia). done. }
  assert (Hrt1 : rep (leaf_nodes s6) (inner_nodes s6) t1).
  { assert (Hrx : rep (leaf_nodes s6) (inner_nodes s6) (GL x lf)).
    { cbn. split; [lia|]. by eapply getN_setN_eq. }
    assert (Hrt' : rep (leaf_nodes s6) (inner_nodes s6) t).
    { eapply rep_ext; [| |exact Hrt].
      - intros h Hh. cbn. apply getN_setN_ne. intros ->. apply Hx1.
        rewrite <- Hpl, gleaves_plug, !map_app. apply elem_of_app. right.
        apply elem_of_app. by left.
      - intros j Hj. cbn. unfold I'. rewrite relink_other.
        + apply getN_setN_ne. intros ->. tauto.
        + apply NoDup_app in Hni_ctx as (_&Hdis&_). auto. }
    assert (Hry : getN (inner_nodes s6) y = Some node).
    { cbn. unfold I'. rewrite relink_other by tauto. by eapply getN_setN_eq. }
    unfold t1, node in *. destruct nb; cbn; (split; [lia|]); done. }
  assert (Hcr1 : crep (leaf_nodes s6) (inner_nodes s6) ctx (groot t1)).
  { rewrite Hg1. cbn. unfold I'. apply crep_relink with (groot t).
    - by apply NoDup_app in Hni_ctx as (_&_&?).
    - eapply crep_ext; [| |exact Hcr].
      + intros h Hh. apply getN_setN_ne. intros ->. apply Hx1.
        rewrite <- Hpl. rewrite (fmap_Permutation fst _ _ (gleaves_plug_perm ctx t)).
        rewrite fmap_app. apply elem_of_app. by right.
      + intros j Hj. apply getN_setN_ne. intros ->. tauto. }
  assert (Hw1 : gwf 0 (plug ctx t1)).
  { apply gwf_plug. split; [done|]. split.
    - unfold t1. destruct nb eqn:Hnb; cbn.
      + split; [done|]. split; [done|]. split; [done|]. split; [|split; [|done]].
        * intros k Hk'. destruct (Hkt k Hk') as [? ->]. done.
        * intros k Hk'. cbn in Hk'. apply elem_of_list_singleton in Hk' as ->.
          split; [apply agree_refl|done].
      + split; [done|]. split; [done|]. split; [done|]. split; [|split; [|done]].
        * intros k Hk'. cbn in Hk'. apply elem_of_list_singleton in Hk' as ->.
          split; [apply agree_refl|done].
        * intros k Hk'. destruct (Hkt k Hk') as [? ->]. done.
    - intros k Hk'. assert (k = lf_key lf \/ k ∈ gkeys t) as [->|?]; [|done|by apply Hkf].
      unfold t1 in Hk'. destruct nb; rewrite gkeys_GI, elem_of_app in Hk'; cbn in Hk';
        rewrite elem_of_list_singleton in Hk'; tauto. }
  (* leaves of the new tree *)
  assert (Hg : exists k1 k2, gleaves t0 = k1 ++ k2 /\
                gleaves (plug ctx t1) = k1 ++ (x, lf) :: k2).
  { rewrite <- Hpl, !gleaves_plug. unfold t1. destruct nb; cbn.
    - exists (pre ctx ++ gleaves t), (post ctx). by rewrite <- !app_assoc.
    - exists (pre ctx), (gleaves t ++ post ctx). done. }
  destruct Hg as (k1&k2&Hg0&Hg2).
  rewrite Hg0 in Hes. destruct (map_app_split _ _ _ _ Hes) as (es1&es2&->&He1&He2).
  exists x, c, es1, es2, s6. split; [done|]. split; [done|].
  split; [|split; [|done]].
  - exists (Some (plug ctx t1)), fl', ifl'. split; [|split].
    + split.
      * split; cbn; unfold I'; rewrite ?relink_length, ?length_setN; done.
      * cbn [tree_rep]. split; [done|]. split.
        { cbn. rewrite Hlc, Hg0, Hg2, !app_length. cbn. lia. }
        split; [by apply rep_plug|done].
      * unfold leaf_alloc. cbn [s6 s5 set_hdr leaf_nodes s2 set_leaf_nodes s1].
        rewrite length_setN. eapply alloc_ok_perm; [|eapply alloc_ok_ext; [|exact Ha']].
        -- cbn [oleaves]. rewrite Hg0, Hg2, !map_app. cbn. solve_Permutation.
        -- intros z Hz. unfold lnext. rewrite getN_setN_ne; [done|]. congruence.
      * unfold inner_alloc. cbn [s6 s5 set_hdr inner_nodes]. unfold I'.
        rewrite relink_length, length_setN.
        eapply alloc_ok_perm; [|eapply alloc_ok_ext; [|exact Hia']].
        -- cbn [oinners]. rewrite <- Hpl, !ginners_plug. unfold t1. destruct nb; cbn;
             rewrite ?app_nil_r; solve_Permutation.
        -- intros z Hz. cbn [s2 s1 set_hdr set_leaf_nodes inner_nodes].
           assert (z ∉ ginners t0).
           { intros Hz'. eapply alloc_ok_disj; [exact Hia'| |exact Hz]. by right. }
           unfold inext. rewrite relink_other, getN_setN_ne; [done|congruence|].
           rewrite <- Hpl, ginners_plug in H. by apply not_elem_of_app in H as [_ H].
    + cbn [oleaves]. rewrite Hg2, map_app. cbn. by rewrite He1, He2.
    + cbn. apply Forall_app in Hcb as [? ?]. apply Forall_app. split; [done|].
      constructor; done.
  - split; [apply length_setN|]. split; [|done]. cbn. unfold I'.
    by rewrite relink_length, length_setN.
Qed.

(** Inserting into a full slab changes nothing. *)
Lemma insert_full s es lf :
  srep s es -> lf_key lf < p128 -> lf_key lf ∉ map e_key es ->
  length es = length (leaf_nodes s) ->
  insert_leaf lf s = (Err SlabOutOfSpace, s).
Proof.
  intros Hs Hk Hni Hlen.
  pose proof (srep_length _ _ Hs) as Hcnt.
  destruct Hs as (ot&fl&ifl&Hinv&Hes&Hcb).
  pose proof Hinv as [Hd Ht Hl Hi]. destruct Hd as [D1 D2 D3].
  unfold insert_leaf. rewrite bind_get.
  assert (Hfull : allocate_leaf s = (Err SlabOutOfSpace, s)).
  { eapply allocate_leaf_full; [exact Hl|].
    rewrite map_length, <- Hes, map_length. lia. }
  destruct ot as [t0|].
  - destruct Ht as (Hroot&Hlc&Hrep&Hwf).
    destruct (insert_walk_ok s (lf_key lf) Hk t0 [] walk_fuel Hrep Hwf)
      as (ctx&t&Hpl&Hfok&Hrt&Hcase); [constructor|by apply gwf_fuel|].
    cbn in Hpl. cbn [parent_of plug] in Hcase.
    destruct Hcase as [(h&l&->&Hkey&_)|(plen&Hwalk&Hlo&Hp&Hwt&Hkt)].
    { exfalso. apply Hni. rewrite (e_key_map _ _ Hes). cbn [oleaves]. rewrite <- Hpl.
      rewrite gleaves_plug, !map_app. cbn. rewrite Hkey.
    apply elem_of_app. right. left. }
    destruct (N.eqb_spec (leaf_count (hdr s)) 0) as [Hz|_].
    { lia. }
    assert (Hsh : shift_ok plen = Ok tt) by (unfold shift_ok; by destruct (N.ltb_spec plen 128); [|lia]).
    rewrite Hroot, (bind_lift _ _ _ _ Hwalk), (bind_lift _ _ _ _ Hsh). by apply bind_err.
  - cbn in Hes. destruct es; [|done]. cbn in Hlen. lia.
Qed.

(** Inserting a key that is present replaces the leaf. *)
Lemma insert_clobber s es1 e es2 lf :
  srep s (es1 ++ e :: es2) -> lf_key lf = e_key e ->
  exists s', insert_leaf lf s = (Ok (e_h e, Some (e_l e)), s') /\
    s' = set_leaf_nodes s (setN (leaf_nodes s) (e_h e) lf).
Proof.
  intros Hs Hke. pose proof (srep_length _ _ Hs) as Hcnt.
  pose proof (srep_sorted _ _ Hs) as Hsort.
  assert (Hk : lf_key lf < p128).
  { rewrite Hke. eapply srep_key_lt; [done|]. set_solver. }
  assert (Hex : getN (leaf_nodes s) (e_h e) = Some (e_l e) /\
                e_h e < N.of_nat (length (leaf_nodes s))).
  { destruct (srep_entry _ _ e Hs) as (?&?&?); [set_solver|done]. }
  destruct Hs as (ot&fl&ifl&Hinv&Hes&Hcb).
  destruct ot as [t0|]; [|cbn in Hes; by destruct es1].
  pose proof Hinv as [Hd (Hroot&Hlc&Hrep&Hwf) Hl Hi].
  destruct (insert_walk_ok s (lf_key lf) Hk t0 [] walk_fuel Hrep Hwf)
    as (ctx&t&Hpl&Hfok&Hrt&Hcase); [constructor|by apply gwf_fuel|].
  cbn in Hpl. cbn [parent_of plug] in Hcase.
  eexists. split; [|reflexivity].
  unfold insert_leaf. rewrite bind_get.
  destruct (N.eqb_spec (leaf_count (hdr s)) 0) as [Hz|_].
  { rewrite app_length in Hcnt. cbn in Hcnt. lia. }
  rewrite Hroot.
  assert (Hin : lf_key lf ∈ gkeys t0).
  { rewrite Hke. change (e_key e ∈ map (fun hl => lf_key (snd hl)) (oleaves (Some t0))).
    rewrite <- (e_key_map _ _ Hes), map_app. apply elem_of_app. right. left. }
  destruct Hcase as [(h&l&->&Hkey&Hwalk)|(plen&Hwalk&Hlo&Hp&Hwt&Hkt)].
  - rewrite (bind_lift _ _ _ _ Hwalk).
    (* the leaf found is the entry *)
    assert (Hhl : (h, l) = e_hl e).
    { assert (Hin1 : (h, l) ∈ gleaves t0).
      { rewrite <- Hpl, gleaves_plug. apply elem_of_app. right. left. }
      cbn in Hes. rewrite <- Hes in Hin1. apply elem_of_list_fmap_2 in Hin1 as (e'&He'&Hin1).
      rewrite He'. f_equal.
      assert (Hk2 : e_key e' = e_key e).
      { rewrite <- Hke, <- Hkey. unfold e_hl in He'. by simplify_eq. }
      rewrite map_app in Hsort. apply ss_app in Hsort as (_&Hs2&Hs3).
      cbn in Hs2, Hs3. inversion Hs2 as [|?? _ Hf]; subst.
      apply elem_of_app in Hin1 as [Hin1|Hin1].
      - assert (e_key e' < e_key e); [|lia]. apply Hs3; [by apply elem_of_list_fmap_1|left].
      - apply elem_of_cons in Hin1 as [->|Hin1]; [done|].
        assert (e_key e < e_key e'); [|lia].
        eapply Forall_forall in Hf; [done|]. by apply elem_of_list_fmap_1. }
    unfold e_hl in Hhl. simplify_eq.
    rewrite (bind_ok _ _ _ _ _ (write_leaf_ok _ _ _ (proj2 Hex))). done.
  - exfalso. rewrite <- Hpl in Hin, Hwf. apply gwf_plug in Hwf as (Hcw&Hw&Hkf).
    unfold gkeys in Hin. rewrite (fmap_Permutation _ _ _ (gleaves_plug_perm ctx t)) in Hin.
    rewrite fmap_app in Hin. apply elem_of_app in Hin as [Hin|Hin].
    + apply Hkt in Hin as [_ Hc]. by destruct (crit plen (lf_key lf)).
    + clear -Hcw Hfok Hin. induction ctx as [|f ctx IH].
      * cbn in Hin. by apply elem_of_nil in Hin.
      * cbn in Hcw. destruct Hcw as (_&_&_&_&Hs&Hcw).
        apply Forall_cons in Hfok as [[_ Hc] Hfok].
        rewrite (fmap_Permutation _ _ _ (cleaves_cons f ctx)), fmap_app in Hin.
        apply elem_of_app in Hin as [Hin|Hin]; [|by apply IH].
        destruct (Hs _ Hin) as (_&Hc'&_). rewrite Hc in Hc'. by destruct (f_b f).
Qed.

End SlabProofs.
