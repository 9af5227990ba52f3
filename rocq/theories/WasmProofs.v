(** * WasmProofs.v: proofs about js/wasm *)
From Verif Require Import Machine Bytes Critbit EventQueue OrderBook Market Spec MachineProofs
  QueueProofs Layout LayoutProofs JsProofs JsQueueProofs ClientSpec PropsClient Wasm WasmSpec.
From Coq Require Import ZifyBool ZifyNat ZifyN.
From Coq Require Import Sorting.Sorted.

(** ** Reading nodes and the header *)
Definition w_leaf_of (o : order bytes) : w_leaf := mk_w_leaf (o_id o) (o_cb o) (o_qty o).

Lemma slice_prefix (l b : bytes) off n : slice l off n = b -> length b = n ->
  forall m, (n <= m)%nat -> exists r, slice l off m = b ++ r.
Proof.
  intros H Hn m Hm. exists (slice l (off + n) (m - n)).
  rewrite <- H, slice_glue. f_equal. lia.
Qed.
Lemma read_leaf cs o r : old_order_ok cs o -> w_node_read cs (old_leaf_bytes o ++ r) = Ok (Some (WLeaf (w_leaf_of o))).
Proof.
  intros (H1&H2&H3). unfold old_leaf_bytes. cbn [app w_node_read N.eqb Pos.eqb]. unfold w_leaf_read.
  destruct (Nat.ltb_spec (length ((le_enc 16 (o_id o) ++ o_cb o ++ le_enc 8 (o_qty o)) ++ r)) (cs + 24)) as [E|_].
  { rewrite !app_length, !le_enc_length in E. lia. }
  cbn [rbind]. rewrite <- !app_assoc. unfold w_leaf_of.
  rewrite (slice_app_l (le_enc 16 (o_id o))) by (by rewrite le_enc_length).
  rewrite (slice_app_r (le_enc 16 (o_id o)) _ 16) by (rewrite le_enc_length; lia).
  rewrite (slice_app_r (le_enc 16 (o_id o)) _ (16 + cs)) by (rewrite le_enc_length; lia).
  rewrite le_enc_length. replace (16 - 16)%nat with 0%nat by lia. replace (16 + cs - 16)%nat with cs by lia.
  rewrite (slice_app_l (o_cb o)) by done.
  rewrite (slice_app_r (o_cb o)) by lia. rewrite H3. replace (cs - cs)%nat with 0%nat by lia.
  rewrite slice_app_l by (by rewrite le_enc_length).
  rewrite !le_dec_enc_small; [done|exact H2|exact H1].
Qed.
Lemma read_inner cs pl k c0 c1 r : pl < p32 -> k < p128 -> c0 < p32 -> c1 < p32 ->
  w_node_read cs (old_inner_bytes pl k c0 c1 ++ r) = Ok (Some (WInner (mk_w_inner pl k c0 c1))).
Proof.
  intros H1 H2 H3 H4. unfold old_inner_bytes. cbn [app w_node_read N.eqb Pos.eqb]. unfold w_inner_read.
  destruct (Nat.ltb_spec (length ((le_enc 4 pl ++ le_enc 16 k ++ le_enc 4 c0 ++ le_enc 4 c1) ++ r)) 28) as [E|_].
  { rewrite !app_length, !le_enc_length in E. lia. }
  rewrite <- !app_assoc. le_slices. rewrite !le_dec_enc_small by (try exact H1; try exact H2; try exact H3; exact H4). done.
Qed.

Section Book.
Context (data : bytes) (cs slot : nat) (Hmem : N.of_nat (length data) < p32).
Context (s : w_slab) (Hbuf : ws_buffer s = data) (Hcs : ws_cs s = cs) (Hslot : ws_slot s = N.of_nat slot).

Lemma get_slot h b : slot_holds data slot h b -> exists r,
  w_get_node s h = w_node_read cs (b ++ r).
Proof.
  intros (H1&H2&H3). destruct (slice_prefix _ _ _ _ H3 eq_refl slot H2) as (r&Hr). exists r.
  unfold w_get_node. rewrite Hbuf, Hcs, Hslot. unfold as_usize, w_header_len.
  assert (Hm : h * N.of_nat slot = N.of_nat (N.to_nat h * slot)) by lia. rewrite Hm.
  rewrite (N.mod_small (N.of_nat (N.to_nat h * slot))) by lia.
  rewrite (N.mod_small (65 + N.of_nat (N.to_nat h * slot))) by lia.
  rewrite N.mod_small by lia.
  destruct (N.ltb_spec (65 + N.of_nat (N.to_nat h * slot) + N.of_nat slot) (65 + N.of_nat (N.to_nat h * slot))) as [E|_]; [lia|].
  destruct (N.ltb_spec (N.of_nat (length data)) (65 + N.of_nat (N.to_nat h * slot) + N.of_nat slot)) as [E|_]; [lia|].
  cbn [orb]. rewrite <- Hr. f_equal. f_equal; lia.
Qed.
Lemma at_leaf h o : slot_holds data slot h (old_leaf_bytes o) -> old_order_ok cs o ->
  w_node_at s h = Ok (WLeaf (w_leaf_of o)).
Proof.
  intros H Ho. destruct (get_slot _ _ H) as (r&E). unfold w_node_at. by rewrite E, read_leaf.
Qed.
Lemma at_inner h pl k c0 c1 : slot_holds data slot h (old_inner_bytes pl k c0 c1) ->
  pl < p32 -> k < p128 -> c0 < p32 -> c1 < p32 -> w_node_at s h = Ok (WInner (mk_w_inner pl k c0 c1)).
Proof.
  intros H H1 H2 H3 H4. destruct (get_slot _ _ H) as (r&E). unfold w_node_at. by rewrite E, read_inner.
Qed.

Lemma old_tree_ne h os : old_tree data cs slot h os -> os <> [].
Proof. induction 1; [done|]. intros E. by apply app_eq_nil in E as [? ?]. Qed.

(** ** find_min and find_max *)
Lemma find_loop_ok h os : old_tree data cs slot h os -> exists n, forall fuel mx, (n <= fuel)%nat ->
  w_find_loop fuel s mx h = Ok (fst <$> (if mx then last os else head os)).
Proof.
  induction 1 as [h o H Ho|h pl k c0 c1 os0 os1 H H1 H2 H3 H4 T0 [n0 I0] T1 [n1 I1]].
  - exists 1%nat. intros [|f] mx Hf; [lia|]. cbn [w_find_loop]. rewrite (at_leaf _ _ H Ho). by destruct mx.
  - exists (S (n0 + n1)). intros [|f] mx Hf; [lia|]. cbn [w_find_loop].
    rewrite (rbind_ok _ _ _ (at_inner _ _ _ _ _ H H1 H2 H3 H4)). cbn [wi_c0 wi_c1]. destruct mx.
    + rewrite I1 by lia. rewrite last_app. destruct (last os1) eqn:E; [done|].
      apply last_None in E. by destruct (old_tree_ne _ _ T1).
    + rewrite I0 by lia. destruct os0; [by destruct (old_tree_ne _ _ T0)|done].
Qed.

(** ** find_l2_depth *)
Fixpoint w_fold (bound : N) (raw : list N) (ls : list (order bytes)) : list N :=
  match ls with
  | [] => raw
  | l :: ls => if N.of_nat (length raw) =? bound then raw else w_fold bound (w_add_leaf raw (w_leaf_of l)) ls
  end.
Lemma w_fold_stop b raw ls : N.of_nat (length raw) = b -> w_fold b raw ls = raw.
Proof. intros H. destruct ls; [done|]. cbn. by rewrite (proj2 (N.eqb_eq _ _) H). Qed.
Lemma w_fold_app b ls1 : forall raw ls2, w_fold b raw (ls1 ++ ls2) = w_fold b (w_fold b raw ls1) ls2.
Proof.
  induction ls1 as [|l ls1 IH]; intros raw ls2; [done|]. cbn [app w_fold].
  destruct (N.eqb_spec (N.of_nat (length raw)) b) as [E|E]; [by rewrite w_fold_stop|apply IH].
Qed.
Definition dir (inc : bool) (os : list (N * order bytes)) : list (order bytes) :=
  if inc then map snd os else rev (map snd os).
Lemma l2_loop_ok inc b h os : old_tree data cs slot h os -> exists n, forall fuel raw stack,
  w_l2_loop (n + S fuel) s b inc raw (h :: stack) = w_l2_loop (S fuel) s b inc (w_fold b raw (dir inc os)) stack.
Proof.
  induction 1 as [h o H Ho|h pl k c0 c1 os0 os1 H H1 H2 H3 H4 T0 [n0 I0] T1 [n1 I1]].
  - exists 1%nat. intros fuel raw stack.
    assert (Hd : dir inc [(h, o)] = [o]) by (by destruct inc). rewrite Hd. cbn [w_fold].
    change (1 + S fuel)%nat with (S (S fuel)).
    destruct (N.eqb_spec (N.of_nat (length raw)) b) as [E|E].
    + cbn [w_l2_loop]. by rewrite (proj2 (N.eqb_eq _ _) E).
    + cbn [w_l2_loop]. rewrite (proj2 (N.eqb_neq _ _) E), (at_leaf _ _ H Ho). done.
  - exists (S (if inc then n0 + n1 else n1 + n0)). intros fuel raw stack.
    destruct (N.eqb_spec (N.of_nat (length raw)) b) as [E|E].
    + cbn [Nat.add w_l2_loop]. rewrite w_fold_stop by done. by rewrite (proj2 (N.eqb_eq _ _) E).
    + assert (St : forall f, w_l2_loop (S f) s b inc raw (h :: stack) =
        w_l2_loop f s b inc raw (if inc then c0 :: c1 :: stack else c1 :: c0 :: stack)).
      { intros f. cbn [w_l2_loop]. by rewrite (proj2 (N.eqb_neq _ _) E), (at_inner _ _ _ _ _ H H1 H2 H3 H4). }
      destruct inc.
      * change (S (n0 + n1) + S fuel)%nat with (S (n0 + n1 + S fuel)). rewrite St.
        replace (n0 + n1 + S fuel)%nat with (n0 + S (n1 + fuel))%nat by lia. rewrite I0.
        replace (S (n1 + fuel)) with (n1 + S fuel)%nat by lia. rewrite I1. unfold dir.
        by rewrite map_app, w_fold_app.
      * change (S (n1 + n0) + S fuel)%nat with (S (n1 + n0 + S fuel)). rewrite St.
        replace (n1 + n0 + S fuel)%nat with (n1 + S (n0 + fuel))%nat by lia. rewrite I1.
        replace (S (n0 + fuel)) with (n0 + S fuel)%nat by lia. rewrite I0. unfold dir.
        by rewrite map_app, rev_app_distr, w_fold_app.
Qed.
Lemma l2_loop_all inc b h os : old_tree data cs slot h os -> exists n, forall fuel, (n <= fuel)%nat ->
  w_l2_loop fuel s b inc [] [h] = Ok (w_fold b [] (dir inc os)).
Proof.
  intros T. destruct (l2_loop_ok inc b h os T) as (n&H). exists (S n). intros fuel Hf.
  replace fuel with (n + S (fuel - n - 1))%nat by lia. rewrite H. cbn [w_l2_loop]. by destruct (_ =? _).
Qed.
End Book.

(** ** The fold *)
(** The first order of each level. *)
Fixpoint firsts (os : list (N * N)) : list (N * N) :=
  match os with
  | [] => []
  | (q, p) :: os =>
      (q, p) :: match firsts os with
                | (q', p') :: r => if p =? p' then r else (q', p') :: r
                | [] => []
                end
  end.
Lemma firsts_merge os q q' p : tail (firsts ((q, p) :: (q', p) :: os)) = tail (firsts ((q + q', p) :: os)).
Proof. cbn. by rewrite N.eqb_refl. Qed.
Lemma firsts_new os q q' p p' : p <> p' -> firsts ((q, p) :: (q', p') :: os) = (q, p) :: firsts ((q', p') :: os).
Proof. intros H. cbn. by destruct (N.eqb_spec p p'). Qed.
Lemma w_last acc q p : last (flat (acc ++ [(q, p)])) = Some p.
Proof. rewrite flat_app. change (flat [(q, p)]) with ([q] ++ [p]). by rewrite app_assoc, last_snoc. Qed.
Lemma price_w o : o_id o < p128 -> w_price (w_leaf_of o) = id_price (o_id o).
Proof.
  intros H. unfold w_price, w_leaf_of, id_price, as_u64. cbn [wl_key]. rewrite N.shiftr_div_pow2.
  apply N.mod_small. change (2 ^ 64) with p64. apply N.div_lt_upper_bound; lia.
Qed.

Lemma w_fold_acc depth : forall ls acc q p,
  (S (length acc) <= depth)%nat -> Forall (fun o => o_id o < p128) ls -> q + sumN o_qty ls < p64 ->
  w_fold (2 * N.of_nat depth) (flat (acc ++ [(q, p)])) ls =
  flat (acc ++ take (depth - length acc - 1) (levels ((q, p) :: map level ls)) ++
        take 1 (drop (depth - length acc - 1) (firsts ((q, p) :: map level ls)))).
Proof.
  induction ls as [|l ls IH]; intros acc q p Hd Hok Hs.
  - cbn [w_fold map levels firsts]. destruct (depth - length acc - 1)%nat as [|k]; [done|]. cbn. by rewrite firstn_nil, drop_nil.
  - cbn [w_fold map]. apply Forall_cons in Hok as [Hl Hok]. cbn [sumN] in Hs.
    assert (Hlen : length (flat (acc ++ [(q, p)])) = (2 * length acc + 2)%nat)
      by (rewrite flat_length, app_length; cbn; lia).
    rewrite Hlen.
    destruct (N.eqb_spec (N.of_nat (2 * length acc + 2)) (2 * N.of_nat depth)) as [E|E].
    + replace (depth - length acc - 1)%nat with 0%nat by lia. done.
    + unfold w_add_leaf. rewrite w_last, price_w by done.
      assert (Hflat : flat (acc ++ [(q, p)]) = flat acc ++ [q; p]) by (by rewrite flat_app).
      unfold level at 1 3. destruct (N.eqb_spec p (id_price (o_id l))) as [->|Hne].
      * rewrite Hlen. replace (2 * length acc + 2 - 2)%nat with (length (flat acc) + 0)%nat by (rewrite flat_length; lia).
        rewrite Hflat, lookup_app_r by lia.
        replace (length (flat acc) + 0 - length (flat acc))%nat with 0%nat by lia. cbn [lookup list_lookup].
        rewrite insert_app_r. cbn [insert list_insert].
        assert (Hsm : as_u64 (q + wl_qty (w_leaf_of l)) = q + o_qty l).
        { unfold as_u64, w_leaf_of. cbn [wl_qty]. apply N.mod_small. lia. }
        rewrite Hsm.
        change (flat acc ++ [q + o_qty l; id_price (o_id l)]) with (flat acc ++ flat [(q + o_qty l, id_price (o_id l))]).
        rewrite <- flat_app, IH by (done || lia). rewrite levels_merge. f_equal. f_equal. f_equal.
        destruct (depth - length acc - 1)%nat as [|k] eqn:Ek; [lia|].
        f_equal.
        change (drop (S k) (firsts ((q + o_qty l, id_price (o_id l)) :: map level ls)))
          with (drop k (tail (firsts ((q + o_qty l, id_price (o_id l)) :: map level ls)))).
        by rewrite <- firsts_merge.
      * change [wl_qty (w_leaf_of l); id_price (o_id l)] with (flat [(o_qty l, id_price (o_id l))]).
        rewrite <- flat_app, IH by (try done; try (rewrite app_length; cbn); lia).
        rewrite levels_new, firsts_new by done. rewrite app_length. cbn [length].
        destruct (depth - length acc - 1)%nat as [|k] eqn:Ek; [lia|].
        replace (depth - (length acc + 1) - 1)%nat with k by lia. cbn [take drop].
        rewrite <- app_assoc. done.
Qed.
Lemma w_fold_levels depth ls : (1 <= depth)%nat -> Forall (fun o => o_id o < p128) ls -> sumN o_qty ls < p64 ->
  w_fold (2 * N.of_nat depth) [] ls =
  flat (take (depth - 1) (levels (map level ls)) ++ take 1 (drop (depth - 1) (firsts (map level ls)))).
Proof.
  intros Hd Hok Hs. destruct ls as [|l ls]; [cbn; by rewrite firstn_nil, drop_nil|].
  cbn [w_fold length]. destruct (N.eqb_spec (N.of_nat 0) (2 * N.of_nat depth)) as [E|E]; [lia|].
  apply Forall_cons in Hok as [Hl Hok]. unfold w_add_leaf. cbn [last].
  rewrite price_w by done.
  change ([] ++ [wl_qty (w_leaf_of l); id_price (o_id l)]) with (flat ([] ++ [(o_qty l, id_price (o_id l))])).
  rewrite w_fold_acc by (done || (cbn; lia)). cbn [length app map]. by rewrite Nat.sub_0_r.
Qed.

Section Firsts.
Context (R : N -> N -> Prop) (Rirr : forall a, ~ R a a) (Rtr : forall a b c, R a b -> R b c -> R a c).
Lemma firsts_snd os : map snd (firsts os) = map snd (levels os).
Proof.
  induction os as [|[q p] os IH]; [done|]. cbn [firsts levels].
  destruct (firsts os) as [|[q1 p1] r1], (levels os) as [|[q2 p2] r2]; try done.
  cbn [map snd] in IH. injection IH as -> IH. destruct (p =? p2); cbn; by rewrite IH.
Qed.
Definition lfirst (os : list (N * N)) (p : N) : N :=
  match List.find (fun x => snd x =? p) os with Some x => fst x | None => 0 end.
Lemma firsts_in os : StronglySorted (fun a b => a = b \/ R a b) (map snd os) ->
  forall x, x ∈ firsts os -> fst x = lfirst os (snd x).
Proof.
  induction os as [|[q p] os IH]; [intros _ x Hx; by apply elem_of_nil in Hx|].
  intros Hs x Hx. cbn [map snd] in Hs. pose proof Hs as Hs0. apply StronglySorted_inv in Hs as [Hs Ha].
  unfold lfirst. cbn [List.find snd]. cbn [firsts] in Hx.
  apply elem_of_cons in Hx as [->|Hx]; [cbn [fst snd]; by rewrite N.eqb_refl|].
  destruct (levels_spec R Rirr Rtr os Hs) as (L1&_&_). rewrite <- firsts_snd in L1.
  destruct (firsts os) as [|[q' p'] r] eqn:E; [by apply elem_of_nil in Hx|].
  destruct (N.eqb_spec p p') as [->|Hne].
  - assert (Hx' : x ∈ (q', p') :: r) by (by right). specialize (IH Hs x Hx').
    cbn [map snd] in L1. apply StronglySorted_inv in L1 as [_ L1]. rewrite Forall_forall in L1.
    destruct (N.eqb_spec p' (snd x)) as [Ex|]; [|exact IH].
    exfalso. apply (Rirr p'). rewrite Ex at 2. apply L1. apply elem_of_list_fmap. by exists x.
  - specialize (IH Hs x Hx). destruct (N.eqb_spec p (snd x)) as [Ex|]; [|exact IH].
    exfalso. rewrite Forall_forall in Ha.
    assert (Hp' : p' ∈ map snd os).
    { apply (proj1 (proj2 (levels_spec R Rirr Rtr os Hs))). rewrite <- firsts_snd, E. by left. }
    destruct (Ha _ Hp') as [->|Hp]; [done|].
    apply elem_of_cons in Hx as [->|Hx]; [by cbn in Ex|].
    cbn [map snd] in L1. apply StronglySorted_inv in L1 as [_ L1]. rewrite Forall_forall in L1.
    assert (Hr : R p' (snd x)) by (apply L1, elem_of_list_fmap; by exists x).
    apply (Rirr p). rewrite Ex at 2. by eapply Rtr.
Qed.
Lemma firsts_eq os : StronglySorted (fun a b => a = b \/ R a b) (map snd os) ->
  firsts os = map (fun p => (lfirst os p, p)) (map snd (levels os)).
Proof.
  intros Hs. pose proof (firsts_in os Hs) as H. rewrite <- firsts_snd. revert H.
  generalize (firsts os). intros ls H. rewrite map_map. induction ls as [|[q p] ls IH]; [done|].
  cbn [map]. rewrite <- IH by (intros x Hx; apply H; by right). f_equal.
  pose proof (H (q, p) ltac:(by left)) as E. cbn [fst snd] in *. by rewrite <- E.
Qed.
End Firsts.
Lemma lfirst_level {C} (os : list (order C)) p : lfirst (map level os) p = first_at os p.
Proof.
  unfold lfirst, first_at. induction os as [|o os IH]; [done|]. cbn [map List.find level snd].
  destruct (id_price (o_id o) =? p); [done|exact IH].
Qed.
