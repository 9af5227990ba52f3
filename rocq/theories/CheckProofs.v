(** * CheckProofs.v: the structural check passes on every slab that occurs (C58) *)
From stdpp Require Import gmap.
From Verif Require Import Machine Critbit DataSpec MachineProofs TreeProofs SlabProofs SlabProofs2 DataProps Check.
From Coq Require Import ZifyBool ZifyNat ZifyN.

(** ** The two masks *)
Lemma bit_set_crit key last : last < 128 -> bit_set key last = crit last key.
Proof.
  intros H. rewrite crit_testbit by done. unfold bit_set.
  assert (E : N.shiftr (N.shiftl 1 127) last = 2 ^ (127 - last)).
  { rewrite N.shiftl_1_l, N.shiftr_div_pow2. replace 127 with (127 - last + last) at 1 by lia.
    rewrite N.pow_add_r, N.div_mul; [done|]. apply N.pow_nonzero. lia. }
  rewrite E. destruct (N.eqb_spec (N.land key (2 ^ (127 - last))) 0) as [Z|Z]; cbn.
  - symmetry. apply (f_equal (fun x => N.testbit x (127 - last))) in Z.
    rewrite N.land_spec, N.pow2_bits_true, N.bits_0, andb_true_r in Z. done.
  - symmetry. destruct (N.testbit key (127 - last)) eqn:T; [done|]. exfalso. apply Z.
    apply N.bits_inj_0. intros i. rewrite N.land_spec. destruct (N.eq_dec i (127 - last)) as [->|Hi].
    + by rewrite T.
    + rewrite N.pow2_bits_false by lia. apply andb_false_r.
Qed.

Lemma prefix_mask_eq last : last < 128 -> prefix_mask last = (p128 - 2 ^ (128 - last)).
Proof.
  intros H. unfold prefix_mask.
  assert (E1 : as_i128 (N.shiftl 1 127) = (- 2 ^ 127)%Z) by (vm_compute; reflexivity).
  rewrite E1.
  assert (E2 : Z.shiftr (- 2 ^ 127) (Z.of_N last) = (- 2 ^ (127 - Z.of_N last))%Z).
  { rewrite Z.shiftr_div_pow2 by lia.
    replace (- 2 ^ 127)%Z with ((- 2 ^ (127 - Z.of_N last)) * 2 ^ Z.of_N last)%Z.
    - apply Z.div_mul. apply Z.pow_nonzero; lia.
    - rewrite Z.mul_opp_l, <- Z.pow_add_r by lia. do 2 f_equal. lia. }
  rewrite E2. set (k := (127 - last)).
  assert (Hk : k <= 127) by lia.
  assert (E3 : (2 ^ (127 - Z.of_N last))%Z = Z.of_N (2 ^ k)).
  { rewrite N2Z.inj_pow. f_equal. lia. }
  rewrite E3. assert (Hlt : 2 ^ k <= 2 ^ 127) by (apply N.pow_le_mono_r; lia).
  assert (Hpos : 0 < 2 ^ k) by (apply N.neq_0_lt_0, N.pow_nonzero; lia).
  assert (E4 : as_u128 (- Z.of_N (2 ^ k)) = p128 - 2 ^ k).
  { unfold as_u128. rewrite <- (Z.mod_add _ 1) by (vm_compute; discriminate).
    rewrite Z.mod_small.
    - change (2 ^ 127) with (p128 / 2) in Hlt. assert (p128 / 2 < p128) by (vm_compute; reflexivity). lia.
    - change (2 ^ 127) with (p128 / 2) in Hlt. assert (p128 / 2 < p128) by (vm_compute; reflexivity). lia. }
  rewrite E4, N.shiftl_mul_pow2. change (2 ^ 1) with 2.
  replace (128 - last) with (N.succ k) by lia. rewrite N.pow_succ_r'.
  replace ((p128 - 2 ^ k) * 2) with ((p128 - 2 * 2 ^ k) + 1 * p128).
  - rewrite N.mod_add by (vm_compute; discriminate). apply N.mod_small. change p128 with (2 * 2 ^ 127). lia.
  - change p128 with (2 * 2 ^ 127). lia.
Qed.
(** Bits of the mask. *)
Lemma mask_testbit last i : last < 128 -> i < 128 -> N.testbit (prefix_mask last) i = (128 - last <=? i).
Proof.
  intros H Hi. rewrite prefix_mask_eq by done.
  assert (E : p128 - 2 ^ (128 - last) = N.shiftl (N.ones last) (128 - last)).
  { rewrite N.shiftl_mul_pow2, N.ones_equiv, <- N.sub_1_r, N.mul_sub_distr_r, N.mul_1_l, <- N.pow_add_r.
    f_equal. replace (last + (128 - last)) with 128 by lia. reflexivity. }
  rewrite E. destruct (N.leb_spec (128 - last) i) as [L|L].
  - rewrite N.shiftl_spec_high' by done. apply N.ones_spec_low. lia.
  - by rewrite N.shiftl_spec_low.
Qed.
Lemma mask_high last i : last < 128 -> 128 <= i -> N.testbit (prefix_mask last) i = false.
Proof.
  intros H Hi. apply (high_bits _ i); [|done]. rewrite prefix_mask_eq by done.
  assert (0 < 2 ^ (128 - last)) by (apply N.neq_0_lt_0, N.pow_nonzero; lia).
  assert (0 < p128) by (vm_compute; reflexivity). lia.
Qed.
Lemma agree_mask last a b : last < 128 -> agree last a b ->
  N.land a (prefix_mask last) = N.land b (prefix_mask last).
Proof.
  intros H Hag. apply N.bits_inj. intros i. rewrite !N.land_spec.
  destruct (N.lt_ge_cases i 128) as [Hi|Hi]; [|by rewrite mask_high, !andb_false_r].
  rewrite mask_testbit by done. destruct (N.leb_spec (128 - last) i) as [L|L]; [|by rewrite !andb_false_r].
  rewrite !andb_true_r. specialize (Hag (127 - i) ltac:(lia) ltac:(lia)).
  rewrite !crit_testbit in Hag by lia. by replace (127 - (127 - i)) with i in Hag by lia.
Qed.

Lemma shift_ok_lt n : n < 128 -> shift_ok n = Ok tt.
Proof. intros H. unfold shift_ok. by destruct (N.ltb_spec n 128); [|lia]. Qed.
Section CheckProofs.
Context {C : Type}.
Implicit Types s : slab C.

Lemma gkeys_ne t : exists k, k ∈ gkeys t.
Proof.
  induction t as [h l|i p key l [k Hk] r _].
  - exists (lf_key l). cbn. left.
  - exists k. rewrite gkeys_GI. apply elem_of_app. by left.
Qed.
Lemma check_rec_ok s : forall t fuel last lp cbit,
  rep (leaf_nodes s) (inner_nodes s) t -> gwf (last + 1) t -> last < 128 ->
  (forall k, k ∈ gkeys t -> agree last lp k /\ crit last k = cbit) ->
  (gheight t < fuel)%nat ->
  check_rec fuel s (groot t) last lp cbit = Ok (N.of_nat (length (gleaves t)), N.of_nat (length (ginners t))).
Proof.
  induction t as [h l|i p key tl IHl tr IHr]; intros fuel last lp cbit Hrep Hwf Hlast Hk Hf;
    (destruct fuel as [|fuel]; [lia|]); cbn [check_rec groot].
  - destruct Hrep as [Hh Hl]. rewrite is_inner_leaf by done.
    rewrite (rbind_ok _ _ _ (idx_Some _ _ _ Hl)).
    destruct (Hk (lf_key l)) as [Hag Hcr]; [cbn; left|].
    rewrite (shift_ok_lt _ Hlast). cbn [rbind].
    rewrite bit_set_crit, Hcr, eqb_reflx by done. cbn [assert_that rbind].
    rewrite (agree_mask _ _ _ Hlast Hag), N.eqb_refl. done.
  - destruct Hrep as (Hip&Hn&Hrl&Hrr). rewrite is_inner_not32, not32_not32 by lia.
    rewrite (rbind_ok _ _ _ (idx_Some _ _ _ Hn)). cbn [in_plen in_key in_c0 in_c1].
    cbn [gwf] in Hwf. destruct Hwf as (Hlo&Hp&Hk0&Kl&Kr&Wl&Wr).
    destruct (gkeys_ne tl) as [k1 Hk1].
    destruct (Kl k1 Hk1) as [Hag1 _].
    destruct (Hk k1) as [Hag Hcr]; [rewrite gkeys_GI; apply elem_of_app; by left|].
    assert (Hck : crit last key = cbit) by (rewrite <- Hcr; apply Hag1; lia).
    assert (Hak : agree last lp key).
    { eapply agree_trans; [exact Hag|]. apply agree_sym. eapply agree_mono; [|exact Hag1]. lia. }
    replace (last <? p) with true by (symmetry; apply N.ltb_lt; lia). cbn [assert_that rbind].
    rewrite (shift_ok_lt _ Hlast). cbn [rbind].
    rewrite bit_set_crit, Hck, eqb_reflx by done. cbn [assert_that rbind].
    rewrite (agree_mask _ _ _ Hlast Hak), N.eqb_refl. cbn [assert_that rbind].
    cbn [gheight] in Hf.
    rewrite (IHl fuel p key false Hrl Wl Hp Kl ltac:(lia)). cbn [rbind].
    rewrite (IHr fuel p key true Hrr Wr Hp Kr ltac:(lia)). cbn [rbind fst snd gleaves ginners length].
    rewrite !app_length.
    rewrite !(rbind_ok _ _ _ eq_refl). cbn [fst snd].
    match goal with |- Ok (?a, ?b) = Ok (?c, ?d) => replace c with a by lia; replace d with b by lia end. done.
Qed.
Lemma check_ok s es : srep s es -> check_invariants s = Ok tt.
Proof.
  intros (ot&fl&ifl&[Hd Ht Hl Hi]&Hes&_). unfold check_invariants.
  assert (Hcnt : exists a b,
    match root s with
    | None => Ok (0, 0)
    | Some r => if is_inner r then
        let? n := idx (inner_nodes s) (not32 r) in
        let? a := check_rec walk_fuel s (in_c0 n) (in_plen n) (in_key n) false in
        let? b := check_rec walk_fuel s (in_c1 n) (in_plen n) (in_key n) true in
        Ok (fst a + fst b, 1 + snd a + snd b)
      else Ok (1, 0)
    end = Ok (a, b) /\ a = leaf_count (hdr s) /\ b = N.of_nat (length (oinners ot)) /\
    leaf_count (hdr s) = N.of_nat (length (oleaves ot))).
  { unfold root. destruct ot as [t|]; cbn in Ht.
    - destruct Ht as (Hroot&Hlc&Hrep&Hwf).
      assert (Hne : (leaf_count (hdr s) =? 0) = false).
      { apply N.eqb_neq. rewrite Hlc. pose proof (gleaves_ne t). destruct (gleaves t); [done|]. cbn. lia. }
      rewrite Hne, Hroot. cbn [oinners oleaves]. destruct t as [h l|i p key tl tr]; cbn [groot].
      + destruct Hrep as [Hh _]. rewrite is_inner_leaf by done. exists 1, 0. by rewrite Hlc.
      + destruct Hrep as (Hip&Hn&Hrl&Hrr). rewrite is_inner_not32, not32_not32 by lia.
        rewrite (rbind_ok _ _ _ (idx_Some _ _ _ Hn)). cbn [in_plen in_key in_c0 in_c1].
        pose proof Hwf as (Hlo&Hp&Hk0&Kl&Kr&Wl&Wr).
        pose proof (gwf_height _ _ Wl ltac:(lia)). pose proof (gwf_height _ _ Wr ltac:(lia)).
        rewrite (check_rec_ok s tl walk_fuel p key false Hrl Wl Hp Kl) by (unfold walk_fuel; lia). cbn [rbind].
        rewrite (check_rec_ok s tr walk_fuel p key true Hrr Wr Hp Kr) by (unfold walk_fuel; lia). cbn [rbind fst snd].
        rewrite !(rbind_ok _ _ _ eq_refl). cbn [fst snd].
        eexists _, _. split; [done|]. rewrite Hlc. cbn [gleaves ginners length]. rewrite !app_length. split_and!; lia.
    - rewrite Ht. exists 0, 0. done. }
  destruct Hcnt as (a&b&E&Ea&Eb&Elc). rewrite (rbind_ok _ _ _ E). cbn [fst snd]. subst a b.
  destruct Hl as [_ _ Hll _ Hlf _]. destruct Hi as [_ _ Hil _ Hif _]. rewrite map_length in Hll.
  replace (_ + inner_node_free_list_len (hdr s) =? inner_node_bump_index (hdr s)) with true
    by (symmetry; apply N.eqb_eq; lia).
  rewrite (rbind_ok (assert_that true) _ tt eq_refl).
  replace (_ + leaf_free_list_len (hdr s) =? leaf_bump_index (hdr s)) with true
    by (symmetry; apply N.eqb_eq; lia).
  rewrite (rbind_ok (assert_that true) _ tt eq_refl). by rewrite N.eqb_refl.
Qed.
End CheckProofs.
