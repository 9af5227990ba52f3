(** * JsProofs.v: the JavaScript client reads what the program wrote *)
From Verif Require Import Machine Bytes Critbit EventQueue OrderBook MachineProofs TreeProofs
  SlabProofs SlabProofs2 QueueProofs Layout LayoutProofs PropsLayout JsClient.
From Coq Require Import ZifyBool ZifyNat ZifyN.
From Coq Require Import Sorting.Sorted.

(** ** Slices *)
Lemma js_slice_in (b : bytes) a e x y : a = Z.of_nat x -> e = Z.of_nat y ->
  (x <= y)%nat -> (y <= length b)%nat -> js_slice b a e = slice b x (y - x).
Proof.
  intros -> -> H1 H2. unfold js_slice, js_offset, slice.
  destruct (Z.ltb_spec (Z.of_nat x) 0); [lia|]. destruct (Z.ltb_spec (Z.of_nat y) 0); [lia|].
  rewrite !Z.min_l by lia. by rewrite !Nat2Z.id.
Qed.
Lemma js_slice_from_in (b : bytes) a x : a = Z.of_nat x -> (x <= length b)%nat ->
  js_slice_from b a = drop x b.
Proof.
  intros -> H. unfold js_slice_from, js_offset.
  destruct (Z.ltb_spec (Z.of_nat x) 0); [lia|]. rewrite Z.min_l by lia. by rewrite Nat2Z.id.
Qed.
Lemma slice_slice (b : bytes) o n i k : (i + k <= n)%nat ->
  slice (slice b o n) i k = slice b (o + i) k.
Proof. intros H. unfold slice. rewrite skipn_firstn_comm, take_take, drop_drop. f_equal. lia. Qed.
Lemma slice_drop (b : bytes) o i k : slice (drop o b) i k = slice b (o + i) k.
Proof. unfold slice. by rewrite drop_drop. Qed.
Lemma slice_len (b : bytes) o n : (o + n <= length b)%nat -> length (slice b o n) = n.
Proof. intros H. unfold slice. rewrite take_length, drop_length. lia. Qed.

(** ** Doubles: integers below 2^53 are exact *)
Definition js_is (x : js_double) (z : Z) : Prop :=
  (0 <= snd x)%Z /\ fst x = (z * 2 ^ snd x)%Z.
Lemma js_nearest_exact z d : (0 < d)%Z -> js_nearest (z * d) d = z.
Proof.
  intros Hd. unfold js_nearest. rewrite Z.div_mul, Z.mod_mul by lia.
  destruct (Z.ltb_spec (2 * 0) d); [done|lia].
Qed.
Lemma js_exponent_int z d : (0 < z < 2 ^ 53)%Z -> (0 < d)%Z -> (js_exponent (z * d) d <= 52)%Z.
Proof.
  intros Hz Hd. unfold js_exponent. cbv zeta.
  assert (Hl : (Z.log2 z <= 52)%Z) by (assert (Z.log2 z < 53)%Z; [apply Z.log2_lt_pow2; lia|lia]).
  pose proof (Z.log2_mul_above z d ltac:(lia) ltac:(lia)) as Ha.
  set (e := (Z.log2 (z * d) - Z.log2 d)%Z) in *.
  destruct (Z.leb_spec 0 e) as [He|He].
  - destruct (Z.leb_spec (d * 2 ^ e) (z * d)) as [H|H]; [|lia].
    assert (2 ^ e <= z)%Z by nia.
    destruct (Z.le_gt_cases e 52) as [|Hgt]; [done|].
    pose proof (Z.pow_le_mono_r 2 53 e ltac:(lia) ltac:(lia)). lia.
  - destruct (_ <=? _)%Z; lia.
Qed.
Lemma js_round_int z d : (Z.abs z < 2 ^ 53)%Z -> (0 < d)%Z -> js_is (js_round (z * d) d) z.
Proof.
  intros Hz Hd. unfold js_round. destruct (Z.eqb_spec (z * d) 0) as [H0|H0].
  - assert (z = 0)%Z as -> by nia. split; cbn; lia.
  - assert (Hz0 : (z <> 0)%Z) by nia.
    rewrite Z.abs_mul, (Z.abs_eq d) by lia.
    pose proof (js_exponent_int (Z.abs z) d ltac:(lia) Hd) as He.
    set (k := (52 - js_exponent (Z.abs z * d) d)%Z).
    destruct (Z.leb_spec 0 k) as [Hk|Hk]; [|lia]. split; [done|]. cbn [fst snd].
    replace (Z.abs z * d * 2 ^ k)%Z with (Z.abs z * 2 ^ k * d)%Z by ring.
    rewrite js_nearest_exact by done. rewrite Z.sgn_mul, (Z.sgn_pos d) by lia.
    rewrite Z.mul_1_r, Z.mul_assoc, (Z.mul_comm (Z.sgn z)), Z.abs_sgn. done.
Qed.
Lemma js_int_is z : js_is (js_int z) z.
Proof. split; cbn; lia. Qed.
Lemma js_add_is x y a b : js_is x a -> js_is y b -> (Z.abs (a + b) < 2 ^ 53)%Z ->
  js_is (js_add x y) (a + b).
Proof.
  intros [Hx Ex] [Hy Ey] H. unfold js_add. rewrite Ex, Ey.
  replace (a * 2 ^ snd x * 2 ^ snd y + b * 2 ^ snd y * 2 ^ snd x)%Z
    with ((a + b) * 2 ^ (snd x + snd y))%Z by (rewrite Z.pow_add_r by lia; ring).
  apply js_round_int; [done|]. apply Z.pow_pos_nonneg; lia.
Qed.
Lemma js_mul_is x y a b : js_is x a -> js_is y b -> (Z.abs (a * b) < 2 ^ 53)%Z ->
  js_is (js_mul x y) (a * b).
Proof.
  intros [Hx Ex] [Hy Ey] H. unfold js_mul. rewrite Ex, Ey.
  replace (a * 2 ^ snd x * (b * 2 ^ snd y))%Z
    with (a * b * 2 ^ (snd x + snd y))%Z by (rewrite Z.pow_add_r by lia; ring).
  apply js_round_int; [done|]. apply Z.pow_pos_nonneg; lia.
Qed.
Lemma js_trunc_is x a : js_is x a -> js_trunc x = a.
Proof.
  intros [Hx Ex]. unfold js_trunc. rewrite Ex. apply Z.quot_mul.
  pose proof (Z.pow_pos_nonneg 2 (snd x)). lia.
Qed.

(** ** A client slab that shows slab [s] *)
Record shows_slab (js : js_slab) (s : slab bytes) : Prop := {
  sh_hdr : js_header js = hdr s;
  sh_leaf : forall h l, getN (leaf_nodes s) h = Some l -> h < p31 -> js_get_node js h = Ok (inl l);
  sh_inner : forall i n, getN (inner_nodes s) i = Some n -> i < p31 ->
    js_get_node js (not32 i) = Ok (inr n);
  sh_cb : forall h c, getN (callback_infos s) h = Some c -> h < p31 -> js_callback js h = c;
  sh_fuel : (2 * length (leaf_nodes s) <= js_fuel js)%nat;
}.

Lemma getN_nth {A} (l : list A) i x : getN l i = Some x -> nth_error l (N.to_nat i) = Some x.
Proof.
  unfold getN. destruct (N.ltb_spec i (N.of_nat (length l))); [|done]. intros Hx.
  rewrite <- Hx. clear. revert l. induction (N.to_nat i) as [|k IH]; intros [|y l]; try done.
  cbn. apply IH.
Qed.


Lemma slab_shown cs n buf s : (1 <= n)%nat -> slab_at cs n buf s -> slab_typed cs s ->
  le_dec (take 8 buf) < 9007199254740992 -> N.of_nat (length buf) <= 10485760 ->
  exists js, js_slab_deserialize buf (N.of_nat cs) = Ok js /\ shows_slab js s /\ js_cs js = Z.of_nat cs.
Proof.
  intros Hn [Hl Hh Hll Hlf Hil Hin Hcl Hcb] [Th Tl Ti Tc] Htag Hmax.
  assert (Hlen : (40 <= length buf)%nat) by nia.
  unfold js_slab_deserialize.
  assert (E : js_slab_header buf = Ok (hdr s)).
  { unfold js_slab_header. destruct (Nat.ltb_spec (length buf) 40); [lia|].
    unfold js_number. change (slice buf 0 8) with (take 8 buf).
    destruct (N.ltb_spec (le_dec (take 8 buf)) 9007199254740992); [|lia]. cbn [rbind].
    rewrite <- (header_of_bytes_of _ Th). unfold at_offset in Hh. rewrite <- Hh at 1.
    rewrite bytes_of_header_length. unfold header_of_bytes.
    rewrite !slice_slice by lia. done. }
  rewrite (rbind_ok _ _ _ E). cbv zeta.
  assert (Hcap : js_is (js_div (Z.of_nat (length buf) - 40 - (24 + Z.of_N (N.of_nat cs)))
                               (24 + Z.of_N (N.of_nat cs) + 32)) (Z.of_nat (n - 1))).
  { unfold js_div.
    replace (Z.of_nat (length buf) - 40 - (24 + Z.of_N (N.of_nat cs)))%Z
      with (Z.of_nat (n - 1) * (24 + Z.of_N (N.of_nat cs) + 32))%Z by nia.
    apply js_round_int; [|lia]. change (2 ^ 53)%Z with 9007199254740992%Z. nia. }
  set (cap := js_div _ _) in *. clearbody cap.
  assert (Hoff : js_is (js_add (js_int 40) (js_mul (js_add cap (js_int 1)) (js_int 24)))
                   (40 + (Z.of_nat (n - 1) + 1) * 24)).
  { apply js_add_is; [apply js_int_is|apply js_mul_is; [apply js_add_is; [done|apply js_int_is|]|apply js_int_is|]|];
      change (2 ^ 53)%Z with 9007199254740992%Z; nia. }
  set (off := js_add _ (js_mul (js_add _ _) _)) in *. clearbody off.
  assert (Hcbo : js_is (js_add off (js_mul cap (js_int 32)))
                   (40 + (Z.of_nat (n - 1) + 1) * 24 + Z.of_nat (n - 1) * 32)).
  { apply js_add_is; [done|apply js_mul_is; [done|apply js_int_is|]|];
      change (2 ^ 53)%Z with 9007199254740992%Z; nia. }
  rewrite (js_trunc_is _ _ Hoff), (js_trunc_is _ _ Hcbo). clear Hoff Hcbo Hcap.
  rewrite (js_slice_in buf 40 _ 40 (40 + 24 * n)), (js_slice_in buf _ _ (40 + 24 * n) (40 + 24 * n + 32 * (n - 1))),
    (js_slice_from_in buf _ (40 + 24 * n + 32 * (n - 1))) by lia.
  replace (40 + 24 * n - 40)%nat with (24 * n)%nat by lia.
  replace (40 + 24 * n + 32 * (n - 1) - (40 + 24 * n))%nat with (32 * (n - 1))%nat by lia.
  eexists. split; [reflexivity|]. split; [|cbn [js_cs]; lia]. split; cbn [js_header].
  - done.
  - intros h l Hg Hh31. pose proof (getN_nth _ _ _ Hg) as Hnth.
    unfold js_get_node, js_is_leaf. rewrite (is_inner_leaf h Hh31 : N.testbit h 31 = false). cbn [negb js_leaf_buf].
    assert (Hlt : (N.to_nat h < n)%nat) by (rewrite <- Hll; apply nth_error_Some; by rewrite Hnth).
    rewrite (js_slice_in _ _ _ (24 * N.to_nat h) (24 * N.to_nat h + 24)); [|lia|lia|lia|rewrite slice_length; nia].
    replace (24 * N.to_nat h + 24 - 24 * N.to_nat h)%nat with 24%nat by lia.
    rewrite slice_slice by nia.
    pose proof (Hlf _ _ Hnth) as Ha. unfold at_offset in Ha. rewrite bytes_of_leaf_length in Ha. rewrite Ha.
    unfold js_leaf, js_deserialize. rewrite bytes_of_leaf_length. cbn [Nat.ltb Nat.leb rbind].
    change (Ok (inl (leaf_of_bytes (bytes_of_leaf l)) : leaf + inner) = Ok (inl l)).
    rewrite leaf_of_bytes_of; [done|]. apply nth_error_In, elem_of_list_In in Hnth.
    by apply (proj1 (Forall_forall _ _) Tl).
  - intros i m Hg Hi31. pose proof (getN_nth _ _ _ Hg) as Hnth.
    unfold js_get_node, js_is_leaf. rewrite (is_inner_not32 i Hi31 : N.testbit (not32 i) 31 = true).
    cbn [negb js_inner_buf]. rewrite not32_not32 by lia.
    assert (Hlt : (N.to_nat i < n - 1)%nat) by (rewrite <- Hil; apply nth_error_Some; by rewrite Hnth).
    rewrite (js_slice_in _ _ _ (32 * N.to_nat i) (32 * N.to_nat i + 32)); [|lia|lia|lia|rewrite slice_length; nia].
    replace (32 * N.to_nat i + 32 - 32 * N.to_nat i)%nat with 32%nat by lia.
    rewrite slice_slice by nia.
    pose proof (Hin _ _ Hnth) as Ha. unfold at_offset in Ha. rewrite bytes_of_inner_length in Ha. rewrite Ha.
    unfold js_inner, js_deserialize. rewrite bytes_of_inner_length. cbn [Nat.ltb Nat.leb rbind].
    change (Ok (inr (inner_of_bytes (bytes_of_inner m)) : leaf + inner) = Ok (inr m)).
    rewrite inner_of_bytes_of; [done|]. apply nth_error_In, elem_of_list_In in Hnth.
    by apply (proj1 (Forall_forall _ _) Ti).
  - intros h c Hg Hh31. pose proof (getN_nth _ _ _ Hg) as Hnth.
    assert (Hlt : (N.to_nat h < n)%nat) by (rewrite <- Hcl; apply nth_error_Some; by rewrite Hnth).
    assert (Hlc : length c = cs).
    { pose proof Hnth as Hx. apply nth_error_In, elem_of_list_In in Hx.
      by destruct (proj1 (Forall_forall _ _) Tc _ Hx). }
    unfold js_callback. cbn [js_cb_buf js_cs].
    rewrite (js_slice_in _ _ _ (cs * N.to_nat h) (cs * N.to_nat h + cs)); [|nia|nia|lia|rewrite drop_length; nia].
    replace (cs * N.to_nat h + cs - cs * N.to_nat h)%nat with cs by lia.
    rewrite slice_drop. pose proof (Hcb _ _ Hnth) as Ha. unfold at_offset in Ha. rewrite Hlc in Ha. exact Ha.
  - unfold js_fuel. cbn [js_leaf_buf js_inner_buf]. rewrite !slice_length by nia. lia.
Qed.

Lemma gheight_leaves t : (gheight t < length (gleaves t))%nat.
Proof. induction t as [|i p k l IHl r IHr]; cbn; [lia|]. rewrite app_length. lia. Qed.

(** ** The generator *)
Section Shown.
Context (js : js_slab) (s : slab bytes) (Hs : shows_slab js s).

Definition js_ref (x : N * leaf) : leaf * bytes := (snd x, js_callback js (fst x)).

Lemma js_next_ok desc : forall fuel ts,
  Forall (rep (leaf_nodes s) (inner_nodes s)) ts -> (srank ts < fuel)%nat ->
  match sleaves (negb desc) ts with
  | [] => js_next fuel js desc (map groot ts) = Ok (None, [])
  | x :: rest =>
      exists ts', js_next fuel js desc (map groot ts) = Ok (Some (js_ref x), map groot ts') /\
        Forall (rep (leaf_nodes s) (inner_nodes s)) ts' /\ sleaves (negb desc) ts' = rest /\
        (srank ts' < srank ts)%nat
  end.
Proof.
  induction fuel as [|fuel IH]; intros ts Hts Hf; [lia|].
  destruct ts as [|t ts]; [done|].
  apply Forall_cons in Hts as [Ht Hts]. cbn [map js_next].
  destruct t as [h l|i p k0 l r].
  - destruct Ht as [Hh Hl]. cbn [groot]. rewrite (rbind_ok _ _ _ (sh_leaf _ _ Hs _ _ Hl Hh)).
    assert (sleaves (negb desc) (GL h l :: ts) = (h, l) :: sleaves (negb desc) ts) as ->
      by (unfold sleaves; cbn; by destruct desc).
    exists ts. split; [done|]. split; [done|]. split; [done|]. unfold srank, gsize. cbn. lia.
  - destruct Ht as (Hi&Hn&Hl&Hr). cbn [groot].
    rewrite (rbind_ok _ _ _ (sh_inner _ _ Hs _ _ Hn Hi)). cbn [in_c0 in_c1].
    set (ts2 := if desc then r :: l :: ts else l :: r :: ts).
    assert (Hs2 : sleaves (negb desc) (GI i p k0 l r :: ts) = sleaves (negb desc) ts2).
    { unfold sleaves, ts2. destruct desc; cbn; rewrite ?rev_app_distr, <- ?app_assoc; done. }
    assert (Hr2 : srank (GI i p k0 l r :: ts) = S (srank ts2)).
    { unfold srank, ts2, gsize. destruct desc; cbn; rewrite !app_length; lia. }
    assert (Hst : (if desc then js_next fuel js desc (groot r :: groot l :: map groot ts)
                   else js_next fuel js desc (groot l :: groot r :: map groot ts))
                  = js_next fuel js desc (map groot ts2)) by (unfold ts2; by destruct desc).
    rewrite Hst, Hs2. specialize (IH ts2).
    destruct (sleaves (negb desc) ts2) as [|x rest].
    + apply IH; [unfold ts2; destruct desc; by repeat constructor|lia].
    + destruct IH as (ts'&?&?&?&?); [unfold ts2; destruct desc; by repeat constructor|lia|].
      exists ts'. split; [done|]. split; [done|]. split; [done|]. lia.
Qed.
Lemma js_collect_ok desc : forall fuel ts,
  Forall (rep (leaf_nodes s) (inner_nodes s)) ts ->
  (srank ts < fuel)%nat -> (srank ts < js_fuel js)%nat ->
  js_collect fuel js desc (map groot ts) = Ok (map js_ref (sleaves (negb desc) ts)).
Proof.
  induction fuel as [|fuel IH]; intros ts Hts Hf Hf2; [lia|].
  cbn [js_collect]. pose proof (js_next_ok desc (js_fuel js) ts Hts Hf2) as H.
  destruct (sleaves (negb desc) ts) as [|x rest].
  - rewrite (rbind_ok _ _ _ H). done.
  - destruct H as (ts'&H1&H2&H3&H4). rewrite (rbind_ok _ _ _ H1). cbn [fst snd].
    rewrite (rbind_ok _ _ _ (IH ts' H2 ltac:(lia) ltac:(lia))). by rewrite H3.
Qed.
Lemma js_min_max_ok mx k : forall fuel ts acc,
  Forall (rep (leaf_nodes s) (inner_nodes s)) ts ->
  (srank ts < fuel)%nat -> (srank ts < js_fuel js)%nat -> (length acc <= k)%nat ->
  js_min_max_loop fuel js (N.of_nat k) mx acc (map groot ts) =
  Ok (take k (acc ++ map js_ref (sleaves (negb mx) ts))).
Proof.
  induction fuel as [|fuel IH]; intros ts acc Hts Hf Hf2 Ha; [lia|].
  cbn [js_min_max_loop]. pose proof (js_next_ok mx (js_fuel js) ts Hts Hf2) as H.
  destruct (sleaves (negb mx) ts) as [|x rest].
  - rewrite (rbind_ok _ _ _ H). cbn [fst]. by rewrite app_nil_r, take_ge.
  - destruct H as (ts'&H1&H2&H3&H4). rewrite (rbind_ok _ _ _ H1). cbn [fst snd].
    destruct (N.eqb_spec (N.of_nat (length acc)) (N.of_nat k)) as [E|E].
    + by rewrite take_app_alt by lia.
    + rewrite IH; [|done|lia|lia|rewrite app_length; cbn; lia].
      rewrite H3, <- app_assoc. done.
Qed.

(** ** Lookup *)
Lemma lxor_size a b : a < p128 -> b < p128 -> N.size (N.lxor a b) <= 128.
Proof.
  intros Ha Hb. apply size_le_iff, lt_pow2_bits. intros m Hm.
  by rewrite N.lxor_spec, !high_bits by lia.
Qed.
Lemma js_by_key_ok k : forall t lo fuel,
  rep (leaf_nodes s) (inner_nodes s) t -> gwf lo t -> (gheight t < fuel)%nat ->
  (exists h l, js_by_key_loop fuel js k (groot t) = Ok (Some l) /\ (h, l) ∈ gleaves t /\ lf_key l = k) \/
  (js_by_key_loop fuel js k (groot t) = Ok None /\ k ∉ gkeys t).
Proof.
  induction t as [h l|i p k0 l IHl r IHr]; intros lo fuel Hrep Hwf Hfuel;
    (destruct fuel as [|fuel]; [lia|]); cbn [js_by_key_loop groot].
  - destruct Hrep as [Hh Hl]. rewrite (rbind_ok _ _ _ (sh_leaf _ _ Hs _ _ Hl Hh)).
    destruct (N.eqb_spec (lf_key l) k) as [He|He].
    + left. exists h, l. split; [done|]. split; [cbn; left|done].
    + right. split; [done|]. cbn. rewrite elem_of_list_singleton. congruence.
  - destruct Hrep as (Hi&Hn&Hl&Hr). cbn [gheight] in Hfuel.
    pose proof Hwf as (Hlo&Hp&Hk0&Kl&Kr&Wl&Wr).
    rewrite (rbind_ok _ _ _ (sh_inner _ _ Hs _ _ Hn Hi)). cbn [in_key in_plen in_c0 in_c1].
    unfold js_number. destruct (N.ltb_spec p 9007199254740992); [|lia].
    rewrite !(rbind_ok (Ok p) _ p eq_refl).
    destruct (N.ltb_spec k p128) as [Hk|Hk].
    + assert (E : (128 - Z.of_N (N.size (N.lxor k0 k)))%Z = Z.of_N (lz128 (N.lxor k0 k))).
      { unfold lz128. pose proof (lxor_size k0 k Hk0 Hk). lia. }
      rewrite E. destruct (Z.ltb_spec (Z.of_N (lz128 (N.lxor k0 k))) (Z.of_N p)) as [Hlt|Hge].
      * right. split; [done|]. rewrite gkeys_GI, elem_of_app. intros Hin.
        assert (Hag : agree p k0 k) by (destruct Hin as [Hin|Hin]; [by apply Kl|by apply Kr]).
        apply lz_agree in Hag; [|done|done|lia]. lia.
      * destruct (N.ltb_spec 127 p); [lia|].
        assert (Hb : (N.land k (N.shiftl 1 (127 - p)) =? 0) = negb (crit p k)).
        { rewrite crit_testbit by lia. rewrite N.shiftl_1_l.
          destruct (N.eqb_spec (N.land k (2 ^ (127 - p))) 0) as [Hz|Hz].
          - destruct (N.testbit k (127 - p)) eqn:Et; [|done]. exfalso.
            assert (N.testbit (N.land k (2 ^ (127 - p))) (127 - p) = true)
              by (by rewrite N.land_spec, Et, N.pow2_bits_true). by rewrite Hz, N.bits_0 in H1.
          - destruct (N.testbit k (127 - p)) eqn:Et; [done|]. exfalso. apply Hz.
            apply N.bits_inj. intros j. rewrite N.land_spec, N.bits_0, N.pow2_bits_eqb.
            destruct (N.eqb_spec (127 - p) j) as [<-|]; [by rewrite Et|by rewrite andb_false_r]. }
        rewrite Hb. destruct (crit p k) eqn:Hc; cbn [negb].
        -- destruct (IHr (p + 1) fuel Hr Wr) as [(h&l'&?&?&?)|[? Hni]]; [lia| |].
           ++ left. exists h, l'. split; [done|]. split; [|done]. cbn. apply elem_of_app. by right.
           ++ right. split; [done|]. rewrite gkeys_GI, elem_of_app. intros [Hin|Hin]; [|done].
              apply Kl in Hin as [_ Hc']. congruence.
        -- destruct (IHl (p + 1) fuel Hl Wl) as [(h&l'&?&?&?)|[? Hni]]; [lia| |].
           ++ left. exists h, l'. split; [done|]. split; [|done]. cbn. apply elem_of_app. by left.
           ++ right. split; [done|]. rewrite gkeys_GI, elem_of_app. intros [Hin|Hin]; [done|].
              apply Kr in Hin as [_ Hc']. congruence.
    + right. split.
      * assert (Hsz : 129 <= N.size (N.lxor k0 k)).
        { destruct (N.le_gt_cases 129 (N.size (N.lxor k0 k))) as [|Hlt]; [done|]. exfalso.
          assert (Hx : N.lxor k0 k < p128).
          { eapply N.lt_le_trans; [apply N.size_gt|]. change p128 with (2 ^ 128). apply N.pow_le_mono_r; lia. }
          pose proof (proj1 (size_le_iff _ _) (lxor_size k0 (N.lxor k0 k) Hk0 Hx)) as Hy. change (2 ^ 128) with p128 in Hy.
          rewrite <- N.lxor_assoc, N.lxor_nilpotent, N.lxor_0_l in Hy. lia. }
        destruct (Z.ltb_spec (128 - Z.of_N (N.size (N.lxor k0 k))) (Z.of_N p)); [done|lia].
      * intros Hin. pose proof (gwf_key_lt lo _ k Hwf Hin). lia.
Qed.

(** ** Price levels *)
(** Merge neighbours with the same price; elements are (size, price). *)
Fixpoint levels (os : list (N * N)) : list (N * N) :=
  match os with
  | [] => []
  | (q, p) :: os =>
      match levels os with
      | (q', p') :: r => if p =? p' then (q + q', p) :: r else (q, p) :: (q', p') :: r
      | [] => [(q, p)]
      end
  end.
Lemma levels_head os q p : exists q' r, levels ((q, p) :: os) = (q', p) :: r.
Proof. cbn. destruct (levels os) as [|[q' p'] r]; [by eexists _, _|]. destruct (p =? p'); by eexists _, _. Qed.
Lemma levels_merge os q q' p : levels ((q, p) :: (q', p) :: os) = levels ((q + q', p) :: os).
Proof.
  cbn. destruct (levels os) as [|[q2 p2] r].
  - by rewrite N.eqb_refl.
  - destruct (N.eqb_spec p p2) as [->|]; rewrite N.eqb_refl; [by rewrite N.add_assoc|done].
Qed.
Lemma levels_new os q q' p p' : p <> p' ->
  levels ((q, p) :: (q', p') :: os) = (q, p) :: levels ((q', p') :: os).
Proof.
  intros Hne. destruct (levels_head os q' p') as (q2&r&E).
  change (levels ((q, p) :: (q', p') :: os)) with
    (match levels ((q', p') :: os) with
     | (q2, p2) :: r => if p =? p2 then (q + q2, p) :: r else (q, p) :: (q2, p2) :: r
     | [] => [(q, p)]
     end).
  rewrite E. destruct (N.eqb_spec p p'); [done|]. done.
Qed.

Definition flat (acc : list (N * N)) : list N := concat (map (fun x => [fst x; snd x]) acc).
Lemma flat_app a b : flat (a ++ b) = flat a ++ flat b.
Proof. unfold flat. by rewrite map_app, concat_app. Qed.
Lemma flat_length a : length (flat a) = (2 * length a)%nat.
Proof. unfold flat. induction a as [|x a IH]; [done|]. cbn [map concat app length]. rewrite IH. lia. Qed.
Lemma js_pairs_flat a : js_pairs (flat a) = a.
Proof. unfold flat. induction a as [|[q p] a IH]; [done|]. cbn [map concat app js_pairs fst snd]. by rewrite IH. Qed.

Definition lv (l : leaf) : N * N := (lf_qty l, js_get_price l).
(** The loop of getL2DepthJS on the sequence of leaves it meets. *)
Fixpoint l2_fold (depth : N) (raw : list N) (ls : list leaf) : list N :=
  match ls with
  | [] => raw
  | l :: ls =>
      if (match js_last raw with Some p => p =? js_get_price l | None => false end) then
        l2_fold depth (match raw !! (length raw - 2)%nat with
                       | Some sz => <[(length raw - 2)%nat := sz + lf_qty l]> raw
                       | None => raw
                       end) ls
      else if N.of_nat (length raw) =? 2 * depth then raw
      else l2_fold depth (raw ++ [lf_qty l; js_get_price l]) ls
  end.
Lemma js_l2_ok depth inc : forall fuel ts raw,
  Forall (rep (leaf_nodes s) (inner_nodes s)) ts -> (srank ts < fuel)%nat ->
  js_l2_loop fuel js depth inc raw (map groot ts) = Ok (l2_fold depth raw (map snd (sleaves inc ts))).
Proof.
  induction fuel as [|fuel IH]; intros ts raw Hts Hf; [lia|].
  destruct ts as [|t ts]; [done|].
  apply Forall_cons in Hts as [Ht Hts]. cbn [map js_l2_loop].
  destruct t as [h l|i p k0 l r].
  - destruct Ht as [Hh Hl]. cbn [groot]. rewrite (rbind_ok _ _ _ (sh_leaf _ _ Hs _ _ Hl Hh)).
    assert (sleaves inc (GL h l :: ts) = (h, l) :: sleaves inc ts) as ->
      by (unfold sleaves; cbn; by destruct inc).
    assert (Hr : (srank ts < fuel)%nat) by (unfold srank, gsize in *; cbn in *; lia).
    cbn [map snd l2_fold].
    destruct (match js_last raw with Some p => p =? js_get_price l | None => false end).
    + by apply IH.
    + destruct (N.of_nat (length raw) =? 2 * depth); [done|]. by apply IH.
  - destruct Ht as (Hi&Hn&Hl&Hr). cbn [groot].
    rewrite (rbind_ok _ _ _ (sh_inner _ _ Hs _ _ Hn Hi)). cbn [in_c0 in_c1].
    set (ts2 := if inc then l :: r :: ts else r :: l :: ts).
    assert (Hs2 : sleaves inc (GI i p k0 l r :: ts) = sleaves inc ts2).
    { unfold sleaves, ts2. destruct inc; cbn; rewrite ?rev_app_distr, <- ?app_assoc; done. }
    assert (Hr2 : srank (GI i p k0 l r :: ts) = S (srank ts2)).
    { unfold srank, ts2, gsize. destruct inc; cbn; rewrite !app_length; lia. }
    rewrite Hs2. rewrite <- IH; [|unfold ts2; destruct inc; by repeat constructor|lia].
    unfold ts2. by destruct inc.
Qed.

Lemma l2_fold_acc depth : forall ls acc q p, (S (length acc) <= depth)%nat ->
  l2_fold (N.of_nat depth) (flat (acc ++ [(q, p)])) ls =
  flat (take depth (acc ++ levels ((q, p) :: map lv ls))).
Proof.
  induction ls as [|l ls IH]; intros acc q p Hd.
  - cbn [l2_fold map]. cbn [levels]. rewrite take_ge; [done|]. rewrite app_length. cbn. lia.
  - cbn [l2_fold map].
    assert (Hlen : length (flat (acc ++ [(q, p)])) = (length (flat acc) + 2)%nat)
      by (rewrite flat_app, app_length; done).
    assert (Hflat : flat (acc ++ [(q, p)]) = flat acc ++ [q; p]) by (by rewrite flat_app).
    assert (Hlast : js_last (flat (acc ++ [(q, p)])) = Some p).
    { unfold js_last. rewrite Hlen, Hflat, lookup_app_r by lia.
      by replace (Nat.pred (length (flat acc) + 2) - length (flat acc))%nat with 1%nat by lia. }
    rewrite Hlast. unfold lv at 1. destruct (N.eqb_spec p (js_get_price l)) as [->|Hne].
    + rewrite Hlen. replace (length (flat acc) + 2 - 2)%nat with (length (flat acc) + 0)%nat by lia.
      rewrite Hflat. rewrite lookup_app_r by lia.
      replace (length (flat acc) + 0 - length (flat acc))%nat with 0%nat by lia. cbn [lookup list_lookup].
      rewrite insert_app_r. cbn [insert list_insert].
      rewrite levels_merge. rewrite <- IH by done. by rewrite flat_app.
    + rewrite levels_new by done. rewrite Hlen, flat_length.
      destruct (N.eqb_spec (N.of_nat (2 * length acc + 2)) (2 * N.of_nat depth)) as [E|E].
      * rewrite (cons_middle (q, p) acc (levels _)), (app_assoc acc), (take_app_alt (acc ++ [(q, p)])); [done|].
        rewrite app_length. cbn. lia.
      * change [lf_qty l; js_get_price l] with (flat [(lf_qty l, js_get_price l)]).
        rewrite <- flat_app. rewrite IH by (rewrite app_length; cbn; lia).
        unfold lv at 2. by rewrite <- app_assoc.
Qed.
Lemma l2_fold_levels depth ls :
  l2_fold (N.of_nat depth) [] ls = flat (take depth (levels (map lv ls))).
Proof.
  destruct ls as [|l ls]; [by destruct depth|]. cbn [l2_fold]. unfold js_last. cbn [length Nat.pred lookup list_lookup].
  destruct (N.eqb_spec (N.of_nat 0) (2 * N.of_nat depth)) as [E|E].
  - by replace depth with 0%nat by lia.
  - change ([] ++ [lf_qty l; js_get_price l]) with (flat ([] ++ [(lf_qty l, js_get_price l)])).
    rewrite l2_fold_acc by (cbn; lia). done.
Qed.
End Shown.

(** ** The four readers on a slab that shows the entries [es] *)
Section Readers.
Context (js : js_slab) (s : slab bytes) (es : list (ent (C := bytes))) (Hs : shows_slab js s) (Hr : srep s es).

Lemma js_refs : forall hs, hs = map e_hl es -> map (js_ref js) hs = map e_order es.
Proof.
  intros hs ->. rewrite map_map. apply map_ext_in. intros e He. apply elem_of_list_In in He.
  destruct (srep_entry s es e Hr He) as (_&Hc&Hlt). pose proof (d_max _ (srep_dims _ _ Hr)) as Hmax.
  unfold js_ref, e_order, e_hl. cbn [fst snd]. f_equal. apply (sh_cb _ _ Hs); [done|lia].
Qed.
Lemma start_tree : exists ts, js_start js = map groot ts /\
  Forall (rep (leaf_nodes s) (inner_nodes s)) ts /\ (srank ts < js_fuel js)%nat /\
  forall asc, sleaves asc ts = if asc then map e_hl es else rev (map e_hl es).
Proof.
  pose proof (srep_le_cap _ _ Hr) as Hcap. pose proof (sh_fuel _ _ Hs) as Hf.
  destruct Hr as (ot&fl&ifl&[Hd Ht Hl Hi]&Hes&Hcb). unfold js_start. rewrite (sh_hdr _ _ Hs).
  destruct ot as [t|]; cbn [oleaves oinners tree_rep] in *.
  - destruct Ht as (Hroot&Hlc&Hrep&Hwf). rewrite Hroot.
    destruct (N.eqb_spec (leaf_count (hdr s)) 0) as [Hz|_].
    { exfalso. pose proof (gleaves_ne t). destruct (gleaves t); [done|]. cbn in Hlc. lia. }
    exists [t]. split; [done|]. split; [by repeat constructor|]. split.
    + unfold srank, gsize. cbn [sum_list_with]. pose proof (ginners_length t).
      assert (length (gleaves t) = length es) by (by rewrite <- Hes, map_length). lia.
    + intros asc. unfold sleaves. cbn. rewrite app_nil_r. unfold dir_leaves. by rewrite <- Hes.
  - rewrite Ht. cbn [N.eqb]. exists []. split; [done|]. split; [constructor|]. split; [unfold js_fuel; cbn; lia|].
    intros asc. destruct es; [|done]. by destruct asc.
Qed.
Lemma js_items_ok desc :
  js_items js desc = Ok (if desc then rev (map e_order es) else map e_order es).
Proof.
  destruct start_tree as (ts&Hst&Hrep&Hf&Hsl). unfold js_items. rewrite Hst.
  rewrite (js_collect_ok js s Hs) by done. rewrite Hsl.
  destruct desc; cbn [negb]; rewrite ?map_rev, (js_refs _ eq_refl); done.
Qed.
Lemma js_min_max_nodes_ok k mx :
  js_get_min_max_nodes js (N.of_nat k) mx =
  Ok (take k (if mx then rev (map e_order es) else map e_order es)).
Proof.
  destruct start_tree as (ts&Hst&Hrep&Hf&Hsl). unfold js_get_min_max_nodes. rewrite Hst.
  rewrite (js_min_max_ok js s Hs) by (done || cbn; lia). cbn [app]. rewrite Hsl.
  destruct mx; cbn [negb]; rewrite ?map_rev, (js_refs _ eq_refl); done.
Qed.
Lemma js_node_by_key_ok k :
  (exists e, e ∈ es /\ e_key e = k /\ js_get_node_by_key js k = Ok (Some (e_l e))) \/
  (k ∉ map e_key es /\ js_get_node_by_key js k = Ok None).
Proof.
  pose proof (srep_le_cap _ _ Hr) as Hcap. pose proof (sh_fuel _ _ Hs) as Hf.
  destruct Hr as (ot&fl&ifl&[Hd Ht Hl Hi]&Hes&Hcb). unfold js_get_node_by_key. rewrite (sh_hdr _ _ Hs).
  destruct ot as [t|]; cbn [oleaves oinners tree_rep] in *.
  - destruct Ht as (Hroot&Hlc&Hrep&Hwf). rewrite Hroot.
    destruct (N.eqb_spec (leaf_count (hdr s)) 0) as [Hz|_].
    { exfalso. pose proof (gleaves_ne t). destruct (gleaves t); [done|]. cbn in Hlc. lia. }
    assert (Hh : (gheight t < js_fuel js)%nat).
    { pose proof (gheight_leaves t). assert (length (gleaves t) = length es) by (by rewrite <- Hes, map_length). lia. }
    destruct (js_by_key_ok js s Hs k t 0 (js_fuel js) Hrep Hwf Hh) as [(h&l&Hw&Hin&Hkl)|[Hw Hni]].
    + left. rewrite <- Hes in Hin. apply elem_of_list_fmap_2 in Hin as (e&He&Hin).
      unfold e_hl in He. injection He as -> ->. exists e. done.
    + right. split; [|done]. intros Hin. apply Hni. unfold gkeys. by rewrite <- Hes, map_map.
  - rewrite Ht. cbn [N.eqb]. destruct es; [|done]. right. split; [by apply not_elem_of_nil|done].
Qed.
Lemma js_l2_depth_ok d inc :
  js_get_l2_depth js (N.of_nat d) inc =
  Ok (take d (levels (map lv (if inc then map e_l es else rev (map e_l es))))).
Proof.
  destruct start_tree as (ts&Hst&Hrep&Hf&Hsl). unfold js_get_l2_depth. unfold js_start in Hst.
  destruct (leaf_count (js_header js) =? 0).
  - specialize (Hsl true). destruct ts; [|done]. cbn in Hsl. destruct es; [|done]. by destruct inc, d.
  - rewrite Hst. rewrite (rbind_ok _ _ _ (js_l2_ok js s Hs _ inc _ ts [] Hrep Hf)).
    rewrite Hsl, l2_fold_levels, js_pairs_flat. do 4 f_equal.
    destruct inc; rewrite ?map_rev, map_map; done.
Qed.
End Readers.
