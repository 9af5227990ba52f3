(** * PropsHost.v: C68, accounts in memory and the build for other targets *)
From Verif Require Import Machine Bytes Critbit EventQueue OrderBook MachineProofs QueueProofs
  Layout LayoutProofs PropsLayout Host.
From Coq Require Import ZifyBool ZifyNat ZifyN.

(** ** Lemmas *)
Lemma aligned_iff a base off : a <> 0 ->
  aligned a base off = true <-> (a | base + N.of_nat off).
Proof. intros Ha. unfold aligned. rewrite N.eqb_eq. by rewrite N.mod_divide. Qed.
Lemma cast_at_ok a base off : a <> 0 -> (a | base + N.of_nat off) -> cast_at a base off = Ok tt.
Proof. intros Ha H. unfold cast_at. by rewrite (proj2 (aligned_iff a base off Ha) H). Qed.
Lemma cast_at_bad a base off : a <> 0 -> ~ (a | base + N.of_nat off) ->
  cast_at a base off = Panic PCast.
Proof.
  intros Ha H. unfold cast_at. destruct (aligned a base off) eqn:E; [|done].
  by apply aligned_iff in E.
Qed.
Lemma cast_at_inv a base off (x : unit) : a <> 0 -> cast_at a base off = Ok x ->
  (a | base + N.of_nat off).
Proof.
  intros Ha. unfold cast_at. destruct (aligned a base off) eqn:E; [|done].
  intros _. by apply aligned_iff in E.
Qed.
Lemma divides_8 base off : (8 | base) -> N.of_nat off mod 8 = 0 -> (8 | base + N.of_nat off).
Proof. intros H H'. apply N.divide_add_r; [done|]. by apply N.mod_divide. Qed.

(** The function with addresses is the one without, behind the address checks. *)
Lemma slab_at_eq a128 ac cs base buf tag :
  (64 + cs <= length buf)%nat -> hd 0 buf = tag ->
  let n := slab_inners cs (length buf) in
  slab_from_buffer_at a128 ac cs base buf tag =
  (let? _ := cast_at 4 base 8 in
   let? _ := cast_at 8 base 40 in
   let? _ := cast_at a128 base (40 + 24 * S n) in
   let? _ := cast_at ac base (40 + 24 * S n + 32 * n) in
   slab_from_buffer cs buf tag).
Proof.
  intros Hlen Ht n. unfold slab_from_buffer_at, slab_from_buffer. lens.
  destruct (Nat.ltb_spec (length buf) (32 + 8 + (24 + cs))); [lia|].
  rewrite Ht, N.eqb_refl. cbn [negb].
  replace ((length buf - 32 - 8 - (24 + cs)) / (24 + cs + 32))%nat with n.
  2:{ unfold n, slab_inners. f_equal; lia. }
  replace (8 + 32 + (n + 1) * 24)%nat with (40 + 24 * S n)%nat by lia.
  replace (40 + 24 * S n + n * 32)%nat with (40 + 24 * S n + 32 * n)%nat by lia.
  reflexivity.
Qed.
Lemma slab_at_short a128 ac cs base buf tag :
  (length buf < 64 + cs)%nat \/ hd 0 buf <> tag ->
  slab_from_buffer_at a128 ac cs base buf tag = slab_from_buffer cs buf tag.
Proof.
  intros H. unfold slab_from_buffer_at, slab_from_buffer. lens.
  destruct (Nat.ltb_spec (length buf) (32 + 8 + (24 + cs))); [done|].
  destruct H as [H|H]; [lia|]. by apply N.eqb_neq in H as ->.
Qed.

(** ** C68: accounts in memory

    An account opens at an address exactly when it opens by its content and the four
    regions of a slab are where their types may be.  [n] is the order capacity. *)
Theorem C68_slab : forall a128 ac cs base n buf tag s,
  a128 = 8 \/ a128 = 16 -> ac <> 0 -> (1 <= n)%nat ->
  length buf = (40 + 24 * n + 32 * (n - 1) + cs * n)%nat ->
  slab_from_buffer_at a128 ac cs base buf tag = Ok s <->
  slab_from_buffer cs buf tag = Ok s /\ (8 | base) /\
  (a128 | base + N.of_nat (40 + 24 * n)) /\
  (ac | base + N.of_nat (40 + 24 * n + 32 * (n - 1))).
Proof.
  intros a128 ac cs base n buf tag s Ha Hac Hn Hl.
  destruct (N.eq_dec (hd 0 buf) tag) as [Ht|Ht].
  2:{ rewrite slab_at_short by auto. unfold slab_from_buffer.
      destruct (_ <? _)%nat; [split; [done|by intros [? _]]|].
      apply N.eqb_neq in Ht as ->. split; [done|by intros [? _]]. }
  assert (Hge : (64 + cs <= length buf)%nat) by nia.
  pose proof (slab_at_eq a128 ac cs base buf tag Hge Ht) as E. cbv zeta in E.
  rewrite Hl, (slab_inners_alloc cs n Hn) in E.
  replace (S (n - 1)) with n in E by lia. rewrite E. clear E.
  assert (Ha0 : a128 <> 0) by (destruct Ha; lia).
  destruct (aligned 4 base 8) eqn:E4.
  2:{ unfold cast_at at 1. rewrite E4. cbv beta iota delta [rbind]. split; [done|]. intros (_ & H8 & _).
      assert (aligned 4 base 8 = true); [|congruence]. apply aligned_iff; [done|].
      apply N.divide_add_r; [|by exists 2].
      apply (N.divide_trans _ 8); [by exists 2|done]. }
  unfold cast_at at 1. rewrite E4. cbv beta iota delta [rbind].
  assert (H40 : (8 | base + N.of_nat 40) <-> (8 | base)).
  { replace (N.of_nat 40) with (8 * 5) by done. split.
    - intros H. apply (N.divide_add_cancel_r 8 (8 * 5)); [by exists 5|]. by rewrite N.add_comm.
    - intros H. apply N.divide_add_r; [done|by exists 5]. }
  split.
  - intros H.
    destruct (cast_at 8 base 40) eqn:E8; cbv beta iota delta [rbind] in H; [|done..].
    destruct (cast_at a128 base _) eqn:E16 in H; cbv beta iota delta [rbind] in H; [|done..].
    destruct (cast_at ac base _) eqn:Ec in H; cbv beta iota delta [rbind] in H; [|done..].
    apply cast_at_inv in E8, E16, Ec; [|done..]. rewrite H40 in E8. done.
  - intros (H & H8 & H16 & Hc).
    rewrite (cast_at_ok 8 base 40), (cast_at_ok a128), (cast_at_ok ac);
      [done|done|done|done|done|done|by apply H40].
Qed.

(** On chain (u128 aligned on 8, account data at a multiple of 8, callback infos that
    need no more than that) addresses never matter, for accounts of any content and
    length, in success as in failure. *)
Theorem C68_on_chain_slab : forall ac cs base buf tag,
  (8 | base) -> (ac | 8) ->
  slab_from_buffer_at 8 ac cs base buf tag = slab_from_buffer cs buf tag.
Proof.
  intros ac cs base buf tag Hb Hac.
  assert (Hac0 : ac <> 0). { intros ->. by apply N.divide_0_l in Hac. }
  destruct (decide (length buf < 64 + cs)%nat) as [Hs|Hge]; [by apply slab_at_short; left|].
  destruct (N.eq_dec (hd 0 buf) tag) as [Ht|Ht]; [|by apply slab_at_short; right].
  rewrite slab_at_eq by (done || lia). cbv zeta.
  set (n := slab_inners cs (length buf)). clearbody n.
  rewrite (cast_at_ok 4), (cast_at_ok 8), (cast_at_ok 8), (cast_at_ok ac); [done|done| |done| |done| |done|].
  - apply (N.divide_trans _ 8); [done|]. apply divides_8; [done|]. lia.
  - apply divides_8; [done|]. lia.
  - by apply divides_8.
  - apply (N.divide_trans _ 8); [by exists 2|]. by apply divides_8.
Qed.
Theorem C68_on_chain_queue : forall ac cs base buf tag,
  (8 | base) -> (ac | 8) ->
  queue_from_buffer_at ac cs base buf tag = queue_from_buffer cs buf tag.
Proof.
  intros ac cs base buf tag Hb Hac.
  assert (Hac0 : ac <> 0). { intros ->. by apply N.divide_0_l in Hac. }
  unfold queue_from_buffer_at, queue_from_buffer. lens.
  destruct (_ <? _)%nat; [done|]. destruct (read_tag buf); cbv beta iota delta [rbind]; [|done..].
  rewrite (cast_at_ok 8) by (done || (rewrite N.add_0_r; done)). cbv beta iota delta [rbind].
  destruct (negb _); [done|].
  set (n := ((length buf - 8 - 24) / (40 + 2 * cs))%nat). clearbody n.
  rewrite (cast_at_ok 8), (cast_at_ok 8), (cast_at_ok ac); [done|done| |done| |done|].
  - apply (N.divide_trans _ 8); [done|]. apply divides_8; [done|]. lia.
  - by apply divides_8.
  - by apply divides_8.
Qed.
Theorem C68_on_chain_market : forall base buf tag,
  (8 | base) -> market_from_buffer_at base buf tag = market_from_buffer buf tag.
Proof.
  intros base buf tag Hb. unfold market_from_buffer_at, market_from_buffer.
  destruct (read_tag buf); cbv beta iota delta [rbind]; [|done..].
  rewrite (cast_at_ok 8) by (done || (rewrite N.add_0_r; done)). cbv beta iota delta [rbind].
  destruct (negb _); [done|]. rewrite (cast_at_ok 8); [done|done|]. by apply divides_8.
Qed.
(** Data that is not at a multiple of 8 opens as no account at all. *)
Theorem C68_misplaced : forall a128 ac cs base buf tag,
  ~ (8 | base) -> ac <> 0 -> a128 <> 0 ->
  (forall s, slab_from_buffer_at a128 ac cs base buf tag <> Ok s) /\
  (forall r, queue_from_buffer_at ac cs base buf tag <> Ok r) /\
  (forall r, market_from_buffer_at base buf tag <> Ok r).
Proof.
  intros a128 ac cs base buf tag H Hac Ha.
  assert (H0 : cast_at 8 base 0 = Panic PCast). { apply cast_at_bad; [done|]. by rewrite N.add_0_r. }
  assert (H40 : cast_at 8 base 40 = Panic PCast).
  { apply cast_at_bad; [done|]. intros H'. destruct H.
    apply (N.divide_add_cancel_r 8 (N.of_nat 40)); [by exists 5|]. by rewrite N.add_comm. }
  split_and!.
  - intros s. unfold slab_from_buffer_at. lens. destruct (_ <? _)%nat; [done|].
    destruct (negb _); [done|]. destruct (cast_at 4 base 8); cbv beta iota delta [rbind]; [|done..].
    change (8 + 32)%nat with 40%nat. rewrite H40. done.
  - intros r. unfold queue_from_buffer_at. destruct (_ <? _)%nat; [done|].
    destruct (read_tag buf); cbv beta iota delta [rbind]; [|done..]. rewrite H0. done.
  - intros r. unfold market_from_buffer_at.
    destruct (read_tag buf); cbv beta iota delta [rbind]; [|done..]. rewrite H0. done.
Qed.

(** Off chain, where u128 is aligned on 16: a well-formed slab account of capacity [n]
    opens exactly at the addresses that are 8 (for even [n]) or 0 (for odd [n]) modulo
    16.  At any other address the library panics. *)
Theorem C68_off_chain_slab : forall ac cs base n buf tag,
  (ac | 8) -> cs <> 0%nat -> (1 <= n)%nat ->
  length buf = (40 + 24 * n + 32 * (n - 1) + cs * n)%nat -> bytes_ok buf -> hd 0 buf = tag ->
  (base mod 16 = (if Nat.even n then 8 else 0) ->
     exists s, slab_from_buffer_at 16 ac cs base buf tag = Ok s /\ slab_at cs n buf s) /\
  (base mod 16 <> (if Nat.even n then 8 else 0) ->
     slab_from_buffer_at 16 ac cs base buf tag = Panic PCast).
Proof.
  intros ac cs base n buf tag Hac Hcs Hn Hl Hb Ht.
  assert (Hac0 : ac <> 0). { intros ->. by apply N.divide_0_l in Hac. }
  assert (Hsize : slab_allocation_size cs n = Ok (length buf)) by (by apply C41_allocation_size).
  destruct (C41_open cs n _ buf tag Hcs Hsize eq_refl Hb Ht) as (s & Es & _ & Hs).
  assert (Hpar : base mod 16 = (if Nat.even n then 8 else 0) <->
                 (16 | base + N.of_nat (40 + 24 * n))).
  { rewrite <- N.mod_divide by done. destruct (Nat.even n) eqn:En.
    - apply Nat.even_spec in En as [k ->]. lia.
    - assert (Ho : Nat.odd n = true) by (by rewrite <- Nat.negb_even, En).
      apply Nat.odd_spec in Ho as [k ->]. lia. }
  split; intros H.
  - exists s. split; [|done]. apply (C68_slab 16 ac cs base n); [by right|done..|].
    apply Hpar in H. split_and!; [done| |done|].
    + apply N.mod_divide in H; [|done]. apply N.mod_divide; [done|]. lia.
    + apply (N.divide_trans _ 8); [done|].
      apply N.mod_divide in H; [|done]. apply N.mod_divide; [done|]. lia.
  - assert (Hge : (64 + cs <= length buf)%nat) by nia.
    pose proof (slab_at_eq 16 ac cs base buf tag Hge Ht) as E. cbv zeta in E.
    rewrite Hl, (slab_inners_alloc cs n Hn) in E.
    replace (S (n - 1)) with n in E by lia. rewrite E.
    assert (Hcast : forall a off, cast_at a base off = Ok tt \/ cast_at a base off = Panic PCast).
    { intros a off. unfold cast_at. destruct (aligned a base off); auto. }
    destruct (Hcast 4 8%nat) as [->| ->]; cbv beta iota delta [rbind]; [|done].
    destruct (Hcast 8 40%nat) as [->| ->]; cbv beta iota delta [rbind]; [|done].
    rewrite cast_at_bad; [done|done|]. by rewrite <- Hpar.
Qed.
(** So there is no address at which two slabs of consecutive capacities both open. *)
Theorem C68_off_chain_refuted : forall ac cs base n buf buf' tag s s',
  (ac | 8) -> cs <> 0%nat -> (1 <= n)%nat ->
  length buf = (40 + 24 * n + 32 * (n - 1) + cs * n)%nat ->
  length buf' = (40 + 24 * S n + 32 * n + cs * S n)%nat ->
  slab_from_buffer_at 16 ac cs base buf tag = Ok s ->
  slab_from_buffer_at 16 ac cs base buf' tag = Ok s' -> False.
Proof.
  intros ac cs base n buf buf' tag s s' Hac Hcs Hn Hl Hl' H H'.
  assert (Hac0 : ac <> 0). { intros ->. by apply N.divide_0_l in Hac. }
  apply (C68_slab 16 ac cs base n) in H; [|by right|done..].
  apply (C68_slab 16 ac cs base (S n)) in H'; [|by right|done|lia|].
  2:{ rewrite Hl'. cbn. lia. }
  destruct H as (_ & _ & H & _), H' as (_ & _ & H' & _).
  apply N.mod_divide in H, H'; [|done..]. lia.
Qed.

(** ** Order ids as two words *)

(** Off chain an order id is split into two words and put together again: nothing is
    lost, and two ids are the same exactly when their words are. *)
Theorem C68_words : forall o, o < p128 ->
  fst (words_of_order_id o) < p64 /\ snd (words_of_order_id o) < p64 /\
  order_id_of_words (words_of_order_id o) = o.
Proof.
  intros o Ho. unfold words_of_order_id, order_id_of_words. cbn [fst snd].
  rewrite N.shiftr_div_pow2, N.shiftl_mul_pow2. change (2 ^ 64) with p64.
  assert (o / p64 < p64) by (apply N.div_lt_upper_bound; [done|]; exact Ho).
  rewrite (N.mod_small (o / p64)) by done.
  split_and!; [by apply N.mod_lt|done|].
  rewrite (N.div_mod o p64) at 3 by done. lia.
Qed.
Theorem C68_words_back : forall k, fst k < p64 -> snd k < p64 ->
  order_id_of_words k < p128 /\ words_of_order_id (order_id_of_words k) = k.
Proof.
  intros [lo hi] Hlo Hhi. cbn [fst snd] in *. unfold words_of_order_id, order_id_of_words.
  cbn [fst snd]. rewrite N.shiftr_div_pow2, N.shiftl_mul_pow2. change (2 ^ 64) with p64.
  rewrite N.div_add, N.mod_add by done. rewrite (N.div_small lo), (N.mod_small lo) by done.
  rewrite N.add_0_l, (N.mod_small hi) by done. split; [|done].
  change p128 with (p64 * p64). nia.
Qed.
Theorem C68_words_same : forall k k',
  fst k < p64 -> snd k < p64 -> fst k' < p64 -> snd k' < p64 ->
  words_eqb k k' = true <-> order_id_of_words k = order_id_of_words k'.
Proof.
  intros k k' H1 H2 H3 H4. unfold words_eqb. rewrite andb_true_iff, !N.eqb_eq. split.
  - intros [E1 E2]. unfold order_id_of_words. congruence.
  - intros E. apply (f_equal words_of_order_id) in E.
    rewrite (proj2 (C68_words_back k H1 H2)), (proj2 (C68_words_back k' H3 H4)) in E.
    by subst k'.
Qed.

Lemma le_dec_app l k : le_dec (l ++ k) = le_dec l + 256 ^ N.of_nat (length l) * le_dec k.
Proof.
  induction l as [|b l IH]; cbn [app le_dec length].
  { change (256 ^ N.of_nat 0) with 1. change (le_dec []) with 0. lia. }
  change (le_dec (b :: l ++ k)) with (b + 256 * le_dec (l ++ k)).
  change (le_dec (b :: l)) with (b + 256 * le_dec l).
  rewrite IH, Nat2N.inj_succ, N.pow_succ_r'. lia.
Qed.
Lemma take_split {A} n k (l : list A) : take (n + k) l = take n l ++ take k (drop n l).
Proof.
  revert l. induction n as [|n IH]; intros l; [done|].
  destruct l as [|x l]; cbn; [by destruct k|]. by rewrite IH.
Qed.
Lemma words_of_slice b off : (off + 16 <= length b)%nat ->
  order_id_of_words (le_dec (slice b off 8), le_dec (slice b (off + 8) 8)) =
  le_dec (slice b off 16).
Proof.
  intros Hl. unfold order_id_of_words. cbn [fst snd]. rewrite N.shiftl_mul_pow2.
  assert (E : slice b off 16 = slice b off 8 ++ slice b (off + 8) 8).
  { unfold slice. rewrite <- drop_drop. apply (take_split 8 8). }
  rewrite E, le_dec_app.
  assert (length (slice b off 8) = 8%nat) as ->.
  { unfold slice. rewrite take_length, drop_length. lia. }
  change (256 ^ N.of_nat 8) with (2 ^ 64). lia.
Qed.
(** The same bytes mean the same leaf, fill and out event in both builds. *)
Theorem C68_same_leaf : forall b, length b = leaf_len ->
  mk_leaf (order_id_of_words (hl_key (host_leaf_of_bytes b))) (hl_qty (host_leaf_of_bytes b)) =
  leaf_of_bytes b.
Proof.
  intros b Hl. unfold leaf_len in Hl. unfold host_leaf_of_bytes, leaf_of_bytes. cbn [hl_key hl_qty].
  f_equal. apply (words_of_slice b 0). lia.
Qed.
Theorem C68_same_fill : forall b, length b = fill_len ->
  mk_fill_event (hf_tag (host_fill_of_bytes b)) (hf_taker_side (host_fill_of_bytes b))
    (hf_pad (host_fill_of_bytes b)) (hf_quote (host_fill_of_bytes b))
    (order_id_of_words (hf_maker (host_fill_of_bytes b))) (hf_base (host_fill_of_bytes b)) =
  fill_of_bytes b.
Proof.
  intros b Hl. unfold fill_len in Hl. unfold host_fill_of_bytes, fill_of_bytes.
  cbn [hf_tag hf_taker_side hf_pad hf_quote hf_maker hf_base].
  f_equal. apply (words_of_slice b 16). lia.
Qed.
Theorem C68_same_out : forall b, length b = fill_len ->
  mk_out_event (ho_tag (host_out_of_bytes b)) (ho_side (host_out_of_bytes b))
    (ho_pad (host_out_of_bytes b)) (order_id_of_words (ho_id (host_out_of_bytes b)))
    (ho_base (host_out_of_bytes b)) =
  out_of_bytes b.
Proof.
  intros b Hl. unfold fill_len in Hl. unfold host_out_of_bytes, out_of_bytes.
  cbn [ho_tag ho_side ho_pad ho_id ho_base].
  f_equal. apply (words_of_slice b 16). lia.
Qed.
(** And the same leaf is written as the same bytes. *)
Theorem C68_same_bytes : forall o q, o < p128 ->
  bytes_of_host_leaf (mk_host_leaf (words_of_order_id o) q) = bytes_of_leaf (mk_leaf o q).
Proof.
  intros o q Ho. unfold bytes_of_host_leaf, bytes_of_leaf. cbn [hl_key hl_qty lf_key lf_qty].
  rewrite app_assoc. f_equal.
  destruct (C68_words o Ho) as (H1 & H2 & H3). set (k := words_of_order_id o) in *.
  assert (Hb : bytes_ok (le_enc 8 (fst k) ++ le_enc 8 (snd k))).
  { apply bytes_ok_app. split; apply le_enc_ok. }
  rewrite <- (le_enc_dec _ Hb), app_length, !le_enc_length. f_equal.
  rewrite le_dec_app, le_enc_length, !le_dec_enc_small by (exact H1 || exact H2).
  rewrite <- H3. unfold order_id_of_words. rewrite N.shiftl_mul_pow2.
  change (256 ^ N.of_nat 8) with (2 ^ 64). lia.
Qed.

(** ** Examples: a bids account of capacity 2, all zero but the tag, and one of capacity 3 *)
Definition host_two : bytes := tag_bids :: zeros (40 + 24 * 2 + 32 * 1 + 32 * 2 - 1).
Definition host_three : bytes := tag_bids :: zeros (40 + 24 * 3 + 32 * 2 + 32 * 3 - 1).
(** It opens on chain, where the loader puts it, ... *)
Example C68_ex_chain :
  exists s, slab_from_buffer_at 8 1 32 17179869288 host_two tag_bids = Ok s /\
            length (leaf_nodes s) = 2%nat.
Proof. eexists. split; [vm_compute; reflexivity|reflexivity]. Qed.
(** ... but not off chain at a 16-byte aligned address, where capacity 3 opens. *)
Example C68_ex_host_two : slab_from_buffer_at 16 1 32 1024 host_two tag_bids = Panic PCast.
Proof. reflexivity. Qed.
Example C68_ex_host_three :
  exists s, slab_from_buffer_at 16 1 32 1024 host_three tag_bids = Ok s /\
            length (leaf_nodes s) = 3%nat.
Proof. eexists. split; [vm_compute; reflexivity|reflexivity]. Qed.
Example C68_ex_words : words_of_order_id (7 * p64 + 5) = (5, 7).
Proof. reflexivity. Qed.

Print Assumptions C68_slab.
Print Assumptions C68_on_chain_slab.
Print Assumptions C68_on_chain_queue.
Print Assumptions C68_on_chain_market.
Print Assumptions C68_misplaced.
Print Assumptions C68_off_chain_slab.
Print Assumptions C68_off_chain_refuted.
Print Assumptions C68_words.
Print Assumptions C68_words_back.
Print Assumptions C68_words_same.
Print Assumptions C68_same_leaf.
Print Assumptions C68_same_fill.
Print Assumptions C68_same_out.
Print Assumptions C68_same_bytes.
