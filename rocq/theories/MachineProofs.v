(** * MachineProofs.v: lemmas about Machine.v, Bytes.v and bits of keys *)
From Verif Require Import Machine Bytes Critbit.
From Coq Require Import ZifyBool ZifyNat ZifyN.

Global Arguments not32 : simpl never.
Global Arguments not64 : simpl never.
Global Arguments as_u32 : simpl never.
Global Arguments as_u64 : simpl never.
Global Arguments lz128 : simpl never.
Global Arguments getN : simpl never.
Global Arguments setN : simpl never.
Global Arguments idx : simpl never.
Global Arguments upd : simpl never.
Global Arguments add_w : simpl never.
Global Arguments sub_w : simpl never.
Global Arguments mul_w : simpl never.
Global Arguments bind : simpl never.
Global Arguments rbind : simpl never.
Global Arguments get : simpl never.
Global Arguments put : simpl never.
Global Arguments lift : simpl never.
Global Arguments ret : simpl never.
Global Arguments modify : simpl never.
Global Arguments zoom : simpl never.
Global Arguments loop : simpl never.
Global Arguments fp32_div : simpl never.
Global Arguments fp32_mul_floor : simpl never.
Global Arguments fp32_mul_ceil : simpl never.
Global Arguments crit : simpl never.
Global Arguments is_inner : simpl never.
Global Arguments walk_down : simpl never.
Global Arguments price_from_key : simpl never.
Global Arguments write_leaf : simpl never.
Global Arguments write_inner : simpl never.
Global Arguments allocate_leaf : simpl never.
Global Arguments allocate_inner_node : simpl never.
Global Arguments free_leaf : simpl never.
Global Arguments free_inner_node : simpl never.
Global Arguments insert_leaf : simpl never.
Global Arguments remove_by_key : simpl never.
Global Arguments set_callback_info : simpl never.
Global Arguments find_min_max : simpl never.
Global Arguments find_by_key : simpl never.
Global Arguments traverse : simpl never.
Global Arguments iterate : simpl never.

(** ** Arrays *)
Lemma getN_lookup {A} (l : list A) i : getN l i = l !! N.to_nat i.
Proof.
  unfold getN. destruct (N.ltb_spec i (N.of_nat (length l))); [done|].
  symmetry. apply lookup_ge_None_2. lia.
Qed.
Lemma setN_insert {A} (l : list A) i a : setN l i a = <[N.to_nat i := a]> l.
Proof.
  unfold setN. destruct (N.ltb_spec i (N.of_nat (length l))); [done|].
  symmetry. apply list_insert_ge. lia.
Qed.
Lemma length_setN {A} (l : list A) i a : length (setN l i a) = length l.
Proof. rewrite setN_insert. apply insert_length. Qed.
Lemma getN_setN_eq {A} (l : list A) i a x : getN l i = Some x -> getN (setN l i a) i = Some a.
Proof.
  rewrite !getN_lookup, setN_insert. intros H.
  apply list_lookup_insert. by apply lookup_lt_Some in H.
Qed.
Lemma getN_setN_ne {A} (l : list A) i j a : i <> j -> getN (setN l i a) j = getN l j.
Proof.
  rewrite !getN_lookup, setN_insert. intros H. apply list_lookup_insert_ne. lia.
Qed.
Lemma getN_lt {A} (l : list A) i x : getN l i = Some x -> i < N.of_nat (length l).
Proof. unfold getN. destruct (N.ltb_spec i (N.of_nat (length l))); [done|discriminate]. Qed.
Lemma getN_is_Some {A} (l : list A) i : i < N.of_nat (length l) -> exists x, getN l i = Some x.
Proof. intros. rewrite getN_lookup. apply lookup_lt_is_Some. lia. Qed.
Lemma idx_Some {A} (l : list A) i x : getN l i = Some x -> idx l i = Ok x.
Proof. unfold idx. by intros ->. Qed.
Lemma idx_Ok {A} (l : list A) i x : idx l i = Ok x -> getN l i = Some x.
Proof. unfold idx. destruct (getN l i); congruence. Qed.
Lemma upd_ok {A} (l : list A) i a : i < N.of_nat (length l) -> upd l i a = Ok (setN l i a).
Proof. unfold upd. intros. by destruct (N.ltb_spec i (N.of_nat (length l))); [|lia]. Qed.
Lemma getN_app_l {A} (l k : list A) i : i < N.of_nat (length l) -> getN (l ++ k) i = getN l i.
Proof. intros. rewrite !getN_lookup. apply lookup_app_l. lia. Qed.

Lemma add_w_ok w a b : a + b < w -> add_w w a b = Ok (a + b).
Proof. unfold add_w. intros. by destruct (N.ltb_spec (a + b) w); [|lia]. Qed.
Lemma sub_w_ok a b : b <= a -> sub_w a b = Ok (a - b).
Proof. unfold sub_w. intros. by destruct (N.leb_spec b a); [|lia]. Qed.
Lemma mul_w_ok w a b : a * b < w -> mul_w w a b = Ok (a * b).
Proof. unfold mul_w. intros. by destruct (N.ltb_spec (a * b) w); [|lia]. Qed.

Lemma as_u32_small x : x < p32 -> as_u32 x = x.
Proof. intros. unfold as_u32. by apply N.mod_small. Qed.

Lemma not32_lt x : not32 x < p32.
Proof. unfold not32. lia. Qed.
Lemma not32_not32 x : x < p32 -> not32 (not32 x) = x.
Proof. unfold not32. lia. Qed.

(** ** Handles *)
Lemma is_inner_spec h : h < p32 -> is_inner h = (p31 <=? h).
Proof.
  intros H. unfold is_inner.
  assert (N.testbit h 31 = N.odd (h / p31)) as ->.
  { rewrite N.testbit_odd. by rewrite N.shiftr_div_pow2. }
  assert (h / p31 = 0 \/ h / p31 = 1) as Hd.
  { assert (h / p31 < 2) by (apply N.div_lt_upper_bound; lia). lia. }
  pose proof (N.div_mod h p31 ltac:(lia)). pose proof (N.mod_lt h p31 ltac:(lia)).
  destruct Hd as [Hd|Hd]; rewrite Hd in *; cbn [N.odd];
    destruct (N.leb_spec p31 h); cbn; try done; lia.
Qed.
Lemma is_inner_leaf h : h < p31 -> is_inner h = false.
Proof. intros. rewrite is_inner_spec by lia. destruct (N.leb_spec p31 h); [lia|done]. Qed.
Lemma is_inner_not32 i : i < p31 -> is_inner (not32 i) = true.
Proof.
  intros. rewrite is_inner_spec by apply not32_lt. unfold not32.
  destruct (N.leb_spec p31 (p32 - 1 - i)); [done|lia].
Qed.

(** ** Bits of 128-bit keys, numbered from the most significant one *)
Definition agree (p a b : N) : Prop := forall i, i < p -> i < 128 -> crit i a = crit i b.

Lemma walk_down_lt n k : in_plen n < 128 -> walk_down n k = Ok (child n (crit (in_plen n) k), crit (in_plen n) k).
Proof. unfold walk_down, shift_ok. intros H. by destruct (N.ltb_spec (in_plen n) 128); [|lia]. Qed.
Lemma walk_down_inv n k w : walk_down n k = Ok w -> w = (child n (crit (in_plen n) k), crit (in_plen n) k).
Proof. unfold walk_down, shift_ok. destruct (_ <? _); cbn [rbind]; [by intros [= <-]|done]. Qed.
Lemma walk_down_no_err n k e : walk_down n k <> Err e.
Proof. unfold walk_down, shift_ok. by destruct (_ <? _). Qed.
Lemma crit_testbit i k : i < 128 -> crit i k = N.testbit k (127 - i).
Proof. unfold crit. intros. by destruct (N.ltb_spec i 128); [|lia]. Qed.

Lemma agree_refl p a : agree p a a.
Proof. by intros ???. Qed.
Lemma agree_sym p a b : agree p a b -> agree p b a.
Proof. intros H i ??. symmetry. by apply H. Qed.
Lemma agree_trans p a b c : agree p a b -> agree p b c -> agree p a c.
Proof. intros H1 H2 i ??. etrans; [by apply H1|by apply H2]. Qed.
Lemma agree_mono p q a b : q <= p -> agree p a b -> agree q a b.
Proof. intros ? H i ??. apply H; lia. Qed.
Lemma agree_S p a b : agree p a b -> crit p a = crit p b -> agree (p + 1) a b.
Proof.
  intros H ? i Hi ?. destruct (decide (i = p)) as [->|]; [done|]. apply H; lia.
Qed.

Lemma high_bits k n : k < p128 -> 128 <= n -> N.testbit k n = false.
Proof.
  intros. destruct (decide (k = 0)) as [->|]; [apply N.bits_0|].
  apply N.bits_above_log2.
  assert (N.log2 k < 128); [|lia]. apply N.log2_lt_pow2; [lia|].
  by change (2 ^ 128) with p128.
Qed.

Lemma agree_eq a b : a < p128 -> b < p128 -> agree 128 a b -> a = b.
Proof.
  intros Ha Hb H. apply N.bits_inj. intros n.
  destruct (decide (n < 128)) as [Hn|Hn].
  - specialize (H (127 - n) ltac:(lia) ltac:(lia)).
    rewrite !crit_testbit in H by lia. by replace (127 - (127 - n)) with n in H by lia.
  - rewrite !high_bits by lia. done.
Qed.

Lemma size_le_iff x n : N.size x <= n <-> x < 2 ^ n.
Proof.
  split; intros H.
  - eapply N.lt_le_trans; [apply N.size_gt|]. apply N.pow_le_mono_r; lia.
  - destruct (decide (x = 0)) as [->|]; [cbn; lia|].
    rewrite N.size_log2 by done. apply N.le_succ_l. by apply N.log2_lt_pow2; [lia|].
Qed.

Lemma lt_pow2_bits x n : x < 2 ^ n <-> (forall m, n <= m -> N.testbit x m = false).
Proof.
  split.
  - intros H m Hm. destruct (decide (x = 0)) as [->|]; [apply N.bits_0|].
    apply N.bits_above_log2. apply N.lt_le_trans with n; [|done].
    by apply N.log2_lt_pow2; [lia|].
  - intros H. destruct (decide (x = 0)) as [->|Hx]; [lia|].
    apply N.log2_lt_pow2; [lia|].
    destruct (decide (N.log2 x < n)) as [|Hn]; [done|].
    specialize (H (N.log2 x) ltac:(lia)).
    rewrite N.bit_log2 in H by done. discriminate.
Qed.

Lemma lz_agree a b p : a < p128 -> b < p128 -> p <= 128 ->
  p <= lz128 (N.lxor a b) <-> agree p a b.
Proof.
  intros Ha Hb Hp. unfold lz128.
  assert (Hsz : N.size (N.lxor a b) <= 128).
  { apply size_le_iff. apply lt_pow2_bits. intros m Hm.
    rewrite N.lxor_spec, !high_bits by lia. done. }
  transitivity (N.size (N.lxor a b) <= 128 - p); [lia|].
  rewrite size_le_iff, lt_pow2_bits. split.
  - intros H i Hi ?. rewrite !crit_testbit by lia.
    specialize (H (127 - i) ltac:(lia)). rewrite N.lxor_spec in H.
    by destruct (N.testbit a _), (N.testbit b _).
  - intros H m Hm. rewrite N.lxor_spec.
    destruct (decide (m < 128)) as [Hm'|Hm'].
    + specialize (H (127 - m) ltac:(lia) ltac:(lia)).
      rewrite !crit_testbit in H by lia. replace (127 - (127 - m)) with m in H by lia.
      rewrite H. apply xorb_nilpotent.
    + rewrite !high_bits by lia. done.
Qed.

Lemma lz_le x : lz128 x <= 128.
Proof. unfold lz128. lia. Qed.

Lemma lz_diff a b : a < p128 -> b < p128 -> a <> b ->
  let p := lz128 (N.lxor a b) in p < 128 /\ agree p a b /\ crit p a = negb (crit p b).
Proof.
  intros Ha Hb Hne p.
  assert (Hag : agree p a b) by (apply lz_agree; [done..|apply lz_le|done]).
  assert (Hlt : p < 128).
  { pose proof (lz_le (N.lxor a b)). destruct (decide (p = 128)) as [Hp|]; [|lia].
    exfalso. apply Hne, agree_eq; [done..|]. by rewrite <- Hp. }
  split; [done|]. split; [done|].
  destruct (decide (crit p a = crit p b)) as [He|He].
  - exfalso. pose proof (agree_S _ _ _ Hag He) as H.
    apply lz_agree in H; [|done|done|lia]. fold p in H. lia.
  - destruct (crit p a), (crit p b); done.
Qed.

Lemma lz_self a : lz128 (N.lxor a a) = 128.
Proof. by rewrite N.lxor_nilpotent. Qed.

Lemma agree_lt a b p : a < p128 -> b < p128 -> p < 128 ->
  agree p a b -> crit p a = false -> crit p b = true -> a < b.
Proof.
  intros Ha Hb Hp Hag Ca Cb.
  rewrite crit_testbit in Ca, Cb by done.
  set (n := 127 - p) in *.
  assert (Hs : N.shiftr a (n + 1) = N.shiftr b (n + 1)).
  { apply N.bits_inj. intros m. rewrite !N.shiftr_spec'.
    destruct (decide (m + (n + 1) < 128)) as [Hm|Hm].
    - specialize (Hag (127 - (m + (n + 1))) ltac:(lia) ltac:(lia)).
      rewrite !crit_testbit in Hag by lia.
      by replace (127 - (127 - (m + (n + 1)))) with (m + (n + 1)) in Hag by lia.
    - rewrite !high_bits by lia. done. }
  assert (Ha' : N.shiftr a n = 2 * N.shiftr a (n + 1)).
  { rewrite <- N.shiftr_shiftr, <- N.div2_spec.
    rewrite (N.div2_odd (N.shiftr a n)) at 1.
    rewrite <- (N.bit0_odd (N.shiftr a n)), N.shiftr_spec', N.add_0_l, Ca. cbn. lia. }
  assert (Hb' : N.shiftr b n = 2 * N.shiftr b (n + 1) + 1).
  { rewrite <- N.shiftr_shiftr, <- N.div2_spec.
    rewrite (N.div2_odd (N.shiftr b n)) at 1.
    rewrite <- (N.bit0_odd (N.shiftr b n)), N.shiftr_spec', N.add_0_l, Cb. cbn. lia. }
  rewrite !N.shiftr_div_pow2 in *.
  assert (a / 2 ^ n < b / 2 ^ n) by lia.
  destruct (decide (a < b)); [done|].
  assert (b / 2 ^ n <= a / 2 ^ n) by (apply N.div_le_mono; [apply N.pow_nonzero|]; lia). lia.
Qed.

(** ** Loops *)
Fixpoint loop_nat {A R} (n : nat) (f : A -> step A R) (a : A) : step A R :=
  match n with
  | O => Continue a
  | S n => match f a with Continue a' => loop_nat n f a' | Done r => Done r end
  end.
Lemma loop_nat_add {A R} n m (f : A -> step A R) a :
  loop_nat (n + m) f a =
  match loop_nat n f a with Continue a' => loop_nat m f a' | Done r => Done r end.
Proof.
  revert a; induction n as [|n IH]; intros a; [done|].
  cbn [loop_nat Nat.add]. destruct (f a); [apply IH|done].
Qed.
Lemma loop_pos_nat {A R} p (f : A -> step A R) a :
  loop_pos p f a = loop_nat (Pos.to_nat p) f a.
Proof.
  revert a; induction p as [p IH|p IH|]; intros a; cbn [loop_pos].
  - rewrite Pos2Nat.inj_xI. replace (S (2 * Pos.to_nat p))%nat
      with (1 + (Pos.to_nat p + Pos.to_nat p))%nat by lia.
    rewrite loop_nat_add. cbn [loop_nat]. destruct (f a); [|done].
    rewrite loop_nat_add, IH. destruct (loop_nat _ f _); [apply IH|done].
  - rewrite Pos2Nat.inj_xO. replace (2 * Pos.to_nat p)%nat
      with (Pos.to_nat p + Pos.to_nat p)%nat by lia.
    rewrite loop_nat_add, IH. destruct (loop_nat _ f _); [apply IH|done].
  - rewrite Pos2Nat.inj_1. cbn. destruct (f a); reflexivity.
Qed.
Lemma loop_loop_nat {A R} n (f : A -> step A R) a : loop n f a = loop_nat (N.to_nat n) f a.
Proof. destruct n; [done|]. apply loop_pos_nat. Qed.

(** Invariant rule: a measure that decreases at each iteration. *)
Lemma loop_rule {A R} (I : A -> Prop) (m : A -> N) (P : R -> Prop) (f : A -> step A R) :
  (forall a, I a -> match f a with
                    | Continue a' => I a' /\ m a' < m a
                    | Done r => P r
                    end) ->
  forall n a, I a -> m a < n -> exists r, loop n f a = Done r /\ P r.
Proof.
  intros Hstep n a Ha Hm. rewrite loop_loop_nat.
  assert (Hm' : (N.to_nat (m a) < N.to_nat n)%nat) by lia. clear Hm.
  remember (N.to_nat n) as k eqn:E. clear n E.
  revert a Ha Hm'. induction k as [|k IH]; intros a Ha Hm; [lia|].
  cbn [loop_nat]. specialize (Hstep a Ha). destruct (f a) as [a'|r].
  - destruct Hstep. apply IH; [done|lia].
  - by exists r.
Qed.

(** ** Little-endian bytes *)
Lemma le_enc_length n v : length (le_enc n v) = n.
Proof. revert v; induction n; intros v; cbn; [done|]. by rewrite IHn. Qed.
Lemma le_dec_enc n v : le_dec (le_enc n v) = v mod 256 ^ N.of_nat n.
Proof.
  revert v; induction n as [|n IH]; intros v.
  - cbn. by rewrite N.mod_1_r.
  - cbn [le_enc le_dec]. rewrite IH.
    rewrite Nat2N.inj_succ, N.pow_succ_r'.
    rewrite (N.mod_mul_r v 256) by (try apply N.pow_nonzero; lia). lia.
Qed.
Lemma le_dec_enc_small n v : v < 256 ^ N.of_nat n -> le_dec (le_enc n v) = v.
Proof. intros. rewrite le_dec_enc. by apply N.mod_small. Qed.
Lemma le_enc_ok n v : bytes_ok (le_enc n v).
Proof.
  revert v; induction n as [|n IH]; intros v; constructor; [|apply IH].
  apply N.mod_lt. lia.
Qed.
Lemma le_dec_lt l : bytes_ok l -> le_dec l < 256 ^ N.of_nat (length l).
Proof.
  induction 1 as [|b l Hb Hl IH]; [cbn; lia|].
  cbn [le_dec length]. rewrite Nat2N.inj_succ, N.pow_succ_r'. lia.
Qed.
Lemma le_enc_dec l : bytes_ok l -> le_enc (length l) (le_dec l) = l.
Proof.
  induction 1 as [|b l Hb Hl IH]; [done|].
  cbn [le_dec length le_enc]. f_equal.
  - rewrite N.mul_comm, N.mod_add by lia. by apply N.mod_small.
  - rewrite N.mul_comm, N.div_add by lia. rewrite N.div_small by done. by rewrite N.add_0_l.
Qed.

(** ** Monadic stepping *)
Lemma bind_ok {S A B} (m : M S A) (f : A -> M S B) s a s' :
  m s = (Ok a, s') -> bind m f s = f a s'.
Proof. unfold bind. by intros ->. Qed.
Lemma bind_err {S A B} (m : M S A) (f : A -> M S B) s e s' :
  m s = (Err e, s') -> bind m f s = (Err e, s').
Proof. unfold bind. by intros ->. Qed.
Lemma bind_panic {S A B} (m : M S A) (f : A -> M S B) s e s' :
  m s = (Panic e, s') -> bind m f s = (Panic e, s').
Proof. unfold bind. by intros ->. Qed.
Lemma bind_get {S B} (f : S -> M S B) s : bind get f s = f s s.
Proof. done. Qed.
Lemma bind_ret {S A B} (a : A) (f : A -> M S B) s : bind (ret a) f s = f a s.
Proof. done. Qed.
Lemma bind_lift {S A B} (r : res A) a (f : A -> M S B) s :
  r = Ok a -> bind (lift r) f s = f a s.
Proof. by intros ->. Qed.
Lemma bind_put {S B} (s' : S) (f : unit -> M S B) s : bind (put s') f s = f tt s'.
Proof. done. Qed.
Lemma bind_assoc {S A B D} (m : M S A) (f : A -> M S B) (g : B -> M S D) s :
  bind (bind m f) g s = bind m (fun a => bind (f a) g) s.
Proof. unfold bind. by destruct (m s) as [[]?]. Qed.
Lemma rbind_ok {A B} (m : res A) (f : A -> res B) a : m = Ok a -> rbind m f = f a.
Proof. by intros ->. Qed.
