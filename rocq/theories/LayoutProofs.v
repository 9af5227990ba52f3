(** * LayoutProofs.v: decoding and encoding accounts are inverse to each other *)
From Verif Require Import Machine Bytes Critbit EventQueue MachineProofs QueueProofs Layout.
From Coq Require Import ZifyBool ZifyNat ZifyN.

Global Arguments bytes_of_header : simpl never.
Global Arguments header_of_bytes : simpl never.
Global Arguments bytes_of_leaf : simpl never.
Global Arguments leaf_of_bytes : simpl never.
Global Arguments bytes_of_inner : simpl never.
Global Arguments inner_of_bytes : simpl never.
Global Arguments bytes_of_market_state : simpl never.
Global Arguments market_state_of_bytes : simpl never.
Global Arguments slab_from_buffer : simpl never.
Global Arguments slab_to_buffer : simpl never.
Global Arguments queue_from_buffer : simpl never.
Global Arguments queue_to_buffer : simpl never.
Global Arguments market_from_buffer : simpl never.
Global Arguments read_tag : simpl never.
Global Arguments write_tag : simpl never.
Global Arguments cast_slice : simpl never.
Global Arguments pieces : simpl never.
Global Arguments slab_header_len : simpl never.
Global Arguments leaf_len : simpl never.
Global Arguments inner_len : simpl never.
Global Arguments queue_header_len : simpl never.
Global Arguments fill_len : simpl never.
Global Arguments event_size : simpl never.
Global Arguments market_state_len : simpl never.

Ltac lens := unfold slab_header_len, leaf_len, inner_len, queue_header_len, event_size,
  fill_len, market_state_len in *.

Lemma Ok_inj {A} (a b : A) : Ok a = Ok b -> a = b.
Proof. by intros [= ->]. Qed.
Lemma pair_inj {A B} (a a' : A) (b b' : B) : (a, b) = (a', b') -> a = a' /\ b = b'.
Proof. by intros [= -> ->]. Qed.
Lemma take_drop_glue {A} n k (l : list A) : take k (drop n l) ++ drop (n + k) l = drop n l.
Proof. rewrite <- drop_drop. apply take_drop. Qed.
Lemma bytes_ok_app l k : bytes_ok (l ++ k) <-> bytes_ok l /\ bytes_ok k.
Proof. apply Forall_app. Qed.
Lemma bytes_ok_concat ls : Forall bytes_ok ls -> bytes_ok (concat ls).
Proof. induction 1; cbn; [constructor|]. by apply bytes_ok_app. Qed.
Lemma bytes_ok_take n l : bytes_ok l -> bytes_ok (take n l).
Proof. apply Forall_take. Qed.
Lemma bytes_ok_drop n l : bytes_ok l -> bytes_ok (drop n l).
Proof. apply Forall_drop. Qed.

(** ** Pieces *)
Lemma pieces_length n k l : length (pieces n k l) = k.
Proof. revert l. induction k; intros l; cbn; [done|]. unfold pieces; fold pieces. cbn. by rewrite IHk. Qed.
Lemma pieces_S n k l : pieces n (S k) l = take n l :: pieces n k (drop n l).
Proof. done. Qed.
Lemma pieces_0 n l : pieces n 0 l = [].
Proof. done. Qed.
Lemma concat_pieces n k l : length l = (k * n)%nat -> concat (pieces n k l) = l.
Proof.
  revert l. induction k as [|k IH]; intros l Hl; [by destruct l|].
  rewrite pieces_S. cbn. rewrite IH by (rewrite drop_length; lia). apply take_drop.
Qed.
Lemma pieces_sized n k l : length l = (k * n)%nat -> Forall (sized n) (pieces n k l).
Proof.
  revert l. induction k as [|k IH]; intros l Hl; [constructor|].
  rewrite pieces_S. constructor; [unfold sized; rewrite take_length; lia|].
  apply IH. rewrite drop_length. lia.
Qed.
Lemma pieces_ok n k l : bytes_ok l -> Forall bytes_ok (pieces n k l).
Proof.
  revert l. induction k as [|k IH]; intros l Hl; [constructor|].
  rewrite pieces_S. constructor; [by apply bytes_ok_take|]. by apply IH, bytes_ok_drop.
Qed.
Lemma concat_sized n ls : Forall (sized n) ls -> length (concat ls) = (length ls * n)%nat.
Proof. induction 1 as [|x ls Hx Hls IH]; cbn; [done|]. rewrite app_length, IH. unfold sized in Hx. lia. Qed.
Lemma pieces_concat n ls : Forall (sized n) ls -> pieces n (length ls) (concat ls) = ls.
Proof.
  induction 1 as [|x ls Hx Hls IH]; [done|]. cbn [length concat]. rewrite pieces_S.
  unfold sized in Hx. rewrite take_app_alt, drop_app_alt by done. by rewrite IH.
Qed.
Lemma cast_slice_ok n l ls :
  cast_slice n l = Ok ls ->
  n <> 0%nat /\ length l = (length ls * n)%nat /\ concat ls = l /\ Forall (sized n) ls /\
  (bytes_ok l -> Forall bytes_ok ls).
Proof.
  unfold cast_slice. destruct (Nat.eqb_spec n 0); [done|].
  destruct (Nat.eqb_spec (length l mod n) 0) as [Hm|]; [|done]. intros [= <-].
  assert (Hl : length l = (length l / n * n)%nat).
  { pose proof (Nat.div_mod (length l) n ltac:(done)). lia. }
  rewrite pieces_length. split_and!; try done.
  - by apply concat_pieces.
  - by apply pieces_sized.
  - by apply pieces_ok.
Qed.
Lemma cast_slice_concat n ls :
  n <> 0%nat -> Forall (sized n) ls -> cast_slice n (concat ls) = Ok ls.
Proof.
  intros Hn Hls. unfold cast_slice. destruct (Nat.eqb_spec n 0); [done|].
  rewrite (concat_sized n) by done. rewrite Nat.mod_mul, Nat.div_mul by done. cbn.
  by rewrite pieces_concat.
Qed.

(** ** Elements *)
Lemma bytes_of_header_length h : length (bytes_of_header h) = 32%nat.
Proof. unfold bytes_of_header. rewrite !app_length, !le_enc_length. done. Qed.
Lemma bytes_of_leaf_length h : length (bytes_of_leaf h) = 24%nat.
Proof. unfold bytes_of_leaf. rewrite !app_length, !le_enc_length. done. Qed.
Lemma bytes_of_inner_length h : length (bytes_of_inner h) = 32%nat.
Proof. unfold bytes_of_inner. rewrite !app_length, !le_enc_length. done. Qed.
Lemma bytes_of_market_state_length h : length (bytes_of_market_state h) = 112%nat.
Proof. unfold bytes_of_market_state. rewrite !app_length, !le_enc_length. done. Qed.
Lemma bytes_of_header_ok h : bytes_ok (bytes_of_header h).
Proof. unfold bytes_of_header. repeat (apply Forall_app; split); apply le_enc_ok. Qed.
Lemma bytes_of_leaf_ok h : bytes_ok (bytes_of_leaf h).
Proof. unfold bytes_of_leaf. repeat (apply Forall_app; split); apply le_enc_ok. Qed.
Lemma bytes_of_inner_ok h : bytes_ok (bytes_of_inner h).
Proof. unfold bytes_of_inner. repeat (apply Forall_app; split); apply le_enc_ok. Qed.
Lemma bytes_of_market_state_ok h : bytes_ok (bytes_of_market_state h).
Proof. unfold bytes_of_market_state. repeat (apply Forall_app; split); apply le_enc_ok. Qed.

Lemma header_of_bytes_of h : header_typed h -> header_of_bytes (bytes_of_header h) = h.
Proof.
  intros (?&?&?&?&?&?&?&?). destruct h; cbn in *. unfold header_of_bytes, bytes_of_header. cbn.
  le_slices. by rewrite !le_dec_enc_small by done.
Qed.
Lemma leaf_of_bytes_of l : leaf_typed l -> leaf_of_bytes (bytes_of_leaf l) = l.
Proof.
  intros (?&?). destruct l; cbn in *. unfold leaf_of_bytes, bytes_of_leaf. cbn.
  le_slices. by rewrite !le_dec_enc_small by done.
Qed.
Lemma inner_of_bytes_of n : inner_typed n -> inner_of_bytes (bytes_of_inner n) = n.
Proof.
  intros (?&?&?&?). destruct n; cbn in *. unfold inner_of_bytes, bytes_of_inner. cbn.
  le_slices. by rewrite !le_dec_enc_small by done.
Qed.
Lemma market_state_of_bytes_of ms :
  market_state_typed ms -> market_state_of_bytes (bytes_of_market_state ms) = ms.
Proof.
  intros (?&?&?&?&?). destruct ms; cbn in *.
  unfold market_state_of_bytes, bytes_of_market_state. cbn.
  le_slices. by rewrite !le_dec_enc_small by done.
Qed.

Ltac glue b l :=
  match l with
  | [] => idtac
  | (?o, ?n, ?m) :: ?l => let H := fresh in pose proof (slice_glue b o n m) as H; cbn [Nat.add] in H; rewrite H; clear H; glue b l
  end.
Lemma bytes_of_header_of b : bytes_ok b -> length b = 32%nat ->
  bytes_of_header (header_of_bytes b) = b.
Proof.
  intros Hb Hl. unfold bytes_of_header, header_of_bytes. cbn -[slice le_enc le_dec].
  rewrite !le_enc_dec_slice by (try done; lia).
  glue b [(24,4,4);(20,4,8);(16,4,12);(12,4,16);(8,4,20);(4,4,24);(0,4,28)]%nat.
  by apply slice_all.
Qed.
Lemma bytes_of_leaf_of b : bytes_ok b -> length b = 24%nat ->
  bytes_of_leaf (leaf_of_bytes b) = b.
Proof.
  intros Hb Hl. unfold bytes_of_leaf, leaf_of_bytes. cbn -[slice le_enc le_dec].
  rewrite !le_enc_dec_slice by (try done; lia).
  glue b [(0,16,8)]%nat. by apply slice_all.
Qed.
Lemma bytes_of_inner_of b : bytes_ok b -> length b = 32%nat ->
  bytes_of_inner (inner_of_bytes b) = b.
Proof.
  intros Hb Hl. unfold bytes_of_inner, inner_of_bytes. cbn -[slice le_enc le_dec].
  rewrite !le_enc_dec_slice by (try done; lia).
  glue b [(24,4,4);(16,8,8);(0,16,16)]%nat. by apply slice_all.
Qed.
Lemma bytes_of_market_state_of b : bytes_ok b -> length b = 112%nat ->
  bytes_of_market_state (market_state_of_bytes b) = b.
Proof.
  intros Hb Hl. unfold bytes_of_market_state, market_state_of_bytes. cbn -[slice le_enc le_dec].
  rewrite !le_enc_dec_slice by (try done; lia).
  glue b [(96,8,8);(64,32,16);(32,32,48);(0,32,80)]%nat. by apply slice_all.
Qed.

Ltac slices_lt b Hb Hl :=
  split_and!;
    match goal with |- context[slice b ?o ?n] =>
      apply (le_dec_slice_lt b o n Hb); rewrite Hl; lia end.
Lemma header_of_bytes_typed b : bytes_ok b -> length b = 32%nat -> header_typed (header_of_bytes b).
Proof. intros Hb Hl. unfold header_typed, header_of_bytes. cbn. slices_lt b Hb Hl. Qed.
Lemma leaf_of_bytes_typed b : bytes_ok b -> length b = 24%nat -> leaf_typed (leaf_of_bytes b).
Proof. intros Hb Hl. unfold leaf_typed, leaf_of_bytes. cbn. slices_lt b Hb Hl. Qed.
Lemma inner_of_bytes_typed b : bytes_ok b -> length b = 32%nat -> inner_typed (inner_of_bytes b).
Proof. intros Hb Hl. unfold inner_typed, inner_of_bytes. cbn. slices_lt b Hb Hl. Qed.
Lemma market_state_of_bytes_typed b :
  bytes_ok b -> length b = 112%nat -> market_state_typed (market_state_of_bytes b).
Proof. intros Hb Hl. unfold market_state_typed, market_state_of_bytes. cbn -[N.pow].
  split_and!;
    match goal with |- context[slice b ?o ?n] =>
      apply (le_dec_slice_lt b o n Hb); rewrite Hl; lia end.
Qed.

(** ** Arrays of elements *)
Section Elements.
Context {A : Type} (enc : A -> bytes) (dec : bytes -> A) (n : nat) (typed : A -> Prop).
Hypothesis enc_len : forall a, length (enc a) = n.
Hypothesis enc_ok : forall a, bytes_ok (enc a).
Hypothesis dec_enc : forall a, typed a -> dec (enc a) = a.
Hypothesis enc_dec : forall b, bytes_ok b -> length b = n -> enc (dec b) = b.
Hypothesis dec_typed : forall b, bytes_ok b -> length b = n -> typed (dec b).

Lemma enc_sized l : Forall (sized n) (map enc l).
Proof. induction l; constructor; [apply enc_len|done]. Qed.
Lemma enc_all_ok l : bytes_ok (concat (map enc l)).
Proof. apply bytes_ok_concat. induction l; constructor; [apply enc_ok|done]. Qed.
Lemma enc_all_length l : length (concat (map enc l)) = (length l * n)%nat.
Proof. rewrite (concat_sized n) by apply enc_sized. by rewrite map_length. Qed.
Lemma dec_enc_all l : Forall typed l ->
  map dec (pieces n (length l) (concat (map enc l))) = l.
Proof.
  intros Hl. pose proof (pieces_concat n (map enc l) (enc_sized l)) as Hp.
  rewrite map_length in Hp. rewrite Hp. clear Hp.
  induction Hl as [|a l Ha Hl IH]; [done|]. cbn [map]. by rewrite dec_enc, IH.
Qed.
Lemma enc_dec_all k b : bytes_ok b -> length b = (k * n)%nat ->
  concat (map enc (map dec (pieces n k b))) = b.
Proof.
  intros Hb Hl. transitivity (concat (pieces n k b)); [|by apply concat_pieces].
  f_equal. rewrite map_map. rewrite <- (map_id (pieces n k b)) at 2.
  apply map_ext_in. intros p Hp. apply elem_of_list_In in Hp. apply enc_dec.
  - eapply (proj1 (Forall_forall _ _) (pieces_ok n k b Hb)); done.
  - apply (proj1 (Forall_forall _ _) (pieces_sized n k b Hl)); done.
Qed.
Lemma dec_all_typed k b : bytes_ok b -> length b = (k * n)%nat ->
  Forall typed (map dec (pieces n k b)).
Proof.
  intros Hb Hl. apply Forall_forall. intros a Ha. apply elem_of_list_In, in_map_iff in Ha.
  destruct Ha as (p & <- & Hp). apply elem_of_list_In in Hp. apply dec_typed.
  - eapply (proj1 (Forall_forall _ _) (pieces_ok n k b Hb)); done.
  - apply (proj1 (Forall_forall _ _) (pieces_sized n k b Hl)); done.
Qed.
End Elements.

(** ** Slab accounts *)
Section Slabs.
Context (cs : nat).

(** Number of inner nodes in a slab account of [len] bytes. *)
Definition slab_inners (len : nat) : nat := ((len - 64 - cs) / (56 + cs))%nat.

(** The slab is the content of an account of [len] bytes. *)
Record slab_fits (len : nat) (s : slab bytes) : Prop := {
  sf_len : (64 + cs <= len)%nat;
  sf_leaves : length (leaf_nodes s) = S (slab_inners len);
  sf_inners : length (inner_nodes s) = slab_inners len;
  sf_cbs : len = (40 + 24 * S (slab_inners len) + 32 * slab_inners len
                  + length (callback_infos s) * cs)%nat;
}.

Lemma slab_inners_bound len :
  (64 + cs <= len)%nat -> (slab_inners len * (56 + cs) + 64 + cs <= len)%nat.
Proof.
  intros H. unfold slab_inners. pose proof (Nat.mul_div_le (len - 64 - cs) (56 + cs)). lia.
Qed.

Lemma slab_from_eq buf tag :
  (64 + cs <= length buf)%nat -> hd 0 buf = tag ->
  let n := slab_inners (length buf) in
  slab_from_buffer cs buf tag =
  rbind (cast_slice cs (drop (40 + 24 * S n + 32 * n) buf))
    (fun cbs => Ok (mk_slab (header_of_bytes (slice buf 8 32))
                (map leaf_of_bytes (pieces 24 (S n) (slice buf 40 (24 * S n))))
                (map inner_of_bytes (pieces 32 n (slice buf (40 + 24 * S n) (32 * n))))
                cbs)).
Proof.
  intros Hlen Ht n. unfold slab_from_buffer. lens.
  destruct (Nat.ltb_spec (length buf) (32 + 8 + (24 + cs))); [lia|].
  rewrite Ht, N.eqb_refl. cbn [negb]. unfold slice. rewrite !drop_drop.
  replace ((length buf - 32 - 8 - (24 + cs)) / (24 + cs + 32))%nat with n.
  2:{ unfold n, slab_inners. f_equal; lia. }
  replace (n + 1)%nat with (S n) by lia.
  replace (S n * 24)%nat with (24 * S n)%nat by lia.
  replace (n * 32)%nat with (32 * n)%nat by lia. cbn [Nat.add]. done.
Qed.

Lemma slab_from_ok buf tag s :
  bytes_ok buf -> slab_from_buffer cs buf tag = Ok s ->
  hd 0 buf = tag /\ cs <> 0%nat /\ slab_fits (length buf) s /\ slab_typed cs s /\
  slab_to_buffer s buf = buf.
Proof.
  intros Hb Hs.
  assert (Hlen : (64 + cs <= length buf)%nat).
  { unfold slab_from_buffer in Hs. lens.
    destruct (Nat.ltb_spec (length buf) (32 + 8 + (24 + cs))); [done|lia]. }
  assert (Ht : hd 0 buf = tag).
  { unfold slab_from_buffer in Hs. destruct (_ <? _)%nat; [done|].
    destruct (N.eqb_spec (hd 0 buf) tag); [done|]. done. }
  rewrite (slab_from_eq buf tag Hlen Ht) in Hs. cbv zeta in Hs.
  set (n := slab_inners (length buf)) in *.
  pose proof (slab_inners_bound _ Hlen) as Hn. fold n in Hn.
  destruct (cast_slice cs _) as [cbs| | |] eqn:Hc; [|done..]. cbn [rbind] in Hs.
  apply Ok_inj in Hs. subst s. apply cast_slice_ok in Hc. destruct Hc as (Hcs & Hcl & Hcc & Hcz & Hco).
  rewrite drop_length in Hcl.
  assert (Hl1 : length (slice buf 8 32) = 32%nat) by (apply slice_length; nia).
  assert (Hl2 : length (slice buf 40 (24 * S n)) = (S n * 24)%nat)
    by (rewrite slice_length; nia).
  assert (Hl3 : length (slice buf (40 + 24 * S n) (32 * n)) = (n * 32)%nat)
    by (rewrite slice_length; nia).
  split; [done|]. split; [done|]. split; [|split].
  - split; cbn [leaf_nodes inner_nodes callback_infos]; fold n;
      rewrite ?map_length, ?pieces_length; try done.
    assert (40 + 24 * S n + 32 * n <= length buf)%nat by nia. lia.
  - split; cbn [hdr leaf_nodes inner_nodes callback_infos].
    + apply header_of_bytes_typed; [by apply slice_ok|done].
    + apply (dec_all_typed leaf_of_bytes 24 leaf_typed leaf_of_bytes_typed); [by apply slice_ok|done].
    + apply (dec_all_typed inner_of_bytes 32 inner_typed inner_of_bytes_typed); [by apply slice_ok|done].
    + apply Forall_and. split; [done|]. apply Hco. by apply bytes_ok_drop.
  - unfold slab_to_buffer. cbn [hdr leaf_nodes inner_nodes callback_infos].
    rewrite bytes_of_header_of by (try apply slice_ok; done).
    rewrite (enc_dec_all _ _ 24 bytes_of_leaf_of) by (try apply slice_ok; done).
    rewrite (enc_dec_all _ _ 32 bytes_of_inner_of) by (try apply slice_ok; done).
    rewrite Hcc. unfold slice. rewrite (take_drop_glue (40 + 24 * S n)).
    rewrite (take_drop_glue 40). rewrite (take_drop_glue 8 32). apply take_drop.
Qed.

Lemma slab_to_from buf tag s :
  cs <> 0%nat -> slab_fits (length buf) s -> slab_typed cs s -> hd 0 buf = tag ->
  slab_from_buffer cs (slab_to_buffer s buf) tag = Ok s.
Proof.
  intros Hcs [Hlen Hf1 Hf2 Hf3] [Ht1 Ht2 Ht3 Ht4] Ht.
  set (n := slab_inners (length buf)) in *.
  apply Forall_and in Ht4. destruct Ht4 as [Ht4 Ht5].
  pose proof (enc_all_length _ 24 bytes_of_leaf_length (leaf_nodes s)) as Hl1.
  pose proof (enc_all_length _ 32 bytes_of_inner_length (inner_nodes s)) as Hl2.
  pose proof (concat_sized cs _ Ht4) as Hl3.
  pose proof (bytes_of_header_length (hdr s)) as Hl0.
  assert (Hl8 : length (take 8 buf) = 8%nat) by (rewrite take_length; lia).
  assert (Hbl : length (slab_to_buffer s buf) = length buf).
  { unfold slab_to_buffer. rewrite !app_length, Hl8, Hl0, Hl1, Hl2, Hl3. lia. }
  assert (Hbt : hd 0 (slab_to_buffer s buf) = tag).
  { unfold slab_to_buffer. destruct buf; [cbn in Hlen; lia|]. cbn in Ht |- *. done. }
  rewrite slab_from_eq by (try done; lia). rewrite Hbl. fold n. cbv zeta.
  assert (Es : slab_to_buffer s buf =
    ((take 8 buf ++ bytes_of_header (hdr s)) ++ concat (map bytes_of_leaf (leaf_nodes s))) ++
    concat (map bytes_of_inner (inner_nodes s)) ++ concat (callback_infos s)).
  { unfold slab_to_buffer. by rewrite <- !app_assoc. }
  assert (L40 : length (take 8 buf ++ bytes_of_header (hdr s)) = 40%nat)
    by (rewrite app_length; lia).
  assert (LL : length ((take 8 buf ++ bytes_of_header (hdr s)) ++
     concat (map bytes_of_leaf (leaf_nodes s))) = (40 + 24 * S n)%nat)
    by (rewrite app_length; lia).
  rewrite Es.
  rewrite (drop_app_ge _ _ (40 + 24 * S n + 32 * n)) by lia. rewrite LL.
  rewrite (drop_app_alt _ _ (40 + 24 * S n + 32 * n - (40 + 24 * S n))) by lia.
  rewrite cast_slice_concat by done. cbn [rbind].
  rewrite (slice_app_r _ _ (40 + 24 * S n)) by lia. rewrite LL, Nat.sub_diag.
  rewrite slice_app_l by lia.
  rewrite <- !app_assoc. rewrite (slice_app_r (take 8 buf)) by lia. rewrite Hl8. cbn [Nat.sub].
  rewrite slice_app_l by done.
  rewrite (app_assoc (take 8 buf)). rewrite (slice_app_r _ _ 40) by lia. rewrite L40. cbn [Nat.sub].
  rewrite slice_app_l by lia.
  rewrite header_of_bytes_of by done.
  rewrite <- Hf1, <- Hf2.
  rewrite (dec_enc_all _ _ 24 leaf_typed bytes_of_leaf_length leaf_of_bytes_of) by done.
  rewrite (dec_enc_all _ _ 32 inner_typed bytes_of_inner_length inner_of_bytes_of) by done.
  by destruct s.
Qed.

Lemma slab_to_length buf s :
  slab_fits (length buf) s -> slab_typed cs s -> length (slab_to_buffer s buf) = length buf.
Proof.
  intros [Hlen Hf1 Hf2 Hf3] [Ht1 Ht2 Ht3 Ht4].
  apply Forall_and in Ht4. destruct Ht4 as [Ht4 Ht5].
  unfold slab_to_buffer. rewrite !app_length.
  rewrite (enc_all_length _ 24 bytes_of_leaf_length).
  rewrite (enc_all_length _ 32 bytes_of_inner_length).
  rewrite (concat_sized cs) by done. rewrite bytes_of_header_length, take_length. lia.
Qed.
Lemma slab_to_ok buf s : bytes_ok buf -> slab_typed cs s -> bytes_ok (slab_to_buffer s buf).
Proof.
  intros Hb [Ht1 Ht2 Ht3 Ht4]. apply Forall_and in Ht4. destruct Ht4 as [Ht4 Ht5].
  unfold slab_to_buffer. rewrite !bytes_ok_app. split_and!.
  - by apply bytes_ok_take.
  - apply bytes_of_header_ok.
  - apply enc_all_ok, bytes_of_leaf_ok.
  - apply enc_all_ok, bytes_of_inner_ok.
  - by apply bytes_ok_concat.
Qed.
Lemma slab_to_tag buf s : (8 <= length buf)%nat -> take 8 (slab_to_buffer s buf) = take 8 buf.
Proof. intros. unfold slab_to_buffer. apply take_app_alt. rewrite take_length. lia. Qed.
Lemma slab_to_to buf s s' : (8 <= length buf)%nat ->
  slab_to_buffer s' (slab_to_buffer s buf) = slab_to_buffer s' buf.
Proof. intros. unfold slab_to_buffer at 1. by rewrite slab_to_tag. Qed.
End Slabs.

(** ** Event queue accounts *)
Section Queues.
Context (cs : nat).

Definition queue_events (len : nat) : nat := ((len - 32) / (40 + 2 * cs))%nat.

Record queue_fits (len : nat) (q : queue bytes) : Prop := {
  qf_len : (32 <= len)%nat;
  qf_events : length (q_events q) = queue_events len;
  qf_cbs : len = (32 + 40 * queue_events len + length (q_cbs q) * cs)%nat;
}.

Lemma queue_events_bound len :
  (32 <= len)%nat -> (queue_events len * (40 + 2 * cs) + 32 <= len)%nat.
Proof.
  intros H. unfold queue_events. pose proof (Nat.mul_div_le (len - 32) (40 + 2 * cs)). lia.
Qed.

Lemma write_tag_length t buf : (8 <= length buf)%nat -> length (write_tag t buf) = length buf.
Proof. intros. unfold write_tag. rewrite app_length, le_enc_length, drop_length. lia. Qed.
Lemma write_tag_drop t buf n : (8 <= n)%nat -> drop n (write_tag t buf) = drop n buf.
Proof.
  intros. unfold write_tag. rewrite drop_app_ge by (rewrite le_enc_length; lia).
  rewrite le_enc_length, drop_drop. f_equal. lia.
Qed.
Lemma write_tag_read t buf : t < p64 -> read_tag (write_tag t buf) = Ok t.
Proof.
  intros. unfold read_tag, write_tag. rewrite app_length, le_enc_length.
  destruct (Nat.ltb_spec (8 + length (drop 8 buf)) 8); [lia|].
  rewrite take_app_alt by (by rewrite le_enc_length). f_equal. by apply le_dec_enc_small.
Qed.
Lemma write_tag_ok t buf : bytes_ok buf -> bytes_ok (write_tag t buf).
Proof. intros. apply bytes_ok_app. split; [apply le_enc_ok|by apply bytes_ok_drop]. Qed.
Lemma write_tag_hd t buf : hd 0 (write_tag t buf) = t mod 256.
Proof. done. Qed.
Lemma write_tag_write t t' buf : write_tag t (write_tag t' buf) = write_tag t buf.
Proof. unfold write_tag at 1. rewrite write_tag_drop by lia. done. Qed.
Lemma read_tag_ok buf t : read_tag buf = Ok t -> (8 <= length buf)%nat /\ le_dec (take 8 buf) = t.
Proof.
  unfold read_tag. destruct (Nat.ltb_spec (length buf) 8); [done|]. intros [= <-]. done.
Qed.
Lemma read_tag_write buf t : bytes_ok buf -> read_tag buf = Ok t -> write_tag t buf = buf.
Proof.
  intros Hb Ht. apply read_tag_ok in Ht. destruct Ht as [Hl <-]. unfold write_tag.
  assert (E : length (take 8 buf) = 8%nat) by (rewrite take_length; lia).
  rewrite <- E at 1. rewrite le_enc_dec by (by apply bytes_ok_take). apply take_drop.
Qed.

Lemma queue_from_eq buf tag :
  (32 <= length buf)%nat -> read_tag buf = Ok tag ->
  let n := queue_events (length buf) in
  queue_from_buffer cs buf tag =
  rbind (cast_slice cs (drop (32 + 40 * n) buf))
    (fun cbs => Ok (mk_queue (le_dec (slice buf 8 8)) (le_dec (slice buf 16 8))
                             (le_dec (slice buf 24 8))
                             (map fill_of_bytes (pieces 40 n (slice buf 32 (40 * n)))) cbs,
                    write_tag tag_event_queue buf)).
Proof.
  intros Hlen Ht n. unfold queue_from_buffer. lens.
  destruct (Nat.ltb_spec (length buf) (8 + 24)); [lia|].
  rewrite (rbind_ok _ _ tag Ht). cbv beta. rewrite N.eqb_refl. cbn [negb].
  unfold slice. rewrite !drop_drop.
  replace ((length buf - 8 - 24) / (40 + 2 * cs))%nat with n.
  2:{ unfold n, queue_events. f_equal; lia. }
  clearbody n. rewrite !(write_tag_drop _ buf) by lia.
  replace (n * 40)%nat with (40 * n)%nat by lia.
  assert (D : forall o, (o + 8 <= 24)%nat ->
     take 8 (drop o (take 24 (drop 8 buf))) = take 8 (drop (8 + o) buf)).
  { intros o Ho. rewrite skipn_firstn_comm, take_take, drop_drop. f_equal. lia. }
  rewrite !D by lia. cbn [Nat.add]. done.
Qed.

Lemma queue_from_ok buf tag q buf' :
  bytes_ok buf -> queue_from_buffer cs buf tag = Ok (q, buf') ->
  read_tag buf = Ok tag /\ cs <> 0%nat /\ buf' = write_tag tag_event_queue buf /\
  queue_fits (length buf) q /\ queue_typed cs q /\ queue_to_buffer q buf = buf.
Proof.
  intros Hb Hq.
  assert (Hlen : (32 <= length buf)%nat).
  { unfold queue_from_buffer in Hq. lens.
    destruct (Nat.ltb_spec (length buf) (8 + 24)); [done|lia]. }
  assert (Ht : read_tag buf = Ok tag).
  { unfold queue_from_buffer in Hq. destruct (_ <? _)%nat; [done|].
    destruct (read_tag buf) as [t| | |]; [|done..]. unfold rbind at 1 in Hq.
    destruct (N.eqb_spec t tag); [by subst|]. done. }
  rewrite (queue_from_eq buf tag Hlen Ht) in Hq. cbv zeta in Hq.
  set (n := queue_events (length buf)) in *.
  pose proof (queue_events_bound _ Hlen) as Hn. fold n in Hn.
  destruct (cast_slice cs _) as [cbs| | |] eqn:Hc; [|done..]. cbn [rbind] in Hq.
  apply Ok_inj, pair_inj in Hq. destruct Hq as [<- <-]. apply cast_slice_ok in Hc. destruct Hc as (Hcs & Hcl & Hcc & Hcz & Hco).
  rewrite drop_length in Hcl.
  assert (Hl2 : length (slice buf 32 (40 * n)) = (n * 40)%nat)
    by (rewrite slice_length; nia).
  split; [done|]. split; [done|]. split; [done|]. split; [|split].
  - split; cbn [q_events q_cbs]; fold n; rewrite ?map_length, ?pieces_length; try done.
    assert (32 + 40 * n <= length buf)%nat by nia. lia.
  - split; cbn [q_head q_count q_seq q_events q_cbs].
    + apply (le_dec_slice_lt buf 8 8 Hb); lia.
    + apply (le_dec_slice_lt buf 16 8 Hb); lia.
    + apply (le_dec_slice_lt buf 24 8 Hb); lia.
    + apply (dec_all_typed fill_of_bytes 40 fill_typed fill_of_bytes_typed); [by apply slice_ok|done].
    + apply Forall_and. split; [done|]. apply Hco. by apply bytes_ok_drop.
  - unfold queue_to_buffer. cbn [q_head q_count q_seq q_events q_cbs].
    rewrite !le_enc_dec_slice by (try done; lia).
    rewrite (enc_dec_all _ _ 40 bytes_of_fill_of_bytes) by (try apply slice_ok; done).
    rewrite Hcc. unfold slice. rewrite (take_drop_glue 32).
    rewrite (take_drop_glue 24 8), (take_drop_glue 16 8), (take_drop_glue 8 8). apply take_drop.
Qed.

Lemma queue_to_length buf q :
  queue_fits (length buf) q -> queue_typed cs q -> length (queue_to_buffer q buf) = length buf.
Proof.
  intros [Hlen Hf1 Hf2] [Ht1 Ht2 Ht3 Ht4 Ht5].
  apply Forall_and in Ht5. destruct Ht5 as [Ht5 Ht6].
  unfold queue_to_buffer. rewrite !app_length, !le_enc_length.
  rewrite (enc_all_length _ 40 bytes_of_fill_length).
  rewrite (concat_sized cs) by done. rewrite take_length. lia.
Qed.
Lemma queue_to_ok buf q : bytes_ok buf -> queue_typed cs q -> bytes_ok (queue_to_buffer q buf).
Proof.
  intros Hb [Ht1 Ht2 Ht3 Ht4 Ht5]. apply Forall_and in Ht5. destruct Ht5 as [Ht5 Ht6].
  unfold queue_to_buffer. rewrite !bytes_ok_app. split_and!; try apply le_enc_ok.
  - by apply bytes_ok_take.
  - apply enc_all_ok, bytes_of_fill_ok.
  - by apply bytes_ok_concat.
Qed.
Lemma queue_to_tag buf q : (8 <= length buf)%nat -> take 8 (queue_to_buffer q buf) = take 8 buf.
Proof. intros. unfold queue_to_buffer. apply take_app_alt. rewrite take_length. lia. Qed.
Lemma queue_to_to buf q q' : (8 <= length buf)%nat ->
  queue_to_buffer q' (queue_to_buffer q buf) = queue_to_buffer q' buf.
Proof. intros. unfold queue_to_buffer at 1. by rewrite queue_to_tag. Qed.
Lemma queue_to_read_tag buf q :
  queue_fits (length buf) q -> queue_typed cs q ->
  read_tag (queue_to_buffer q buf) = read_tag buf.
Proof.
  intros Hf Ht. pose proof (qf_len _ _ Hf). unfold read_tag.
  by rewrite queue_to_length, queue_to_tag by (try done; lia).
Qed.

Lemma queue_to_from buf tag q :
  cs <> 0%nat -> queue_fits (length buf) q -> queue_typed cs q -> read_tag buf = Ok tag ->
  queue_from_buffer cs (queue_to_buffer q buf) tag =
    Ok (q, write_tag tag_event_queue (queue_to_buffer q buf)).
Proof.
  intros Hcs Hf Hty Ht.
  pose proof (queue_to_length _ _ Hf Hty) as Hbl.
  pose proof (queue_to_read_tag _ _ Hf Hty) as Hbt. rewrite Ht in Hbt.
  destruct Hf as [Hlen Hf1 Hf2]. destruct Hty as [Ht1 Ht2 Ht3 Ht4 Ht5].
  apply Forall_and in Ht5. destruct Ht5 as [Ht5 Ht6].
  rewrite queue_from_eq by (try done; lia). rewrite Hbl. cbv zeta.
  set (n := queue_events (length buf)) in *.
  pose proof (enc_all_length _ 40 bytes_of_fill_length (q_events q)) as Hl1.
  pose proof (concat_sized cs _ Ht5) as Hl3.
  assert (Hl8 : length (take 8 buf) = 8%nat) by (rewrite take_length; lia).
  set (w := write_tag _ _). clearbody w.
  unfold queue_to_buffer.
  set (b1 := le_enc 8 (q_head q)). set (b2 := le_enc 8 (q_count q)). set (b3 := le_enc 8 (q_seq q)).
  assert (length b1 = 8%nat) by apply le_enc_length.
  assert (length b2 = 8%nat) by apply le_enc_length.
  assert (length b3 = 8%nat) by apply le_enc_length.
  assert (Hd : forall {A} (x y : list A) k, (length x <= k)%nat -> drop k (x ++ y) = drop (k - length x) y).
  { intros. by rewrite drop_app_ge. }
  rewrite (Hd _ (take 8 buf)) by lia. rewrite (Hd _ b1) by lia. rewrite (Hd _ b2) by lia.
  rewrite (Hd _ b3) by lia.
  rewrite (drop_app_alt (concat (map bytes_of_fill (q_events q)))) by lia.
  rewrite cast_slice_concat by done. cbn [rbind].
  rewrite !(slice_app_r (take 8 buf)) by lia. rewrite Hl8. cbn [Nat.sub].
  rewrite slice_app_l by done.
  rewrite !(slice_app_r b1) by lia. replace (length b1) with 8%nat. cbn [Nat.sub].
  rewrite slice_app_l by done.
  rewrite !(slice_app_r b2) by lia. replace (length b2) with 8%nat. cbn [Nat.sub].
  rewrite slice_app_l by done.
  rewrite !(slice_app_r b3) by lia. replace (length b3) with 8%nat. cbn [Nat.sub].
  rewrite slice_app_l by lia.
  unfold b1, b2, b3. rewrite !le_dec_enc_small by done.
  rewrite <- Hf1.
  rewrite (dec_enc_all _ _ 40 fill_typed bytes_of_fill_length fill_of_bytes_of_fill) by done.
  by destruct q.
Qed.
End Queues.

(** ** Market accounts *)
Lemma market_from_eq buf tag :
  length buf = 120%nat -> read_tag buf = Ok tag ->
  market_from_buffer buf tag =
    Ok (market_state_of_bytes (drop 8 buf), write_tag tag_market buf).
Proof.
  intros Hl Ht. unfold market_from_buffer. rewrite (rbind_ok _ _ tag Ht). cbv beta. rewrite N.eqb_refl. cbn [negb].
  rewrite write_tag_drop by lia. rewrite drop_length, Hl. done.
Qed.
Lemma market_from_ok buf tag ms buf' :
  market_from_buffer buf tag = Ok (ms, buf') ->
  length buf = 120%nat /\ read_tag buf = Ok tag /\ ms = market_state_of_bytes (drop 8 buf) /\
  buf' = write_tag tag_market buf.
Proof.
  intros Hm. assert (Ht : read_tag buf = Ok tag).
  { unfold market_from_buffer in Hm. destruct (read_tag buf) as [t| | |]; [|done..].
    unfold rbind at 1 in Hm. destruct (N.eqb_spec t tag); [by subst|]. done. }
  pose proof (read_tag_ok _ _ Ht) as [Hl8 _].
  assert (Hl : length buf = 120%nat).
  { unfold market_from_buffer in Hm. rewrite (rbind_ok _ _ tag Ht) in Hm. cbv beta in Hm.
    rewrite N.eqb_refl in Hm. cbn [negb] in Hm. rewrite write_tag_drop in Hm by lia. lens.
    destruct (Nat.eqb_spec (length (drop 8 buf)) 112) as [E|]; [|done].
    rewrite drop_length in E. lia. }
  rewrite market_from_eq with (tag := tag) in Hm by done. injection Hm as <- <-. done.
Qed.
