(** * QueueProofs.v: the event queue as a list *)
From Verif Require Import Machine Bytes Critbit EventQueue MachineProofs.
From Coq Require Import ZifyBool ZifyNat ZifyN.

Global Arguments le_enc : simpl never.
Global Arguments le_dec : simpl never.
Global Arguments slice : simpl never.
Global Arguments push_back : simpl never.
Global Arguments pop_n : simpl never.
Global Arguments gen_seq_num : simpl never.
Global Arguments gen_order_id : simpl never.
Global Arguments order_id_of : simpl never.
Global Arguments get_event : simpl never.
Global Arguments bytes_of_fill : simpl never.
Global Arguments bytes_of_out : simpl never.
Global Arguments fill_of_bytes : simpl never.
Global Arguments out_of_bytes : simpl never.
Global Arguments fill_to_generic : simpl never.
Global Arguments out_to_generic : simpl never.
Global Arguments peek_at : simpl never.
Global Arguments queue_iter : simpl never.
Global Arguments full : simpl never.

(** ** Byte images of events *)
Lemma slice_app_l {A} (l1 l2 : list A) n : n = length l1 -> slice (l1 ++ l2) 0 n = l1.
Proof. intros ->. unfold slice. rewrite drop_0. by rewrite take_app. Qed.
Lemma slice_app_r {A} (l1 l2 : list A) off n :
  (length l1 <= off)%nat -> slice (l1 ++ l2) off n = slice l2 (off - length l1) n.
Proof.
  intros. unfold slice. f_equal. rewrite drop_app_ge by done. done.
Qed.
Lemma slice_all {A} (l : list A) n : n = length l -> slice l 0 n = l.
Proof. intros ->. unfold slice. rewrite drop_0. by apply take_ge. Qed.

Ltac le_slices :=
  repeat (first
    [ rewrite slice_app_l by (rewrite ?le_enc_length; reflexivity)
    | rewrite slice_all by (rewrite ?le_enc_length; reflexivity)
    | rewrite slice_app_r by (rewrite ?le_enc_length; lia); rewrite ?le_enc_length;
      cbn [Nat.sub] ]).

Lemma fill_of_bytes_of_fill e : fill_typed e -> fill_of_bytes (bytes_of_fill e) = e.
Proof.
  intros (?&?&?&?&?&?). destruct e; cbn in *. unfold fill_of_bytes, bytes_of_fill. cbn.
  le_slices. by rewrite !le_dec_enc_small by done.
Qed.
Lemma out_of_bytes_of_out e : out_typed e -> out_of_bytes (bytes_of_out e) = e.
Proof.
  intros (?&?&?&?&?). destruct e; cbn in *. unfold out_of_bytes, bytes_of_out. cbn.
  le_slices. by rewrite !le_dec_enc_small by done.
Qed.
Lemma bytes_of_fill_length e : length (bytes_of_fill e) = 40%nat.
Proof. unfold bytes_of_fill. rewrite !app_length, !le_enc_length. done. Qed.
Lemma bytes_of_out_length e : length (bytes_of_out e) = 40%nat.
Proof. unfold bytes_of_out. rewrite !app_length, !le_enc_length. done. Qed.
Lemma bytes_of_out_ok e : bytes_ok (bytes_of_out e).
Proof. unfold bytes_of_out. repeat (apply Forall_app; split); apply le_enc_ok. Qed.
Lemma bytes_of_fill_ok e : bytes_ok (bytes_of_fill e).
Proof. unfold bytes_of_fill. repeat (apply Forall_app; split); apply le_enc_ok. Qed.

Lemma slice_ok l off n : bytes_ok l -> bytes_ok (slice l off n).
Proof. intros. unfold slice. by apply Forall_take, Forall_drop. Qed.
Lemma slice_length {A} (l : list A) off n : (off + n <= length l)%nat -> length (slice l off n) = n.
Proof. intros. unfold slice. rewrite take_length, drop_length. lia. Qed.
Lemma le_enc_dec_slice l off n : bytes_ok l -> (off + n <= length l)%nat ->
  le_enc n (le_dec (slice l off n)) = slice l off n.
Proof.
  intros Hl Hn. rewrite <- (slice_length l off n Hn) at 1. apply le_enc_dec, slice_ok, Hl.
Qed.
Lemma slice_glue {A} (l : list A) off n m : slice l off n ++ slice l (off + n) m = slice l off (n + m).
Proof.
  unfold slice. rewrite <- drop_drop. generalize (drop off l). clear l off.
  induction n as [|n IH]; intros l; [done|]. destruct l as [|x l]; cbn; [by rewrite take_nil|].
  by rewrite IH.
Qed.
Lemma bytes_of_fill_of_bytes b : bytes_ok b -> length b = 40%nat ->
  bytes_of_fill (fill_of_bytes b) = b.
Proof.
  intros Hb Hl. unfold bytes_of_fill, fill_of_bytes. cbn [fe_tag fe_taker_side fe_pad fe_quote fe_maker_id fe_base].
  rewrite !le_enc_dec_slice by (try done; lia).
  pose proof (slice_glue b 16 16 8) as E1. pose proof (slice_glue b 8 8 24) as E2.
  pose proof (slice_glue b 2 6 32) as E3. pose proof (slice_glue b 1 1 38) as E4.
  pose proof (slice_glue b 0 1 39) as E5. cbn [Nat.add] in *.
  rewrite E1, E2, E3, E4, E5. by apply slice_all.
Qed.
Lemma le_dec_slice_lt b off n : bytes_ok b -> (off + n <= length b)%nat ->
  le_dec (slice b off n) < 256 ^ N.of_nat n.
Proof.
  intros Hb Hn. pose proof (le_dec_lt (slice b off n) (slice_ok _ _ _ Hb)) as H.
  by rewrite slice_length in H.
Qed.
Lemma fill_of_bytes_typed b : bytes_ok b -> length b = 40%nat -> fill_typed (fill_of_bytes b).
Proof.
  intros Hb Hl. unfold fill_typed, fill_of_bytes. cbn.
  split_and!;
    match goal with |- context[slice b ?o ?n] =>
      apply (le_dec_slice_lt b o n Hb); rewrite Hl; lia end.
Qed.
Lemma out_to_generic_tag e : fe_tag (out_to_generic e) = tag_out.
Proof.
  unfold out_to_generic, fill_of_bytes, bytes_of_out. cbn [fe_tag oe_tag].
  le_slices. by rewrite le_dec_enc_small.
Qed.
Lemma out_round_trip e : out_typed e ->
  out_of_bytes (bytes_of_fill (out_to_generic e)) =
  mk_out_event tag_out (oe_side e) (oe_pad e) (oe_id e) (oe_base e).
Proof.
  intros (?&?&?&?&?). unfold out_to_generic.
  rewrite bytes_of_fill_of_bytes by (first [apply bytes_of_out_ok|apply bytes_of_out_length]).
  apply out_of_bytes_of_out. done.
Qed.

Section QueueProofs.
Context {C : Type}.
Implicit Types q : queue C.

(** The queue holds the events [evs], oldest first. *)
Record qrep q (evs : list (event_ref C)) : Prop := mk_qrep {
  qr_cap : 0 < q_cap q <= p31;
  qr_cbs : length (q_cbs q) = (2 * length (q_events q))%nat;
  qr_head : q_head q < q_cap q;
  qr_count : q_count q = N.of_nat (length evs);
  qr_le : q_count q <= q_cap q;
  qr_ev : forall k ev, evs !! k = Some ev ->
            get_event q ((q_head q + N.of_nat k) mod q_cap q) = Ok ev;
}.

Lemma empty_qrep (z : C) n : (1 <= n)%nat -> N.of_nat n <= p31 -> qrep (empty_queue z n) [].
Proof.
  intros. unfold empty_queue. split; unfold q_cap; cbn -[N.mul Nat.mul]; rewrite ?replicate_length;
    try lia. done.
Qed.

Lemma full_spec q evs : qrep q evs -> full q = (N.of_nat (length evs) =? q_cap q).
Proof. intros H. unfold full. by rewrite (qr_count _ _ H). Qed.

Lemma get_event_stable q evs1 cbs1 i j ev :
  i <> j -> length (q_cbs q) = (2 * length (q_events q))%nat ->
  (forall k, k <> i -> getN evs1 k = getN (q_events q) k) ->
  (forall k, k <> i * 2 -> k <> i * 2 + 1 -> getN cbs1 k = getN (q_cbs q) k) ->
  get_event q j = Ok ev ->
  get_event (mk_queue (q_head q) (q_count q + 1) (q_seq q) evs1 cbs1) j = Ok ev.
Proof.
  intros Hij Hl He Hc. unfold get_event, idx. cbn [q_events q_cbs].
  rewrite He by congruence. rewrite (Hc (2 * j)), (Hc (2 * j + 1)) by lia. done.
Qed.

Lemma mod_slot_ne h k n c : h < c -> k < n -> n < c -> (h + k) mod c <> (h + n) mod c.
Proof.
  intros Hh Hk Hn E.
  assert (Hkm : (h + k) mod c = if h + k <? c then h + k else h + k - c).
  { destruct (N.ltb_spec (h + k) c); [by apply N.mod_small|].
    symmetry. apply (N.mod_unique _ _ 1); lia. }
  assert (Hnm : (h + n) mod c = if h + n <? c then h + n else h + n - c).
  { destruct (N.ltb_spec (h + n) c); [by apply N.mod_small|].
    symmetry. apply (N.mod_unique _ _ 1); lia. }
  rewrite Hkm, Hnm in E. destruct (N.ltb_spec (h + k) c), (N.ltb_spec (h + n) c); lia.
Qed.

Lemma push_back_ok q evs ev m t : qrep q evs -> N.of_nat (length evs) < q_cap q ->
  forall out,
  (match (fe_tag ev =? tag_fill, fe_tag ev =? tag_out, t) with
   | (true, _, Some t) => out = EvFill ev m t
   | (false, true, _) => out = EvOut (out_of_bytes (bytes_of_fill ev)) m
   | _ => False end) ->
  exists q', push_back ev (Some m) t q = (Ok tt, q') /\ qrep q' (evs ++ [out]) /\
    q_seq q' = q_seq q /\ q_cap q' = q_cap q.
Proof.
  intros Hq Hlt out Hout. pose proof Hq as [Hcap Hcbs Hhead Hcount Hle Hev].
  set (i := (q_head q + q_count q) mod q_cap q).
  assert (Hi : i < q_cap q) by (apply N.mod_lt; lia).
  set (evs1 := setN (q_events q) i ev).
  set (cbs1 := setN (q_cbs q) (i * 2) m).
  set (cbs2 := match t with Some t => setN cbs1 (i * 2 + 1) t | None => cbs1 end).
  exists (mk_queue (q_head q) (q_count q + 1) (q_seq q) evs1 cbs2).
  assert (Hlen1 : length evs1 = length (q_events q)) by apply length_setN.
  assert (Hlen2 : length cbs2 = length (q_cbs q)).
  { unfold cbs2, cbs1. destruct t; rewrite ?length_setN; done. }
  unfold q_cap in *. split; [|split; [|split]].
  - unfold push_back. rewrite bind_get, (full_spec _ _ Hq). unfold q_cap.
    destruct (N.eqb_spec (N.of_nat (length evs)) (N.of_nat (length (q_events q)))); [lia|].
    erewrite bind_lift by (apply add_w_ok; lia).
    destruct (N.eqb_spec (N.of_nat (length (q_events q))) 0); [lia|].
    fold i. erewrite bind_lift by (apply upd_ok; lia).
    erewrite bind_lift by (apply add_w_ok; lia).
    rewrite bind_put.
    rewrite bind_assoc, bind_get. cbn [q_cbs q_head q_count q_seq q_events].
    rewrite bind_assoc. erewrite bind_lift by (apply upd_ok; lia).
    rewrite bind_put. unfold cbs2. destruct t as [t|]; [|done].
    rewrite bind_get. cbn [q_cbs q_head q_count q_seq q_events].
    erewrite bind_lift by (apply upd_ok; fold cbs1; unfold cbs1; rewrite length_setN; lia).
    done.
  - split; unfold q_cap; cbn [q_events q_cbs q_head q_count].
    + by rewrite Hlen1.
    + by rewrite Hlen1, Hlen2.
    + by rewrite Hlen1.
    + rewrite app_length. cbn. lia.
    + rewrite Hlen1. lia.
    + rewrite Hlen1. intros k e Hk.
      apply lookup_app_Some in Hk as [Hk|[Hk1 Hk2]].
      * apply (get_event_stable q evs1 cbs2 i).
        -- unfold i. rewrite Hcount. apply lookup_lt_Some in Hk.
           apply not_eq_sym, mod_slot_ne; lia.
        -- done.
        -- intros j Hj. unfold evs1. by rewrite getN_setN_ne.
        -- intros j Hj1 Hj2. unfold cbs2, cbs1. destruct t; by rewrite !getN_setN_ne.
        -- by apply Hev.
      * assert (k = length evs) as ->.
        { destruct (k - length evs)%nat eqn:E; [lia|]. by destruct n. }
        rewrite Nat.sub_diag in Hk2. cbn in Hk2. injection Hk2 as <-.
        rewrite <- Hcount. fold i. unfold get_event, idx. cbn [q_events q_cbs].
        destruct (getN_is_Some (q_events q) i) as [x Hx]; [done|].
        unfold evs1 at 1. rewrite (getN_setN_eq _ _ _ _ Hx). cbn [rbind].
        unfold rbind.
        assert (Hm : getN cbs2 (2 * i) = Some m).
        { rewrite (N.mul_comm 2 i). unfold cbs2, cbs1.
          destruct (getN_is_Some (q_cbs q) (i * 2)) as [y Hy]; [lia|].
          destruct t; rewrite ?(getN_setN_ne _ (i * 2 + 1) (i * 2)) by lia;
            by eapply getN_setN_eq. }
        destruct (fe_tag ev =? tag_fill) eqn:E1; [|destruct (fe_tag ev =? tag_out) eqn:E2; [|done]].
        -- destruct t as [t|]; [|done]. rewrite Hm.
           assert (Ht : getN cbs2 (2 * i + 1) = Some t).
           { unfold cbs2. rewrite (N.mul_comm 2 i).
             destruct (getN_is_Some cbs1 (i * 2 + 1)) as [y Hy].
             { unfold cbs1. rewrite length_setN. lia. }
             by eapply getN_setN_eq. }
           rewrite Ht. by rewrite Hout.
        -- rewrite Hm. rewrite Hout. done.
  - done.
  - cbn. by rewrite Hlen1.
Qed.

Lemma push_fill_ok q evs e m t : qrep q evs -> N.of_nat (length evs) < q_cap q ->
  exists q', push_back (fill_to_generic e) (Some m) (Some t) q = (Ok tt, q') /\
    qrep q' (evs ++ [EvFill (fill_to_generic e) m t]) /\
    q_seq q' = q_seq q /\ q_cap q' = q_cap q.
Proof. intros Hq Hlt. apply push_back_ok; done. Qed.
Lemma push_out_ok q evs e m : qrep q evs -> N.of_nat (length evs) < q_cap q -> out_typed e ->
  exists q', push_back (out_to_generic e) (Some m) None q = (Ok tt, q') /\
    qrep q' (evs ++ [EvOut (mk_out_event tag_out (oe_side e) (oe_pad e) (oe_id e) (oe_base e)) m]) /\
    q_seq q' = q_seq q /\ q_cap q' = q_cap q.
Proof.
  intros Hq Hlt Ht. apply push_back_ok; [done|done|].
  rewrite out_to_generic_tag. cbn. by rewrite out_round_trip.
Qed.
Lemma push_back_full q evs ev m t : qrep q evs -> N.of_nat (length evs) = q_cap q ->
  push_back ev m t q = (Err EventQueueFull, q).
Proof.
  intros Hq He. unfold push_back. rewrite bind_get, (full_spec _ _ Hq).
  rewrite He, N.eqb_refl. done.
Qed.

Lemma qrep_len q evs : qrep q evs -> N.of_nat (length evs) <= q_cap q.
Proof. intros [? ? ? H1 H2 ?]. lia. Qed.

(** ** Sequence numbers *)
Lemma qrep_seq q evs sq : qrep q evs ->
  qrep (mk_queue (q_head q) (q_count q) sq (q_events q) (q_cbs q)) evs.
Proof. intros [? ? ? ? ? ?]. split; done. Qed.
Lemma gen_order_id_ok q evs price sd : qrep q evs -> q_seq q + 1 < p64 ->
  exists q', gen_order_id price sd q = (Ok (order_id_of price (q_seq q) sd), q') /\
    qrep q' evs /\ q_seq q' = q_seq q + 1 /\ q_cap q' = q_cap q.
Proof.
  intros Hq Hs. eexists. split.
  { unfold gen_order_id, gen_seq_num. rewrite bind_assoc, bind_get, bind_assoc.
    erewrite bind_lift by (apply add_w_ok; lia).
    rewrite bind_assoc, bind_put, bind_ret. reflexivity. }
  split; [by apply qrep_seq|]. done.
Qed.

(** ** Popping *)
Lemma pop_n_ok q evs n : qrep q evs ->
  exists q', pop_n n q = (Ok tt, q') /\ qrep q' (drop (N.to_nat n) evs) /\
    q_seq q' = q_seq q /\ q_cap q' = q_cap q.
Proof.
  intros Hq. pose proof Hq as [Hcap Hcbs Hhead Hcount Hle Hev].
  set (c := N.min (q_count q) n).
  exists (mk_queue ((q_head q + c) mod q_cap q) (q_count q - c) (q_seq q) (q_events q) (q_cbs q)).
  assert (Hdrop : drop (N.to_nat n) evs = drop (N.to_nat c) evs).
  { unfold c. destruct (N.le_gt_cases (q_count q) n).
    - rewrite N.min_l by done. rewrite !drop_ge by lia. done.
    - by rewrite N.min_r by lia. }
  unfold q_cap in *. split; [|split; [|done]].
  - unfold pop_n. rewrite bind_get. erewrite bind_lift by (apply sub_w_ok; lia).
    erewrite bind_lift by (apply add_w_ok; fold c; unfold c; lia).
    unfold q_cap. destruct (N.eqb_spec (N.of_nat (length (q_events q))) 0); [lia|]. done.
  - rewrite Hdrop. split; unfold q_cap; cbn [q_events q_cbs q_head q_count]; try done.
    + apply N.mod_lt. lia.
    + rewrite drop_length. unfold c. lia.
    + lia.
    + intros k e Hk. rewrite lookup_drop in Hk. apply Hev in Hk.
      rewrite N.add_mod_idemp_l by lia.
      replace (q_head q + c + N.of_nat k) with (q_head q + N.of_nat (N.to_nat c + k)) by lia.
      done.
Qed.

(** ** Reading *)
Lemma iter_from_ok q evs : qrep q evs -> forall r i,
  (i + r <= length evs)%nat ->
  iter_from q (N.of_nat i) r = Ok (slice evs i r).
Proof.
  intros Hq. pose proof Hq as [Hcap Hcbs Hhead Hcount Hle Hev].
  induction r as [|r IH]; intros i Hi; [done|]. cbn [iter_from].
  destruct (N.eqb_spec (q_cap q) 0); [lia|].
  destruct (lookup_lt_is_Some_2 evs i) as [e He]; [lia|].
  rewrite (rbind_ok _ _ _ (add_w_ok p64 (q_head q) (N.of_nat i) ltac:(lia))).
  rewrite (rbind_ok _ _ _ (Hev _ _ He)).
  replace (N.of_nat i + 1) with (N.of_nat (S i)) by lia.
  rewrite (rbind_ok _ _ _ (IH (S i) ltac:(lia))).
  f_equal. unfold slice. rewrite (drop_S evs e i He). done.
Qed.
Lemma queue_iter_ok q evs : qrep q evs -> queue_iter q = Ok evs.
Proof.
  intros Hq. unfold queue_iter. rewrite (iter_from_ok q evs Hq _ 0).
  - f_equal. apply slice_all. rewrite (qr_count _ _ Hq). lia.
  - rewrite (qr_count _ _ Hq). lia.
Qed.
Lemma peek_at_ok q evs i : qrep q evs -> peek_at q i = Ok (evs !! N.to_nat i).
Proof.
  intros Hq. pose proof Hq as [Hcap Hcbs Hhead Hcount Hle Hev]. unfold peek_at.
  destruct (N.leb_spec (q_count q) i).
  - rewrite lookup_ge_None_2 by lia. done.
  - destruct (N.leb_spec p64 (q_head q + i)); [lia|].
    destruct (N.eqb_spec (q_cap q) 0); [lia|].
    destruct (lookup_lt_is_Some_2 evs (N.to_nat i)) as [e He]; [lia|].
    rewrite He. apply Hev in He. rewrite N2Nat.id in He. by rewrite (rbind_ok _ _ _ He).
Qed.
Lemma queue_is_empty_ok q evs : qrep q evs -> queue_is_empty q = bool_decide (evs = []).
Proof.
  intros Hq. unfold queue_is_empty. rewrite (qr_count _ _ Hq). destruct evs; [done|].
  rewrite bool_decide_false by done. cbn. lia.
Qed.
Lemma queue_len_ok q evs : qrep q evs -> queue_len q = N.of_nat (length evs).
Proof. intros Hq. unfold queue_len. apply Hq. Qed.
End QueueProofs.
