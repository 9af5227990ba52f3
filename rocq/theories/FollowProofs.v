(** * FollowProofs.v: a market in its accounts follows the model of Market.v

    Decoding zeroed accounts gives the initial market; along every ledger history the
    accounts of a live market hold the market that the instructions on it lead to. *)
From Verif Require Import Machine Bytes Critbit EventQueue OrderBook Market Spec MachineProofs QueueProofs
  Layout LayoutProofs Borsh BorshProofs TypedProps Ledger LedgerSpec LedgerProofs PropsLayout
  WorldProofs.
From Coq Require Import ZifyBool ZifyNat ZifyN.

(** ** Zeroed buffers *)
Lemma zeros_replicate (d : bytes) : Forall (fun b => b = 0) d -> d = replicate (length d) 0.
Proof. induction 1 as [|x d -> _ IH]; cbn; [done|]. by f_equal. Qed.
Lemma le_dec_zeros n : le_dec (replicate n 0) = 0.
Proof. induction n as [|n IH]; [done|]. cbn [replicate]. change (0 + 256 * le_dec (replicate n 0) = 0). by rewrite IH. Qed.
Lemma slice_zeros n o k : slice (replicate n 0) o k = replicate (k `min` (n - o)) 0.
Proof. unfold slice. by rewrite drop_replicate, take_replicate. Qed.
Lemma pieces_zeros n : forall k m, (n * k <= m)%nat ->
  pieces n k (replicate m 0) = replicate k (replicate n 0).
Proof.
  induction k as [|k IH]; intros m H; [done|]. rewrite pieces_S, take_replicate, drop_replicate, IH by lia.
  cbn [replicate]. f_equal. f_equal. lia.
Qed.
Ltac zeros := rewrite ?slice_zeros, ?le_dec_zeros.
Lemma header_zeros n : header_of_bytes (replicate n 0) = zero_header.
Proof. unfold header_of_bytes. by zeros. Qed.
Lemma leaf_zeros n : leaf_of_bytes (replicate n 0) = mk_leaf 0 0.
Proof. unfold leaf_of_bytes. by zeros. Qed.
Lemma inner_zeros n : inner_of_bytes (replicate n 0) = mk_inner 0 0 0 0.
Proof. unfold inner_of_bytes. by zeros. Qed.
Lemma fill_zeros n : fill_of_bytes (replicate n 0) = zero_fill.
Proof. unfold fill_of_bytes. by zeros. Qed.

Section Follow.
Context (cs : nat) (same_id : bytes -> bytes -> bool) (rent_exempt : N -> nat -> bool) (pid : N).
Context (Hcs : cs <> 0%nat).
Notation zero_cb := (replicate cs 0).

Lemma slab_zeros (d : bytes) tag n x :
  Forall (fun b => b = 0) d -> slab_room cs (length d) n x ->
  slab_from_buffer cs (tag :: tail d) tag = Ok (empty_slab zero_cb n x).
Proof.
  intros Hz (Hn & Hlen & Hx). destruct d as [|b d]; [cbn in Hlen; lia|].
  apply Forall_cons in Hz as [_ Hz]. apply zeros_replicate in Hz. cbn [tail]. cbn [length] in Hlen.
  set (k := length d) in *. rewrite Hz. clearbody k. clear Hz d b.
  unfold slab_from_buffer. cbn [length hd]. rewrite replicate_length, N.eqb_refl. cbn [negb].
  unfold slab_header_len, leaf_len, inner_len.
  destruct (Nat.ltb_spec (S k) (32 + 8 + (24 + cs))) as [H|_]; [nia|].
  assert (Ecap : ((S k - 32 - 8 - (24 + cs)) / (24 + cs + 32) = n - 1)%nat).
  { symmetry. apply (Nat.div_unique _ _ _ (cs * x)); [lia|]. nia. }
  destruct n as [|n]; [lia|]. replace (S n - 1)%nat with n in * by lia.
  rewrite Ecap. replace (n + 1)%nat with (S n) by lia. cbn [drop].
  rewrite !drop_replicate, !take_replicate.
  rewrite header_zeros, !pieces_zeros by lia. rewrite !fmap_replicate.
  rewrite leaf_zeros, inner_zeros.
  unfold cast_slice. destruct (Nat.eqb_spec cs 0) as [?|_]; [done|]. rewrite replicate_length.
  replace (k - 7 - 32 - S n * 24 - n * 32)%nat with ((S n + x) * cs)%nat by lia.
  rewrite Nat.mod_mul, Nat.div_mul by done. cbn [Nat.eqb rbind]. rewrite pieces_zeros by lia. unfold empty_slab. by replace (S n - 1)%nat with n by lia.
Qed.
Lemma queue_zeros (d : bytes) n :
  Forall (fun b => b = 0) d -> length d = queue_allocation_size cs n ->
  queue_from_buffer cs (write_tag tag_event_queue d) tag_event_queue =
    Ok (empty_queue zero_cb n, write_tag tag_event_queue d).
Proof.
  intros Hz Hlen. rewrite C42_allocation_size in Hlen.
  assert (Hl8 : (8 <= length d)%nat) by lia.
  unfold queue_from_buffer. rewrite write_tag_length by done.
  destruct (Nat.ltb_spec (length d) (8 + queue_header_len)) as [H|_]; [unfold queue_header_len in H; lia|].
  rewrite write_tag_read by done. unfold rbind at 1. rewrite N.eqb_refl. cbn [negb].
  replace ((length d - 8 - queue_header_len) / event_size cs)%nat with n; cycle 1.
  { unfold queue_header_len, event_size, fill_len. apply (Nat.div_unique _ _ _ 0); [lia|]. nia. }
  assert (Eww : write_tag tag_event_queue (write_tag tag_event_queue d) = write_tag tag_event_queue d).
  { by unfold write_tag. }
  rewrite Eww.
  assert (Ed : drop 8 (write_tag tag_event_queue d) = replicate (24 + n * 40 + (2 * n) * cs) 0).
  { unfold write_tag. rewrite drop_app_alt by (by rewrite le_enc_length).
    rewrite (zeros_replicate d Hz), drop_replicate. f_equal. lia. }
  rewrite Ed. unfold queue_header_len, fill_len. rewrite !drop_replicate, !take_replicate.
  zeros. rewrite pieces_zeros by lia.
  change (map fill_of_bytes (replicate n (replicate 40 0))) with (fill_of_bytes <$> replicate n (replicate 40 0)).
  rewrite fmap_replicate, fill_zeros.
  unfold cast_slice. destruct (Nat.eqb_spec cs 0) as [?|_]; [done|]. rewrite replicate_length.
  replace (24 + n * 40 + 2 * n * cs - 24 - n * 40)%nat with ((2 * n) * cs)%nat by lia.
  rewrite Nat.mod_mul, Nat.div_mul by done. cbn [Nat.eqb rbind]. rewrite pieces_zeros by lia. done.
Qed.

(** The market that create_market leaves on zeroed accounts. *)
Definition new_config (p : create_params) (nb na ne xb xa : nat) : config bytes :=
  mk_config (cp_min p) (cp_tick p) zero_cb nb na ne xb xa.
Notation opens := (opens cs pid).
Notation records := (records pid).
Notation wf_ledger := (wf_ledger cs pid).

Lemma created_opens l a p l' nb na ne xb xa :
  (forall k, k ∈ keys a -> k < 256 ^ 32) -> create_typed p ->
  creatable cs pid rent_exempt l a p -> created l a p l' ->
  a_owner (l (ac_market a)) = pid ->
  zeroed l (ac_queue a) -> zeroed l (ac_bids a) -> zeroed l (ac_asks a) ->
  length (a_data (l (ac_queue a))) = queue_allocation_size cs ne ->
  slab_room cs (length (a_data (l (ac_bids a)))) nb xb ->
  slab_room cs (length (a_data (l (ac_asks a)))) na xa ->
  opens l' a (init_market (new_config p nb na ne xb xa)).
Proof.
  intros Hk Hp Hc Hl' O0 Zq Zb Za Lq Lb La.
  pose proof (created_market cs rent_exempt pid _ _ _ _ Hk Hp Hl') as Hm.
  pose proof Hc as [Hd O1 O2 O3 _ _ _ _ _ _ _ _ _ _].
  destruct (keys_distinct _ Hd) as (D1&D2&D3&D4&D5&D6).
  split; cbn; [done| |exact Hm|..].
  - intros k Hk'. assert (Eo : a_owner (l' k) = a_owner (l k)) by (rewrite Hl'; eqbs; done).
    rewrite Eo. apply elem_keys in Hk'. naive_solver.
  - rewrite Hl'. eqbs. cbn. by apply slab_zeros.
  - rewrite Hl'. eqbs. cbn. by apply slab_zeros.
  - rewrite Hl'. eqbs. cbn. by apply queue_zeros.
Qed.

(** ** Following a market *)
Lemma opens_same l l' a m : opens l a m ->
  (forall k, k ∈ keys a -> a_owner (l' k) = a_owner (l k) /\ a_data (l' k) = a_data (l k)) -> opens l' a m.
Proof.
  intros [Hd Hown Hm Hb Ha Hq] H.
  assert (K1 := H (ac_market a) ltac:(apply elem_keys; by left)).
  assert (K2 := H (ac_queue a) ltac:(apply elem_keys; by right; left)).
  assert (K3 := H (ac_bids a) ltac:(apply elem_keys; by right; right; left)).
  assert (K4 := H (ac_asks a) ltac:(apply elem_keys; by right; right; right)).
  destruct K1 as [_ K1], K2 as [_ K2], K3 as [_ K3], K4 as [_ K4].
  split; rewrite ?K1, ?K2, ?K3, ?K4; try done.
  intros k Hk. destruct (H k Hk) as [-> _]. auto.
Qed.
Lemma op_of_op_data o : op_bytes_typed cs o -> op_of_data cs (op_data o) = Some o.
Proof.
  destruct o as [p|id|ids|n]; cbn [op_bytes_typed op_data op_of_data]; intros Ht.
  - change (ix_new_order =? ix_new_order) with true. cbv beta iota.
    rewrite (proj2 (C44_new_order cs (wr_new_order p) p (wr_new_order_ok cs p Ht))); done.
  - change (ix_cancel_order =? ix_new_order) with false. change (ix_cancel_order =? ix_consume_events) with false.
    change (ix_cancel_order =? ix_cancel_order) with true. cbv beta iota.
    rewrite (proj2 (C44_cancel (wr_cancel id) id (le_enc_ok _ _))); done.
  - change (ix_mass_cancel_orders =? ix_new_order) with false.
    change (ix_mass_cancel_orders =? ix_consume_events) with false.
    change (ix_mass_cancel_orders =? ix_cancel_order) with false.
    change (ix_mass_cancel_orders =? ix_mass_cancel_orders) with true. cbv beta iota.
    rewrite (proj2 (C44_mass_cancel (wr_mass_cancel ids) ids (wr_mass_cancel_ok ids))); done.
  - change (ix_consume_events =? ix_new_order) with false.
    change (ix_consume_events =? ix_consume_events) with true. cbv beta iota.
    rewrite (proj2 (C44_consume (wr_consume n) n (le_enc_ok _ _))); done.
Qed.
Lemma op_bytes_op_typed o : op_bytes_typed cs o -> op_typed o.
Proof. destruct o; cbn; try done. - intros (?&?&?&?&_); done. - intros [? _]. done. Qed.

Context (Hrent : forall n, rent_exempt 0 n = false).
Notation step := (ledger_step cs same_id rent_exempt pid).

(** What one step of the ledger means for a live market. *)
Lemma step_follow l lb l' a m :
  wf_ledger l -> step l lb l' -> opens l a m -> ~ closes (ac_market a) lb ->
  match market_call cs (ac_market a) lb with
  | Some (o, r) => exists m', op_bytes_typed cs o /\ process same_id o m = (Ok r, m') /\ opens l' a m'
  | None => opens l' a m
  end.
Proof.
  intros W Hs Ho Hncl. pose proof (opens_records cs pid _ _ _ Ho) as Hr.
  destruct Hs as [l ks data r l' Hc Hrt Hks Hd|l k l' Hsm Hk Hm Hok|l gone l' He Hok _].
  - destruct (call_effect _ _ _ _ _ _ _ _ _ W Hd Hc)
      as [a' p more -> -> Hp -> Hcr Hl'|a' o more -> -> Ht Hr' Hta|a' t more d m' -> -> -> Hr' _ _ _ _ _ _ Hl'].
    + assert (E : market_call cs (ac_market a) (Call (keys a' ++ more) (ix_create_market :: wr_create p) None) = None).
      { cbn. by destruct (_ =? _). }
      rewrite E. apply (opens_same l); [done|]. intros k Hk.
      rewrite (created_other cs rent_exempt pid _ _ _ _ _ Hl'); [done|].
      intros Hk'. apply (creatable_fresh cs rent_exempt pid l a' p k W Hcr Hk'). by exists a.
    + assert (E : market_call cs (ac_market a) (Call (op_keys a' o ++ more) (op_data o) r) =
        if ac_market a' =? ac_market a then Some (o, r) else None).
      { assert (Hhd : exists rest, op_keys a' o ++ more = ac_market a' :: rest) by (destruct o; by eexists).
        destruct Hhd as [rest ->]. cbn [market_call]. rewrite (op_of_op_data o Ht). done. }
      rewrite E. destruct (N.eqb_spec (ac_market a') (ac_market a)) as [Eq|Hne].
      * pose proof (records_unique pid l a' a Hr' Hr Eq) as ->.
        destruct (op_tame _ _ _ _ l a m o r l' more W Ho Ht Hc) as (Hp & Ho' & _).
        by eexists.
      * apply (opens_same l); [done|]. intros k Hk. destruct (Hta k) as (_&_&_&_&_&Hframe).
        assert (Hnk : k ∉ keys a').
        { intros Hk'. apply Hne. by rewrite (w_disjoint _ _ _ W a' a k Hr' Hr Hk' Hk). }
        rewrite Hframe; [done|..]; intros ->; apply Hnk, elem_keys; naive_solver.
    + assert (E : market_call cs (ac_market a) (Call (keys a' ++ t :: more) (ix_close_market :: d) None) = None).
      { cbn. by destruct (_ =? _). }
      rewrite E. apply (opens_same l); [done|]. intros k Hk.
      assert (Hnk : k ∉ keys a').
      { intros Hk'. apply Hncl. cbn. split; [|done]. by rewrite (w_disjoint _ _ _ W a' a k Hr' Hr Hk' Hk). }
      destruct (closed_other cs rent_exempt _ _ _ _ _ Hl' Hnk) as (-> & -> & _). done.
  - cbn. apply (opens_same l); [done|]. intros k' Hk'. rewrite Hsm; [done|]. intros ->. apply Hk. by exists a.
  - cbn. apply (opens_same l); [done|]. intros k Hk. pose proof (w_market _ _ _ W a Hr) as Wa.
    pose proof (wf_owned _ _ _ _ Wa k Hk). pose proof (wf_lamports _ _ _ _ Wa k Hk).
    destruct (He k) as [(E1 & E2 & E3 & E4)|[(E1 & E2)|(E1 & _)]]; [split_and!; congruence| |done].
    specialize (E2 ltac:(done)). lia.
Qed.

Lemma trace_follow c l1 tr l2 a m0 log0 :
  wf_ledger l1 -> history same_id c log0 m0 -> opens l1 a m0 ->
  trace cs same_id rent_exempt pid l1 tr l2 -> Forall (fun lb => ~ closes (ac_market a) lb) tr ->
  exists log m, history same_id c (log0 ++ log) m /\ opens l2 a m /\
    map (fun e => (en_op e, en_res e)) log =
      map (fun x => (x.1, Ok x.2)) (market_calls cs (ac_market a) tr).
Proof.
  intros W Hh Ho Ht. induction Ht as [|tr l lb l' Ht IH Hs]; intros Hn.
  - exists [], m0. by rewrite app_nil_r.
  - apply Forall_app in Hn as [Hn Hlb]. apply Forall_cons in Hlb as [Hlb _].
    destruct (IH Hn) as (log & m & Hh' & Ho' & Hmap). clear IH.
    pose proof (trace_wf cs same_id rent_exempt pid Hrent _ _ _ W Ht) as W'.
    pose proof (step_follow _ _ _ _ _ W' Hs Ho' Hlb) as Hst.
    unfold market_calls. rewrite omap_app, map_app. cbn [omap list_omap].
    destruct (market_call cs (ac_market a) lb) as [[o r]|].
    + destruct Hst as (m' & Hty & Hp & Ho2).
      exists (log ++ [mk_entry o (Ok r) (emitted m m')]), m'. split_and!; [|done|].
      * rewrite app_assoc. apply steps_snoc; [done|by apply op_bytes_op_typed|].
        unfold exec. by rewrite Hp.
      * by rewrite map_app, Hmap.
    + exists log, m. cbn [map]. by rewrite app_nil_r.
Qed.
End Follow.
