(** * WorldProofs.v: markets on a ledger do not interfere, and every market in accounts
    evolves as the typed model says *)
From Verif Require Import Machine Bytes Critbit EventQueue OrderBook Market Spec MachineProofs
  QueueProofs Layout LayoutProofs Borsh BorshProofs TypedProps Ledger LedgerSpec LedgerProofs PropsLayout.
From Coq Require Import ZifyBool ZifyNat ZifyN.

(** ** The typed processors keep shapes *)
Section MarketShape.
Context (cs : nat) (same_id : bytes -> bytes -> bool) (sh : shape).
Definition market_shape (m : market bytes) : Prop := book_shape cs sh (m_book m).
Notation MS := market_shape.
Ltac pb := eapply pres_bind; [first [apply pres_get | apply pres_lift; intros ? HH0; exact HH0]|];
  let x := fresh "x" in let H := fresh "H" in intros x H; cbv beta in H.

Lemma on_book_pres {A} (Q : A -> Prop) (f : M (book bytes) A) :
  pres (book_shape cs sh) Q f -> pres MS Q (on_book f).
Proof. intros H. eapply pres_zoom; [intros s Hs; exact Hs| |exact H]. by intros s t _ Ht. Qed.
Lemma ok_or_removed r e lc : removed_typed cs r -> ok_or r e = Ok lc -> removed_typed cs (Some lc).
Proof. destruct r; [|done]. cbn. by intros H [= <-]. Qed.
Lemma to_u64_lt x y : to_u64 x = Some y -> y < p64.
Proof. unfold to_u64. destruct (N.ltb_spec x p64); [|done]. by intros [= <-]. Qed.
Lemma ok_or_inv {A} (o : option A) e x : ok_or o e = Ok x -> o = Some x.
Proof. destruct o; [|done]. by intros [= <-]. Qed.
Lemma unwrap_inv {A} (o : option A) x : unwrap o = Ok x -> o = Some x.
Proof. destruct o; [|done]. by intros [= <-]. Qed.
Definition result_typed (r : option summary) : Prop := register_typed r.

Lemma cancel_pres id : pres MS summary_typed (process_cancel_order id).
Proof.
  unfold process_cancel_order.
  eapply pres_bind; [apply on_book_pres, on_tree_pres, remove_by_key_pres|]. intros r Hr. cbv beta in Hr.
  pb. apply (ok_or_removed _ _ _ Hr) in H. pb. apply ok_or_inv, to_u64_lt in H0.
  apply pres_ret. destruct x as [lf c]. destruct H as [[_ Hq] _]. unfold summary_typed. cbn in *. done.
Qed.
Lemma mass_cancel_loop_pres ids : forall tb tq, tb < p64 -> tq < p64 ->
  pres MS (fun t => fst t < p64 /\ snd t < p64) (mass_cancel_loop ids tb tq).
Proof.
  induction ids as [|id ids IH]; intros tb tq H1 H2; [by apply pres_ret|]. cbn [mass_cancel_loop].
  eapply pres_bind; [apply on_book_pres, on_tree_pres, remove_by_key_pres|]. intros r Hr. cbv beta in Hr.
  pb. apply (ok_or_removed _ _ _ Hr) in H. pb. apply unwrap_inv, to_u64_lt in H0.
  pb. apply unwrap_inv in H3. destruct (fp32_mul_floor _ _); [|done]. apply to_u64_lt in H3.
  by apply IH.
Qed.
Lemma mass_cancel_pres ids : pres MS summary_typed (process_mass_cancel ids).
Proof.
  unfold process_mass_cancel. eapply pres_bind; [by apply mass_cancel_loop_pres|].
  intros [tb tq] [H1 H2]. by apply pres_ret.
Qed.
Lemma consume_pres n : pres MS any (process_consume_events n).
Proof. apply on_book_pres, on_evq_pres, pop_n_pres. Qed.
Lemma market_new_order_pres p : new_order_typed cs p -> pres MS summary_typed (process_new_order same_id p).
Proof.
  intros Hp. unfold process_new_order. pb. destruct (_ =? 0); [apply pres_panic|].
  destruct (negb _); [apply pres_fail|]. destruct (_ && _); [apply pres_fail|].
  by apply on_book_pres, new_order_pres.
Qed.
Lemma process_pres o : op_bytes_typed cs o -> pres MS register_typed (process same_id o).
Proof.
  destruct o; cbn [process op_bytes_typed]; intros Ht.
  - eapply pres_bind; [by apply market_new_order_pres|]. intros. by apply pres_ret.
  - eapply pres_bind; [by apply cancel_pres|]. intros. by apply pres_ret.
  - eapply pres_bind; [by apply mass_cancel_pres|]. intros. by apply pres_ret.
  - eapply pres_bind; [by apply consume_pres|]. intros. by apply pres_ret.
Qed.
(** Parameters never change. *)
End MarketShape.

Lemma process_params same_id (o : op bytes) m :
  m_min (snd (process same_id o m)) = m_min m /\ m_tick (snd (process same_id o m)) = m_tick m.
Proof.
  set (P := fun m' : market bytes => m_min m' = m_min m /\ m_tick m' = m_tick m).
  assert (Hb : forall A (f : M (book bytes) A), pres P any (on_book f)).
  { intros A f s Hs. split; [|done]. unfold on_book, zoom. by destruct (f _). }
  assert (G : pres P any (process same_id o)).
  { destruct o; cbn [process]; (eapply (pres_bind _ any); [|intros; by apply pres_ret]).
    - intros s Hs. split; [|done]. rewrite process_new_order_eq. repeat case_match; done.
    - eapply (pres_bind _ any); [apply Hb|]. intros. eapply (pres_bind _ any); [by apply pres_lift|]. intros.
      eapply (pres_bind _ any); [by apply pres_lift|]. intros. by apply pres_ret.
    - unfold process_mass_cancel. eapply (pres_bind _ any); [|intros; by apply pres_ret].
      generalize 0 at 1 as tb. generalize 0 as tq. induction ids as [|id ids IH]; intros tq tb; [by apply pres_ret|].
      cbn [mass_cancel_loop]. eapply (pres_bind _ any); [apply Hb|]. intros.
      do 3 (eapply (pres_bind _ any); [by apply pres_lift|]; intros). apply IH.
    - apply Hb. }
  by apply (G m).
Qed.

Section World.
Context (cs : nat) (same_id : bytes -> bytes -> bool) (rent_exempt : N -> nat -> bool) (pid : N).
Notation opens := (opens cs pid).
Notation records := (records pid).
Notation pinstr := (process_instruction cs same_id rent_exempt pid).

(** ** Instructions on an open market *)
Lemma slice_read {A} (r : reader A) w P x : codec r w P -> bytes_ok (w x) -> P x ->
  try_from_slice r (w x) = Some x.
Proof. intros Hc Hb Hx. by apply (codec_slice r w P Hc). Qed.
Lemma wr_new_order_ok p : new_order_typed cs p -> bytes_ok (wr_new_order p).
Proof.
  intros (_&_&_&_&_&Hc). unfold wr_new_order. rewrite !bytes_ok_app. split_and!; try apply le_enc_ok; try done;
    unfold wr_side, wr_bool, wr_stb; constructor; try constructor; repeat case_match; try done.
  by destruct (p_side p).
Qed.
Lemma wr_mass_cancel_ok ids : bytes_ok (wr_mass_cancel ids).
Proof.
  apply bytes_ok_app. split; [apply le_enc_ok|]. apply bytes_ok_concat. induction ids; constructor; [apply le_enc_ok|done].
Qed.

Lemma decode_run {A} (r : reader A) w P x l : codec r w P -> bytes_ok (w x) -> P x ->
  decode r (w x) l = (Ok x, l).
Proof. intros. unfold decode. by erewrite slice_read. Qed.

Lemma op_run l a m o more :
  ledger_ok l -> opens l a m -> op_bytes_typed cs o ->
  exists l', pinstr (op_keys a o ++ more) (op_data o) l = (fst (process same_id o m), l') /\
    (is_ok (fst (process same_id o m)) = true ->
     written l a (m_book (snd (process same_id o m))) l').
Proof.
  intros Hok Ho Ht. destruct o as [p|id|ids|n]; cbn [op_keys op_data keys app] in *; cbn [op_bytes_typed] in Ht;
    unfold process_instruction, process.
  - change (ix_new_order =? ix_create_market) with false. change (ix_new_order =? ix_new_order) with true.
    cbv beta iota. cbn [parse_accounts]. rewrite bind_ok.
    rewrite (bind_run _ _ _ _ _ (decode_run _ _ _ p l (new_order_codec cs) (wr_new_order_ok p Ht) Ht)).
    destruct (new_order_l_run cs pid same_id l a p m Hok Ho) as (l' & E & Hw). exists l'.
    replace (mk_accounts (ac_market a) (ac_queue a) (ac_bids a) (ac_asks a)) with a by (by destruct a).
    unfold bind. rewrite E. destruct (process_new_order same_id p m) as [[s| | |] m']; cbn in *; try done.
  - change (ix_cancel_order =? ix_create_market) with false. change (ix_cancel_order =? ix_new_order) with false.
    change (ix_cancel_order =? ix_consume_events) with false. change (ix_cancel_order =? ix_cancel_order) with true.
    cbv beta iota. cbn [parse_accounts]. rewrite bind_ok.
    rewrite (bind_run _ _ _ _ _ (decode_run _ _ _ id l cancel_codec (le_enc_ok _ _) Ht)).
    destruct (with_book_run cs pid l a _ m Hok Ho (cancel_free id)) as (l' & E & Hw). exists l'.
    replace (mk_accounts (ac_market a) (ac_queue a) (ac_bids a) (ac_asks a)) with a by (by destruct a).
    unfold bind, cancel_order_l. rewrite E.
    destruct (process_cancel_order id m) as [[s| | |] m']; cbn in *; try done.
  - change (ix_mass_cancel_orders =? ix_create_market) with false.
    change (ix_mass_cancel_orders =? ix_new_order) with false.
    change (ix_mass_cancel_orders =? ix_consume_events) with false.
    change (ix_mass_cancel_orders =? ix_cancel_order) with false.
    change (ix_mass_cancel_orders =? ix_close_market) with false.
    change (ix_mass_cancel_orders =? ix_mass_cancel_orders) with true.
    cbv beta iota. cbn [parse_accounts]. rewrite bind_ok.
    rewrite (bind_run _ _ _ _ _ (decode_run _ _ _ ids l mass_cancel_codec (wr_mass_cancel_ok ids) Ht)).
    destruct (with_book_run cs pid l a _ m Hok Ho (mass_cancel_free ids)) as (l' & E & Hw). exists l'.
    replace (mk_accounts (ac_market a) (ac_queue a) (ac_bids a) (ac_asks a)) with a by (by destruct a).
    unfold bind, mass_cancel_l. rewrite E.
    destruct (process_mass_cancel ids m) as [[s| | |] m']; cbn in *; try done.
  - change (ix_consume_events =? ix_create_market) with false. change (ix_consume_events =? ix_new_order) with false.
    change (ix_consume_events =? ix_consume_events) with true.
    cbv beta iota. cbn [parse_consume]. rewrite bind_ok. cbn [fst snd].
    rewrite (bind_run _ _ _ _ _ (decode_run _ _ _ n l consume_codec (le_enc_ok _ _) Ht)).
    destruct (consume_run cs pid l a n m Hok Ho) as (l' & E & Hw). exists l'.
    unfold bind. rewrite E. destruct (process_consume_events n m) as [[s| | |] m']; cbn in *; try done.
Qed.

Lemma op_opens l a m o l' :
  ledger_ok l -> opens l a m -> op_bytes_typed cs o ->
  written l a (m_book (snd (process same_id o m))) l' -> opens l' a (snd (process same_id o m)).
Proof.
  intros Hok Ho Ht Hw. pose proof (opens_shape cs pid l a m Hok Ho) as Hs.
  destruct (process_pres cs same_id _ o Ht m Hs) as [Hs' _].
  pose proof (written_opens cs pid l a m _ l' Hok Ho Hs' Hw) as Ho'.
  destruct (process_params same_id o m) as [E1 E2]. rewrite <- E1, <- E2 in Ho'.
  by destruct (snd (process same_id o m)).
Qed.

(** ** What a successful call was *)
Lemma decode_inv {A B} (r : reader A) w P d (f : A -> M ledger B) l b l' :
  codec r w P -> bytes_ok d -> bind (decode r d) f l = (Ok b, l') ->
  exists x, d = w x /\ P x /\ f x l = (Ok b, l').
Proof.
  intros Hc Hd H. unfold decode in H. apply b_lift in H as (x & E & H). apply ok_or_inv in E.
  apply (codec_slice r w P Hc d x Hd) in E as [-> ?]. by exists x.
Qed.
Lemma parse_accounts_inv ks a : parse_accounts ks = Ok a -> exists more, ks = keys a ++ more.
Proof. destruct ks as [|m [|q [|b [|s more]]]]; try done. intros [= <-]. by exists more. Qed.
Lemma parse_close_inv ks a : parse_close ks = Ok a -> exists more, ks = keys (fst a) ++ snd a :: more.
Proof. destruct ks as [|m [|q [|b [|s [|t more]]]]]; try done. intros [= <-]. by exists more. Qed.

Inductive called (l : ledger) (ks : list N) (data : bytes) (r : option summary) (l' : ledger) : Prop :=
| called_create a p more :
    ks = keys a ++ more -> data = ix_create_market :: wr_create p -> create_typed p -> r = None ->
    create_market cs rent_exempt pid a p l = (Ok tt, l') -> called l ks data r l'
| called_new_order a p more sm :
    ks = keys a ++ more -> data = op_data (NewOrder p) -> new_order_typed cs p -> r = Some sm ->
    new_order_l cs same_id pid a p l = (Ok sm, l') -> called l ks data r l'
| called_cancel a id more sm :
    ks = keys a ++ more -> data = op_data (CancelOrder id) -> id < p128 -> r = Some sm ->
    cancel_order_l cs pid a id l = (Ok sm, l') -> called l ks data r l'
| called_mass_cancel a ids more sm :
    ks = keys a ++ more -> data = op_data (MassCancelOrders ids) ->
    Forall (fun id => id < p128) ids /\ N.of_nat (length ids) < p32 -> r = Some sm ->
    mass_cancel_l cs pid a ids l = (Ok sm, l') -> called l ks data r l'
| called_consume km kq n more :
    ks = km :: kq :: more -> data = op_data (ConsumeEvents n) -> n < p64 -> r = None ->
    consume_events_l cs pid km kq n l = (Ok tt, l') -> called l ks data r l'
| called_close a t more d :
    ks = keys a ++ t :: more -> data = ix_close_market :: d -> r = None ->
    close_market cs pid a t l = (Ok tt, l') -> called l ks data r l'.

Lemma call_inv l ks data r l' : bytes_ok data -> pinstr ks data l = (Ok r, l') -> called l ks data r l'.
Proof.
  intros Hd H. unfold process_instruction in H. destruct data as [|t d]; [done|].
  apply Forall_cons in Hd as [_ Hd]. change (bytes_ok d) in Hd.
  destruct (N.eqb_spec t ix_create_market) as [->|].
  { apply b_lift in H as (a & Ha & H). apply parse_accounts_inv in Ha as [more ->].
    apply (decode_inv _ _ _ _ _ _ _ _ create_codec Hd) in H as (p & -> & Hp & H).
    apply bind_inv in H as ([] & l1 & E & H). injection H as <- <-. by eapply called_create. }
  destruct (N.eqb_spec t ix_new_order) as [->|].
  { apply b_lift in H as (a & Ha & H). apply parse_accounts_inv in Ha as [more ->].
    apply (decode_inv _ _ _ _ _ _ _ _ (new_order_codec cs) Hd) in H as (p & -> & Hp & H).
    apply bind_inv in H as (sm & l1 & E & H). injection H as <- <-. by eapply called_new_order. }
  destruct (N.eqb_spec t ix_consume_events) as [->|].
  { apply b_lift in H as ([km kq] & Ha & H).
    apply (decode_inv _ _ _ _ _ _ _ _ consume_codec Hd) in H as (p & -> & Hp & H).
    apply bind_inv in H as ([] & l1 & E & H). injection H as <- <-.
    destruct ks as [|k1 [|k2 more]]; try done. injection Ha as -> ->. by eapply called_consume. }
  destruct (N.eqb_spec t ix_cancel_order) as [->|].
  { apply b_lift in H as (a & Ha & H). apply parse_accounts_inv in Ha as [more ->].
    apply (decode_inv _ _ _ _ _ _ _ _ cancel_codec Hd) in H as (p & -> & Hp & H).
    apply bind_inv in H as (sm & l1 & E & H). injection H as <- <-. by eapply called_cancel. }
  destruct (N.eqb_spec t ix_close_market) as [->|].
  { apply b_lift in H as (a & Ha & H). apply parse_close_inv in Ha as [more ->].
    apply bind_inv in H as ([] & l1 & E & H). injection H as <- <-. by eapply called_close. }
  destruct (N.eqb_spec t ix_mass_cancel_orders) as [->|]; [|done].
  apply b_lift in H as (a & Ha & H). apply parse_accounts_inv in Ha as [more ->].
  apply (decode_inv _ _ _ _ _ _ _ _ mass_cancel_codec Hd) in H as (p & -> & Hp & H).
  apply bind_inv in H as (sm & l1 & E & H). injection H as <- <-. by eapply called_mass_cancel.
Qed.

(** ** The invariant *)
(** The accounts recorded by a market account are those of a market. *)
Record market_wf (l : ledger) (a : accounts) : Prop := {
  wf_distinct : NoDup (keys a);
  wf_owned : forall k, k ∈ keys a -> a_owner (l k) = pid;
  wf_lamports : forall k, k ∈ keys a -> 0 < a_lamports (l k);
  wf_market : read_tag (a_data (l (ac_market a))) = Ok tag_market;
  wf_queue : read_tag (a_data (l (ac_queue a))) = Ok tag_event_queue;
  wf_queue_size : queue_check_size cs (a_data (l (ac_queue a))) = Ok tt;
  wf_bids : hd 0 (a_data (l (ac_bids a))) = tag_bids;
  wf_asks : hd 0 (a_data (l (ac_asks a))) = tag_asks;
}.
Record wf_ledger (l : ledger) : Prop := {
  w_ok : ledger_ok l;
  w_market : forall a, records l a -> market_wf l a;
  w_disjoint : forall a a' k, records l a -> records l a' -> k ∈ keys a -> k ∈ keys a' -> a = a';
}.

Lemma records_market l a : records l a -> read_tag (a_data (l (ac_market a))) = Ok tag_market.
Proof. intros (_ & ms & d & H & _). by apply market_from_ok in H as (_ & H & _). Qed.
Lemma records_unique l a a' : records l a -> records l a' -> ac_market a = ac_market a' -> a = a'.
Proof.
  intros (_ & ms & d & H & K1 & K2 & K3) (_ & ms' & d' & H' & K1' & K2' & K3') E.
  rewrite E, H' in H. apply Ok_inj, pair_inj in H as [-> _].
  destruct a, a'. cbn in *. by subst.
Qed.
Lemma records_same l l' a :
  a_owner (l' (ac_market a)) = a_owner (l (ac_market a)) ->
  a_data (l' (ac_market a)) = a_data (l (ac_market a)) -> records l' a <-> records l a.
Proof. intros E1 E2. unfold records. by rewrite E1, E2. Qed.
(** The first byte tells the role of a market's account. *)
Lemma wf_hd l a k : market_wf l a -> k ∈ keys a ->
  (k = ac_market a /\ hd 0 (a_data (l k)) = tag_market) \/
  (k = ac_queue a /\ hd 0 (a_data (l k)) = tag_event_queue) \/
  (k = ac_bids a /\ hd 0 (a_data (l k)) = tag_bids) \/
  (k = ac_asks a /\ hd 0 (a_data (l k)) = tag_asks).
Proof.
  intros [] Hk. apply elem_keys in Hk. destruct Hk as [-> | [-> | [-> | ->]]].
  - left. split; [done|]. by apply read_tag_hd.
  - right; left. split; [done|]. by apply read_tag_hd.
  - by right; right; left.
  - by right; right; right.
Qed.
Lemma market_wf_same l l' a : market_wf l a ->
  (forall k, k ∈ keys a -> a_owner (l' k) = a_owner (l k) /\ a_data (l' k) = a_data (l k) /\
     a_lamports (l k) <= a_lamports (l' k)) -> market_wf l' a.
Proof.
  intros [] H. assert (Hm := H (ac_market a) ltac:(apply elem_keys; by left)).
  assert (Hq := H (ac_queue a) ltac:(apply elem_keys; by right; left)).
  assert (Hb := H (ac_bids a) ltac:(apply elem_keys; by right; right; left)).
  assert (Ha := H (ac_asks a) ltac:(apply elem_keys; by right; right; right)).
  destruct Hm as (_ & Hm & _), Hq as (_ & Hq & _), Hb as (_ & Hb & _), Ha as (_ & Ha & _).
  split; rewrite ?Hm, ?Hq, ?Hb, ?Ha; try done.
  - intros k Hk. destruct (H k Hk) as (-> & _). auto.
  - intros k Hk. destruct (H k Hk) as (_ & _ & ?). specialize (wf_lamports0 k Hk). lia.
Qed.

(** What a trade on market [a] does to the ledger as a whole. *)
Definition tame (l : ledger) (a : accounts) (l' : ledger) : Prop :=
  forall k, a_owner (l' k) = a_owner (l k) /\ a_lamports (l' k) = a_lamports (l k) /\
    bytes_ok (a_data (l' k)) /\ length (a_data (l' k)) = length (a_data (l k)) /\
    take 8 (a_data (l' k)) = take 8 (a_data (l k)) /\
    (k <> ac_queue a -> k <> ac_bids a -> k <> ac_asks a -> l' k = l k).
Lemma tame_tag l a l' k : tame l a l' -> read_tag (a_data (l' k)) = read_tag (a_data (l k)).
Proof. intros H. destruct (H k) as (_&_&_&E1&E2&_). unfold read_tag. by rewrite E1, E2. Qed.
Lemma tame_hd l a l' k : tame l a l' -> hd 0 (a_data (l' k)) = hd 0 (a_data (l k)).
Proof.
  intros H. destruct (H k) as (_&_&_&_&E&_).
  destruct (a_data (l' k)), (a_data (l k)); try done. by injection E.
Qed.
Lemma check_size_length d d' : length d' = length d -> queue_check_size cs d' = queue_check_size cs d.
Proof. intros E. unfold queue_check_size. by rewrite E. Qed.

Lemma written_tame l a m b l' :
  ledger_ok l -> opens l a m -> book_shape cs (ledger_shape l a (m_book m)) b ->
  written l a b l' -> tame l a l'.
Proof.
  intros Hok [Hd Hown Hm Hb Ha Hq] [Sb Sa Sq] Hw k.
  apply slab_from_ok in Hb; [|apply Hok]. apply slab_from_ok in Ha; [|apply Hok].
  apply queue_from_ok in Hq; [|apply Hok]. destruct Hb as (Tb&Hcs&Fb&_&_), Ha as (Ta&_&Fa&_&_).
  destruct Hq as (Tq&_&Eq&Fq&_&_).
  destruct (fits_shape _ _ _ _ _ _ _ Fb eq_refl eq_refl eq_refl Sb) as [Fb' Tb'].
  destruct (fits_shape _ _ _ _ _ _ _ Fa eq_refl eq_refl eq_refl Sa) as [Fa' Ta'].
  destruct (qfits_shape _ _ _ _ _ _ Fq eq_refl eq_refl Sq) as [Fq' Tq'].
  pose proof (sf_len _ _ _ Fb). pose proof (sf_len _ _ _ Fa). pose proof (qf_len _ _ _ Fq).
  pose proof (proj1 (Hok k)) as Hbk. rewrite Hw. eqbs; subst; cbn; split_and!; try done.
  - by apply (slab_to_ok cs).
  - by apply (slab_to_length cs).
  - apply slab_to_tag. lia.
  - by apply (slab_to_ok cs).
  - by apply (slab_to_length cs).
  - apply slab_to_tag. lia.
  - by apply (queue_to_ok cs).
  - by apply (queue_to_length cs).
  - apply queue_to_tag. lia.
Qed.

Lemma records_keys_market l a a' : wf_ledger l -> records l a -> records l a' ->
  ac_market a' ∈ keys a -> a' = a.
Proof.
  intros W Hr Hr' Hk. symmetry. apply (w_disjoint _ W a a' (ac_market a')); try done. apply elem_keys. by left.
Qed.

Lemma tame_records l a l' a' : wf_ledger l -> records l a -> tame l a l' ->
  records l' a' <-> records l a'.
Proof.
  intros W Hr Ht. pose proof (w_market _ W a Hr) as Wa.
  assert (Hsame : read_tag (a_data (l (ac_market a'))) = Ok tag_market ->
                  l' (ac_market a') = l (ac_market a')).
  { intros Htag. destruct (Ht (ac_market a')) as (_&_&_&_&_&H). apply read_tag_hd in Htag; [|done].
    apply H; intros E; rewrite E in Htag.
    - pose proof (wf_queue _ _ Wa) as Hq. apply read_tag_hd in Hq; [|done]. by rewrite Htag in Hq.
    - pose proof (wf_bids _ _ Wa) as Hq. by rewrite Htag in Hq.
    - pose proof (wf_asks _ _ Wa) as Hq. by rewrite Htag in Hq. }
  split; intros Hr'.
  - pose proof (records_market _ _ Hr') as Htag. rewrite (tame_tag _ _ _ _ Ht) in Htag.
    apply (records_same l l'); [..|done]; by rewrite Hsame.
  - pose proof (records_market _ _ Hr') as Htag. apply (records_same l l'); [..|done]; by rewrite Hsame.
Qed.
Lemma tame_wf l a l' : wf_ledger l -> records l a -> tame l a l' -> wf_ledger l'.
Proof.
  intros W Hr Ht. split.
  - intros k. destruct (Ht k) as (_&_&Hb&Hl&_). split; [done|]. rewrite Hl. apply (w_ok _ W).
  - intros a' Hr'. apply (tame_records l a) in Hr'; try done. destruct (w_market _ W a' Hr') as [].
    split; rewrite ?(tame_tag _ _ _ _ Ht), ?(tame_hd _ _ _ _ Ht); try done.
    + intros k Hk. destruct (Ht k) as (-> & _). auto.
    + intros k Hk. destruct (Ht k) as (_ & -> & _). auto.
    + rewrite <- wf_queue_size0. apply check_size_length, Ht.
  - intros a1 a2 k H1 H2. apply (tame_records l a) in H1, H2; try done. by apply (w_disjoint _ W).
Qed.

Lemma wf_opens l a bs asl : wf_ledger l -> records l a ->
  slab_from_buffer cs (a_data (l (ac_bids a))) tag_bids = Ok bs ->
  slab_from_buffer cs (a_data (l (ac_asks a))) tag_asks = Ok asl ->
  exists m, opens l a m /\ bids (m_book m) = bs /\ asks (m_book m) = asl.
Proof.
  intros W Hr Hb Ha. pose proof (w_market _ W a Hr) as [].
  pose proof Hr as (_ & ms & d & Hm & K1 & K2 & K3).
  pose proof (market_tag_same _ _ _ (proj1 (w_ok _ W _)) Hm) as ->.
  apply C42_accepted_sizes in wf_queue_size0 as (n & _ & Hn).
  pose proof (slab_from_ok cs _ _ _ (proj1 (w_ok _ W _)) Hb) as (_ & Hcs & _).
  destruct (C42_open cs n _ _ Hcs Hn (proj1 (w_ok _ W _)) wf_queue0) as (q & Hq & _).
  rewrite read_tag_write in Hq by (try done; apply W).
  exists (mk_market (ms_min ms) (ms_tick ms) (mk_book bs asl q)). split; [|done].
  split; try done. rewrite Hm, <- K1, <- K2, <- K3. by destruct ms.
Qed.

(** ** What a successful call does *)
Inductive effect (l : ledger) (ks : list N) (data : bytes) (r : option summary) (l' : ledger) : Prop :=
| eff_create a p more :
    ks = keys a ++ more -> data = ix_create_market :: wr_create p -> create_typed p -> r = None ->
    creatable cs pid rent_exempt l a p -> created l a p l' -> effect l ks data r l'
| eff_op a o more :
    ks = op_keys a o ++ more -> data = op_data o -> op_bytes_typed cs o ->
    records l a -> tame l a l' -> effect l ks data r l'
| eff_close a t more d m :
    ks = keys a ++ t :: more -> data = ix_close_market :: d -> r = None ->
    records l a -> opens l a m ->
    leaf_count (hdr (bids (m_book m))) = 0 -> leaf_count (hdr (asks (m_book m))) = 0 ->
    q_count (evq (m_book m)) = 0 -> t ∉ keys a -> a_lamports (l t) + close_total l a < p64 ->
    closed l a t l' -> effect l ks data r l'.

Lemma opens_records l a m : opens l a m -> records l a.
Proof.
  intros [_ Hown Hm _ _ _]. split; [apply Hown, elem_keys; by left|]. eexists _, _. split; [exact Hm|done].
Qed.

Lemma op_tame l a m o r l' more :
  wf_ledger l -> opens l a m -> op_bytes_typed cs o ->
  pinstr (op_keys a o ++ more) (op_data o) l = (Ok r, l') ->
  process same_id o m = (Ok r, snd (process same_id o m)) /\
  opens l' a (snd (process same_id o m)) /\ tame l a l'.
Proof.
  intros W Ho Ht H. destruct (op_run l a m o more (w_ok _ W) Ho Ht) as (l1 & E & Hw).
  rewrite H in E. apply pair_inj in E as [E <-]. rewrite <- E in Hw. specialize (Hw eq_refl).
  split; [rewrite E; by destruct (process same_id o m)|].
  split; [by apply (op_opens l); [apply W|..]|].
  pose proof (opens_shape cs pid l a m (w_ok _ W) Ho) as Hs.
  destruct (process_pres cs same_id _ o Ht m Hs) as [Hs' _].
  by apply (written_tame l a m _ l' (w_ok _ W) Ho Hs').
Qed.

Lemma call_effect l ks data r l' :
  wf_ledger l -> bytes_ok data -> pinstr ks data l = (Ok r, l') -> effect l ks data r l'.
Proof.
  intros W Hd Hc. pose proof (w_ok _ W) as Hok.
  destruct (call_inv _ _ _ _ _ Hd Hc) as
    [a p more Hks Hdata Ht Hr H|a p more sm Hks Hdata Ht Hr H|a id more sm Hks Hdata Ht Hr H
    |a ids more sm Hks Hdata Ht Hr H|km kq n more Hks Hdata Ht Hr H|a t more d Hks Hdata Hr H].
  - pose proof (create_inv _ _ _ _ _ _ _ H) as Hcr.
    destruct (create_run _ _ _ _ _ _ Hcr) as (l1 & E & Hl1). rewrite H in E. injection E as <-.
    by eapply eff_create.
  - destruct (new_order_l_inv _ _ _ _ _ _ _ _ Hok H) as [m Ho]. subst ks data.
    eapply (eff_op _ _ _ _ _ a (NewOrder p) more); try done; [by apply (opens_records l a m)|].
    by apply (op_tame l a m (NewOrder p) r l' more).
  - destruct (with_book_inv _ _ _ _ _ _ _ Hok H) as (Hrec & bs & asl & Hb & Ha).
    destruct (wf_opens l a bs asl W Hrec Hb Ha) as (m & Ho & _). subst ks data.
    eapply (eff_op _ _ _ _ _ a (CancelOrder id) more); try done.
    by apply (op_tame l a m (CancelOrder id) r l' more).
  - destruct (with_book_inv _ _ _ _ _ _ _ Hok H) as (Hrec & bs & asl & Hb & Ha).
    destruct (wf_opens l a bs asl W Hrec Hb Ha) as (m & Ho & _). subst ks data.
    eapply (eff_op _ _ _ _ _ a (MassCancelOrders ids) more); try done.
    by apply (op_tame l a m (MassCancelOrders ids) r l' more).
  - destruct (consume_inv _ _ _ _ _ _ _ Hok H) as (ms & q & q' & Hrec & Ek & Hne & Hown & Hq & Hp & Hl').
    subst data. eapply (eff_op _ _ _ _ _ (ms_accounts km ms) (ConsumeEvents n) more); try done.
    { by rewrite Hks, Ek. }
    apply queue_from_ok in Hq; [|apply Hok]. destruct Hq as (Tq & Hcs & _ & Fq & Qt & _).
    assert (Sq : queue_shape cs (length (q_events q)) (length (q_cbs q)) q) by done.
    destruct (pop_n_pres cs _ _ n q Sq) as [Sq' _]. rewrite Hp in Sq'. cbn [snd] in Sq'.
    destruct (qfits_shape _ _ _ _ _ _ Fq eq_refl eq_refl Sq') as [Fq' Tq'].
    pose proof (qf_len _ _ _ Fq). intros k. pose proof (proj1 (Hok k)) as Hbk. rewrite Hl'.
    destruct (N.eqb_spec k kq) as [->|]; [|done]. cbn. split_and!; try done.
    + by apply (queue_to_ok cs).
    + by apply (queue_to_length cs).
    + apply queue_to_tag. lia.
  - destruct (close_inv _ _ _ _ _ _ Hok H) as (Hrec & Hnd & Htk & Hs & bs & asl & q & Hb & Ha & Hq & Z1 & Z2 & Z3).
    destruct (wf_opens l a bs asl W Hrec Hb Ha) as (m & Ho & <- & <-).
    pose proof (o_queue _ _ _ _ _ Ho) as Hq'. rewrite Hq in Hq'. apply Ok_inj, pair_inj in Hq' as [-> _].
    pose proof (close_run cs pid l a t m Hok Ho) as Hrun. rewrite Z1, Z2, Z3 in Hrun. cbn in Hrun.
    destruct (Hrun Htk Hs) as (l1 & E & Hl1). rewrite H in E. injection E as <-.
    by eapply (eff_close _ _ _ _ _ a t more d m).
Qed.

(** ** Calls keep the invariant *)
Lemma hd_read0 d : read_tag d = Ok 0 -> hd 0 d = 0.
Proof. by apply read_tag_hd. Qed.
Lemma idx_hd (d : bytes) x : idx d 0 = Ok x -> hd 0 d = x.
Proof. destruct d; [done|]. intros H. apply idx_Ok in H. rewrite getN_lookup in H. by injection H. Qed.
Lemma creatable_hd l a p k : creatable cs pid rent_exempt l a p -> k ∈ keys a -> hd 0 (a_data (l k)) = 0.
Proof.
  intros [] Hk. apply elem_keys in Hk. destruct Hk as [-> | [-> | [-> | ->]]].
  - by apply hd_read0.
  - by apply hd_read0.
  - by apply idx_hd.
  - by apply idx_hd.
Qed.
Lemma creatable_fresh l a p k : wf_ledger l -> creatable cs pid rent_exempt l a p -> k ∈ keys a ->
  ~ in_market pid l k.
Proof.
  intros W Hc Hk (a' & Hr & Hk'). pose proof (creatable_hd _ _ _ _ Hc Hk) as H0.
  destruct (wf_hd l a' k (w_market _ W a' Hr) Hk') as [(_ & H)|[(_ & H)|[(_ & H)|(_ & H)]]]; by rewrite H0 in H.
Qed.
Lemma created_other l a p l' k : created l a p l' -> k ∉ keys a -> l' k = l k.
Proof.
  intros Hl' Hk. rewrite Hl'. rewrite elem_keys in Hk. eqbs; subst; naive_solver.
Qed.
Lemma closed_other l a t l' k : closed l a t l' -> k ∉ keys a ->
  a_owner (l' k) = a_owner (l k) /\ a_data (l' k) = a_data (l k) /\ a_lamports (l k) <= a_lamports (l' k).
Proof.
  intros Hl' Hk. rewrite Hl'. apply not_held in Hk. rewrite Hk. destruct (N.eqb_spec k t); cbn; [|done].
  split_and!; try done. lia.
Qed.
Lemma created_market l a p l' :
  (forall k, k ∈ keys a -> k < 256 ^ 32) -> create_typed p -> created l a p l' ->
  market_from_buffer (a_data (l' (ac_market a))) tag_market =
    Ok (mk_market_state (ac_queue a) (ac_bids a) (ac_asks a) (cp_min p) (cp_tick p),
        a_data (l' (ac_market a))).
Proof.
  intros Hk [H1 H2] Hl'. rewrite Hl', N.eqb_refl. cbn [with_data a_data].
  set (ms := mk_market_state _ _ _ _ _).
  assert (Ht : market_state_typed ms).
  { unfold market_state_typed, ms. cbn [ms_event_queue ms_bids ms_asks ms_min ms_tick].
    split_and!; try done; apply Hk, elem_keys; naive_solver. }
  pose proof (bytes_of_market_state_length ms) as Hlen.
  rewrite (market_from_eq _ tag_market).
  - rewrite drop_app_alt by (by rewrite le_enc_length). rewrite (market_state_of_bytes_of _ Ht). reflexivity.
  - rewrite app_length, le_enc_length. lia.
  - unfold read_tag. rewrite app_length, le_enc_length, Hlen. cbn [Nat.ltb Nat.leb Nat.add].
    rewrite take_app_alt by (by rewrite le_enc_length). done.
Qed.

Context (Hrent : forall n, rent_exempt 0 n = false).
Lemma create_wf l a p l' :
  wf_ledger l -> (forall k, k ∈ keys a -> k < 256 ^ 32) -> create_typed p ->
  creatable cs pid rent_exempt l a p -> created l a p l' -> runtime_rule pid l l' ->
  wf_ledger l' /\ records l' a.
Proof.
  intros W Hk Hp Hc Hl' Hrt. pose proof (created_market _ _ _ _ Hk Hp Hl') as Hm.
  pose proof Hc as [Hd O1 O2 O3 Hre Hmin Htk Ml Mt Qs Qt Qo Bt At].
  destruct (keys_distinct _ Hd) as (D1&D2&D3&D4&D5&D6).
  assert (Em : a_data (l' (ac_market a)) = le_enc 8 tag_market ++ bytes_of_market_state
         (mk_market_state (ac_queue a) (ac_bids a) (ac_asks a) (cp_min p) (cp_tick p))).
  { by rewrite Hl', N.eqb_refl. }
  assert (Eq : a_data (l' (ac_queue a)) = write_tag tag_event_queue (a_data (l (ac_queue a)))).
  { rewrite Hl'. eqbs. done. }
  assert (Eb : a_data (l' (ac_bids a)) = tag_bids :: tail (a_data (l (ac_bids a)))).
  { rewrite Hl'. eqbs. done. }
  assert (Ea : a_data (l' (ac_asks a)) = tag_asks :: tail (a_data (l (ac_asks a)))).
  { rewrite Hl'. eqbs. done. }
  assert (Eown : forall k, a_owner (l' k) = a_owner (l k)) by (intros k; rewrite Hl'; eqbs; done).
  assert (Elam : forall k, a_lamports (l' k) = a_lamports (l k)) by (intros k; rewrite Hl'; eqbs; done).
  assert (O0 : a_owner (l (ac_market a)) = pid).
  { apply Hrt. left. intros E. rewrite <- E, Em in Mt. done. }
  assert (Hown : forall k, k ∈ keys a -> a_owner (l' k) = pid).
  { intros k Hk'. rewrite Eown. apply elem_keys in Hk'. naive_solver. }
  assert (Hrec : records l' a).
  { split; [apply Hown, elem_keys; by left|]. eexists _, _. split; [exact Hm|done]. }
  assert (Qlen : (8 <= length (a_data (l (ac_queue a))))%nat) by (by apply read_tag_ok in Qt as [? _]).
  assert (Wa : market_wf l' a).
  { split; try done.
    - intros k Hk'. rewrite Elam. specialize (Hre k Hk'). apply N.neq_0_lt_0. intros E. rewrite E, Hrent in Hre. done.
    - by apply market_from_ok in Hm as (_ & ? & _).
    - rewrite Eq. by apply write_tag_read.
    - rewrite Eq. rewrite <- Qs. apply check_size_length. by apply write_tag_length.
    - by rewrite Eb.
    - by rewrite Ea. }
  assert (Hold : forall a', records l' a' -> a' = a \/ (records l a' /\ forall k, k ∈ keys a' -> k ∉ keys a)).
  { intros a' Hr'. destruct (decide (ac_market a' ∈ keys a)) as [Hin|Hin].
    - left. pose proof (wf_hd l' a _ Wa Hin) as Hh.
      pose proof (records_market _ _ Hr') as Htag. apply read_tag_hd in Htag; [|done]. rewrite Htag in Hh.
      destruct Hh as [(E & _)|[(_ & ?)|[(_ & ?)|(_ & ?)]]]; try done.
      by apply (records_unique l').
    - right. assert (Hr : records l a').
      { apply (records_same l l'); [..|done]; by rewrite (created_other _ _ _ _ _ Hl' Hin). }
      split; [done|]. intros k Hk' Hka. apply (creatable_fresh l a p k W Hc Hka). by exists a'. }
  split; [|done]. split.
  - intros k. destruct (w_ok _ W k) as [Hb Hlen].
    destruct (decide (k ∈ keys a)) as [Hin|Hin]; [|by rewrite (created_other _ _ _ _ _ Hl' Hin)].
    apply elem_keys in Hin. destruct Hin as [-> | [-> | [-> | ->]]].
    + rewrite Em. split; [apply bytes_ok_app; split; [apply le_enc_ok|apply bytes_of_market_state_ok]|].
      rewrite app_length, le_enc_length, bytes_of_market_state_length. done.
    + rewrite Eq. split; [by apply write_tag_ok|]. by rewrite write_tag_length.
    + rewrite Eb. destruct (a_data (l (ac_bids a))) as [|x d]; [done|]. cbn in *.
      apply Forall_cons in Hb as [_ Hb]. split; [by constructor|done].
    + rewrite Ea. destruct (a_data (l (ac_asks a))) as [|x d]; [done|]. cbn in *.
      apply Forall_cons in Hb as [_ Hb]. split; [by constructor|done].
  - intros a' Hr'. destruct (Hold a' Hr') as [->|[Hr Hdis]]; [done|].
    apply (market_wf_same l l'); [by apply W|]. intros k Hk'.
    rewrite (created_other _ _ _ _ _ Hl' (Hdis k Hk')). done.
  - intros a1 a2 k H1 H2 K1 K2. destruct (Hold a1 H1) as [->|[R1 X1]], (Hold a2 H2) as [->|[R2 X2]].
    + done.
    + by destruct (X2 k K2).
    + by destruct (X1 k K1).
    + by apply (w_disjoint _ W a1 a2 k).
Qed.

Lemma close_wf l a t l' : wf_ledger l -> records l a -> closed l a t l' ->
  wf_ledger l' /\ forall a', records l' a' -> records l a' /\ a' <> a.
Proof.
  intros W Hr Hl'. pose proof (w_market _ W a Hr) as Wa.
  assert (Htag : forall k, k ∈ keys a -> read_tag (a_data (l' k)) = Ok tag_disabled).
  { intros k Hk. rewrite Hl'. destruct (existsb (N.eqb k) (keys a)) eqn:E; [|by apply not_held in E].
    cbn. by apply write_tag_read. }
  assert (Hold : forall a', records l' a' -> records l a' /\ a' <> a).
  { intros a' Hr'. pose proof (records_market _ _ Hr') as Ht.
    assert (Hin : ac_market a' ∉ keys a) by (intros Hin; by rewrite (Htag _ Hin) in Ht).
    destruct (closed_other _ _ _ _ _ Hl' Hin) as (E1 & E2 & _).
    split; [by apply (records_same l l')|]. intros ->. apply Hin, elem_keys. by left. }
  split; [|done].
  assert (Hdis : forall a' k, records l a' -> a' <> a -> k ∈ keys a' -> k ∉ keys a).
  { intros a' k Hr' Hne Hk Hka. apply Hne. by apply (w_disjoint _ W a' a k). }
  split.
  - intros k. destruct (w_ok _ W k) as [Hb Hlen]. destruct (decide (k ∈ keys a)) as [Hin|Hin].
    + rewrite Hl'. destruct (existsb (N.eqb k) (keys a)) eqn:E; [|by apply not_held in E]. cbn.
      split; [by apply write_tag_ok|]. unfold write_tag. rewrite app_length, le_enc_length, drop_length. lia.
    + destruct (closed_other _ _ _ _ _ Hl' Hin) as (_ & -> & _). done.
  - intros a' Hr'. destruct (Hold a' Hr') as [Hr0 Hne]. apply (market_wf_same l l'); [by apply W|].
    intros k Hk. apply (closed_other _ _ _ _ _ Hl'). by apply (Hdis a').
  - intros a1 a2 k H1 H2. destruct (Hold a1 H1), (Hold a2 H2). by apply (w_disjoint _ W).
Qed.

(** ** The invariant holds in every ledger that occurs *)
Notation lstep := (ledger_step cs same_id rent_exempt pid).
Lemma env_records l l' a : wf_ledger l -> (forall k, env_change pid (l k) (l' k)) -> records l' a ->
  records l a /\ forall k, k ∈ keys a -> a_owner (l' k) = a_owner (l k) /\ a_data (l' k) = a_data (l k) /\
    a_lamports (l k) <= a_lamports (l' k).
Proof.
  intros W He Hr. assert (Hr0 : records l a).
  { pose proof (records_market _ _ Hr) as Ht. destruct (He (ac_market a)) as [(E1 & E2 & E3 & _)|[(E1 & _)|(_ & _ & Hz)]].
    - apply (records_same l l'); [by rewrite E1, E2|done|done].
    - by destruct Hr.
    - apply read_tag_hd in Ht; [|done]. destruct (a_data (l' (ac_market a))); [done|].
      apply Forall_cons in Hz as [Hz _]. cbn in Ht. by rewrite Hz in Ht. }
  split; [done|]. intros k Hk. pose proof (w_market _ W a Hr0) as Wa.
  pose proof (wf_owned _ _ Wa k Hk). pose proof (wf_lamports _ _ Wa k Hk).
  destruct (He k) as [(E1 & E2 & E3 & E4)|[(E1 & E2)|(E1 & _)]]; [split_and!; congruence| |done].
  specialize (E2 ltac:(done)). lia.
Qed.
Lemma own_records l k l' a : (forall k', k' <> k -> l' k' = l k') ->
  (forall a, records l' a -> ac_market a <> k) -> records l' a -> records l a.
Proof. intros Hs Hm Hr. apply (records_same l l'); [..|done]; by rewrite Hs by (by apply Hm). Qed.

Lemma step_wf l lb l' : wf_ledger l -> lstep l lb l' -> wf_ledger l'.
Proof.
  intros W H. destruct H as [l ks data r l' Hc Hrt Hks Hd|l k l' Hs Hk Hm Hok|l gone l' He Hok _].
  - destruct (call_effect _ _ _ _ _ W Hd Hc) as [a p more -> _ Hp _ Hcr Hl'|a o more _ _ _ Hr Ht|a t more d m _ _ _ Hr _ _ _ _ _ _ Hl'].
    + eapply create_wf; try done. intros k Hk. apply (proj1 (Forall_forall _ _) Hks). set_solver.
    + by apply (tame_wf l a).
    + by apply (close_wf l a t).
  - assert (Hsame : forall a k', records l' a -> k' ∈ keys a -> l' k' = l k').
    { intros a k' Hr Hk'. apply Hs. intros ->. apply Hk. exists a. split; [by apply (own_records l k l')|done]. }
    split; [done|..].
    + intros a Hr. apply (market_wf_same l l'); [by apply W, (own_records l k l')|]. intros k' Hk'.
      rewrite (Hsame a k' Hr Hk'). done.
    + intros a1 a2 k' H1 H2. apply (w_disjoint _ W); by apply (own_records l k l').
  - split; [done|..].
    + intros a Hr. destruct (env_records l l' a W He Hr) as [Hr0 Hk]. by apply (market_wf_same l l'); [apply W|].
    + intros a1 a2 k' H1 H2. apply (w_disjoint _ W); by apply (env_records l l').
Qed.
Lemma trace_wf l0 tr l : wf_ledger l0 -> trace cs same_id rent_exempt pid l0 tr l -> wf_ledger l.
Proof. intros W H. induction H as [|tr l lb l' _ IH Hs]; [done|]. by apply (step_wf l lb). Qed.
Lemma world_wf l : world cs same_id rent_exempt pid l -> wf_ledger l.
Proof.
  intros (l0 & tr & Hok & Hno & Ht). apply (trace_wf l0 tr); [|done].
  split; [done|..]; intros a; [intros [H _]|intros a' k [H _]]; by destruct (Hno _ H).
Qed.
End World.
