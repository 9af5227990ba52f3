(** * PropsLedger.v: the properties about accounts, lamports and whole ledgers

    [process_instruction], [execute] and the instruction builders are the model's
    (Ledger.v); [opens], [records], [world], [trace], [ledger_step], [disabled] and the
    other notions used in the statements are defined in LedgerSpec.v. *)
From Verif Require Import Machine Bytes Critbit EventQueue OrderBook Market Spec MachineProofs QueueProofs
  Layout LayoutProofs Borsh BorshProofs Ledger LedgerSpec LedgerProofs PropsLayout WorldProofs
  FollowProofs LedgerFacts LedgerFacts2 LedgerExample.
From Coq Require Import ZifyBool ZifyNat ZifyN.

(** The four balances of a market. *)
Definition balances (l : ledger) (a : accounts) : N :=
  a_lamports (l (ac_market a)) + a_lamports (l (ac_bids a)) + a_lamports (l (ac_asks a)) +
  a_lamports (l (ac_queue a)).
Lemma balances_close l a : balances l a = close_total l a.
Proof. done. Qed.

Section Props.
Context (cs : nat) (same_id : bytes -> bytes -> bool) (rent_exempt : N -> nat -> bool) (pid : N).
Notation instr := (process_instruction cs same_id rent_exempt pid).
Notation opens := (opens cs pid).
Notation records := (records pid).
Notation in_market := (in_market pid).
Notation world := (world cs same_id rent_exempt pid).
Notation step := (ledger_step cs same_id rent_exempt pid).
Notation trace := (trace cs same_id rent_exempt pid).
Notation disabled := (disabled pid).
Notation execute := (execute cs same_id rent_exempt pid).
Notation entrypoint := (entrypoint cs same_id rent_exempt pid).
(** An account without lamports is not rent exempt. *)
Definition rent_ok : Prop := forall n, rent_exempt 0 n = false.

(** ** C33: a market closes only when empty, and stays closed *)
(** When closing succeeds, and what it answers when orders or events remain. *)
Theorem C33_close_iff : forall c l a m t more d,
  ledger_ok l -> opens l a m -> reachable same_id c m ->
  ((exists l', instr (keys a ++ t :: more) (ix_close_market :: d) l = (Ok None, l')) <->
   (resting m Bid = [] /\ resting m Ask = [] /\ pending m = [] /\ t ∉ keys a /\
    a_lamports (l t) + balances l a < p64)).
Proof. apply close_exact. Qed.
Theorem C33_close_active : forall c l a m t more d,
  ledger_ok l -> opens l a m -> reachable same_id c m ->
  resting m Bid <> [] \/ resting m Ask <> [] \/ pending m <> [] ->
  fst (instr (keys a ++ t :: more) (ix_close_market :: d) l) = Err MarketStillActive.
Proof. apply close_active. Qed.
(** On any ledger, also one with accounts that were never created properly: the market
    is a live one, and its book and queue are empty. *)
Theorem C33_close_needs_empty : forall l a t more d r l',
  ledger_ok l -> instr (keys a ++ t :: more) (ix_close_market :: d) l = (Ok r, l') ->
  records l a /\
  exists bs asl q,
    slab_from_buffer cs (a_data (l (ac_bids a))) tag_bids = Ok bs /\
    slab_from_buffer cs (a_data (l (ac_asks a))) tag_asks = Ok asl /\
    queue_from_buffer cs (a_data (l (ac_queue a))) tag_event_queue = Ok (q, a_data (l (ac_queue a))) /\
    (forall asc, iterate bs asc = Ok []) /\ (forall asc, iterate asl asc = Ok []) /\ queue_iter q = Ok [].
Proof.
  intros l a t more d r l' Hok H. apply close_instr in H as [_ H].
  destruct (close_inv _ _ _ _ _ _ Hok H) as (Hr & _ & _ & _ & bs & asl & q & Hb & Ha & Hq & Z1 & Z2 & Z3).
  split; [done|]. exists bs, asl, q. split_and!; try done.
  - intros asc. unfold iterate. rewrite Z1, Nat.add_comm. done.
  - intros asc. unfold iterate. rewrite Z2, Nat.add_comm. done.
  - unfold queue_iter. by rewrite Z3.
Qed.
(** The question whether the book is empty, as closing asks it. *)
Theorem C33_is_empty : forall c m, reachable same_id c m ->
  (book_is_empty (m_book m) = true <-> resting m Bid = [] /\ resting m Ask = []) /\
  (queue_is_empty (evq (m_book m)) = true <-> pending m = []).
Proof.
  intros c m Hr. pose proof (leaf_count_resting same_id c m Bid Hr) as Cb. pose proof (leaf_count_resting same_id c m Ask Hr) as Ca.
  cbn [tree] in Cb, Ca. unfold book_is_empty, sides_empty, queue_is_empty.
  rewrite Cb, Ca, (q_count_pending same_id c m Hr), andb_true_iff, !N.eqb_eq, !length_0. tauto.
Qed.
(** Afterwards all four accounts have the tag of a disabled account. *)
Theorem C33_close_disables : forall l a t more d r l' k,
  ledger_ok l -> instr (keys a ++ t :: more) (ix_close_market :: d) l = (Ok r, l') ->
  k ∈ keys a -> a_data (l' k) = le_enc 8 132 ++ drop 8 (a_data (l k)).
Proof.
  intros l a t more d r l' k Hok H Hk. apply close_instr in H as [_ H].
  rewrite (close_effect _ _ _ _ _ _ Hok H).
  destruct (existsb (N.eqb k) (keys a)) eqn:E; [done|]. by apply not_held in E.
Qed.
(** No instruction accepts a disabled account as its market: not on any ledger. *)
Theorem C33_no_market : forall l k ks data,
  ledger_ok l -> bytes_ok data -> disabled l k -> is_ok (fst (instr (k :: ks) data l)) = false.
Proof.
  intros l k ks data Hok Hd [_ Ht]. destruct (instr (k :: ks) data l) as [[r| | |] l'] eqn:H; try done. exfalso.
  assert (T : forall a, records l a -> ac_market a <> k).
  { intros a Hr E. apply records_market in Hr. rewrite E, Ht in Hr. done. }
  destruct (call_inv _ _ _ _ _ _ _ _ _ Hd H) as
    [a p more Hks _ _ _ Hc|a p more sm Hks _ _ _ Hc|a id more sm Hks _ _ _ Hc
    |a ids more sm Hks _ _ _ Hc|km kq n more Hks _ _ _ Hc|a t more d Hks _ _ Hc]; injection Hks as Ek _.
  - apply create_inv in Hc as []. by rewrite <- Ek, Ht in cr_market_tag.
  - destruct (new_order_l_inv _ _ _ _ _ _ _ _ Hok Hc) as [m Ho]. apply opens_records in Ho. by apply (T a).
  - destruct (with_book_inv _ _ _ _ _ _ _ Hok Hc) as [Hr _]. by apply (T a).
  - destruct (with_book_inv _ _ _ _ _ _ _ Hok Hc) as [Hr _]. by apply (T a).
  - destruct (consume_inv _ _ _ _ _ _ _ Hok Hc) as (ms & q & q' & Hr & _). by apply (T _ Hr).
  - destruct (close_inv _ _ _ _ _ _ Hok Hc) as [Hr _]. by apply (T a).
Qed.
(** In a ledger that occurs no instruction accepts it in any of the four roles either (a
    market's account, event queue, bids or asks). *)
Theorem C33_no_role : rent_ok -> forall l ks data r l' k,
  world l -> bytes_ok data -> instr ks data l = (Ok r, l') -> disabled l k ->
  k ∉ take (if hd 0 data =? ix_consume_events then 2 else 4) ks.
Proof.
  intros Hrent l ks data r l' k W Hd Hc Hk. apply (world_wf _ _ _ _ Hrent) in W.
  destruct (disabled_call _ _ _ _ _ _ _ _ _ _ W Hd Hc Hk) as (H1 & H2 & _).
  destruct (N.eqb_spec (hd 0 data) ix_consume_events); auto.
Qed.
(** And the accounts of a closed market stay disabled whatever happens, until the
    runtime removes an account without lamports or the program around this library
    overwrites it. *)
Theorem C33_stays_closed : rent_ok -> forall l a t more d r l1 tr l2 k,
  world l -> step l (Call (keys a ++ t :: more) (ix_close_market :: d) r) l1 ->
  trace l1 tr l2 -> k ∈ keys a -> Forall (spares k) tr ->
  disabled l2 k /\ a_data (l2 k) = a_data (l1 k).
Proof.
  intros Hrent l a t more d r l1 tr l2 k W Hs Htr Hk Hsp. apply (world_wf _ _ _ _ Hrent) in W.
  pose proof (step_wf _ _ _ _ Hrent _ _ _ W Hs) as W1.
  apply (disabled_trace cs same_id rent_exempt pid Hrent l1 tr l2 k W1 Htr); [|done].
  inversion Hs as [? ? ? ? ? Hc Hrt Hks Hd| |]; subst.
  apply close_instr in Hc as [_ Hc]. destruct (close_inv _ _ _ _ _ _ (w_ok _ _ _ W) Hc) as (Hr & _).
  pose proof (close_effect _ _ _ _ _ _ (w_ok _ _ _ W) Hc) as Hcl.
  pose proof (wf_owned _ _ _ _ (w_market _ _ _ W a Hr) k Hk) as Ho.
  split; rewrite Hcl; (destruct (existsb (N.eqb k) (keys a)) eqn:E; [|by apply not_held in E]); [done|].
  by apply write_tag_read.
Qed.

(** ** C34: lamports *)
Theorem C34_close : forall l a t more d r l',
  ledger_ok l -> instr (keys a ++ t :: more) (ix_close_market :: d) l = (Ok r, l') ->
  NoDup (keys a ++ [t]) /\
  (forall k, k ∈ keys a -> a_lamports (l' k) = 0) /\
  a_lamports (l' t) = a_lamports (l t) + balances l a /\ a_lamports (l' t) < p64 /\
  (forall k, k ∉ keys a -> k <> t -> l' k = l k) /\
  a_data (l' t) = a_data (l t) /\ a_owner (l' t) = a_owner (l t) /\
  forall L, NoDup L -> (forall k, k ∈ keys a ++ [t] -> k ∈ L) -> total_lamports L l' = total_lamports L l.
Proof.
  intros l a t more d r l' Hok H. apply close_instr in H as [_ H].
  destruct (close_inv _ _ _ _ _ _ Hok H) as (Hr & Hd & Htk & Hs & _).
  pose proof (close_effect _ _ _ _ _ _ Hok H) as Hcl.
  assert (Et : l' t = mk_account (a_owner (l t)) (a_lamports (l t) + close_total l a) (a_data (l t))).
  { rewrite Hcl. apply not_held in Htk. by rewrite Htk, N.eqb_refl. }
  split_and!.
  - apply NoDup_app. split_and!; [done| |apply NoDup_singleton]. intros x Hx Hx'.
    apply elem_of_list_singleton in Hx' as ->. done.
  - intros k Hk. rewrite Hcl. destruct (existsb (N.eqb k) (keys a)) eqn:E; [done|]. by apply not_held in E.
  - by rewrite Et.
  - by rewrite Et.
  - intros k Hk Hkt. rewrite Hcl. apply not_held in Hk. rewrite Hk. by destruct (N.eqb_spec k t).
  - by rewrite Et.
  - by rewrite Et.
  - intros L HL HinL. eapply closed_total; try done.
    + intros k Hk. apply HinL, elem_of_app. by left.
    + apply HinL, elem_of_app. right. by apply elem_of_list_singleton.
Qed.
(** No other instruction changes any balance, successful or not. *)
Theorem C34_other_instructions : forall l ks t d r l' k,
  instr ks (t :: d) l = (r, l') -> t <> ix_close_market -> a_lamports (l' k) = a_lamports (l k).
Proof. intros l ks t d r l' k H Ht. by apply (instr_lamports _ _ _ _ _ _ _ _ _ _ H Ht). Qed.
(** No transaction changes the total. *)
Theorem C34_execute_total : forall ms data l r l',
  execute ms data l = (r, l') ->
  total_lamports (remove_dups (map mt_key ms)) l' = total_lamports (remove_dups (map mt_key ms)) l.
Proof.
  intros ms data l r l' H. unfold Ledger.execute in H.
  destruct (Ledger.entrypoint _ _ _ _ _ _ _) as [[r1| | |] l1]; try (by injection H as <- <-).
  destruct (runtime_ok pid ms l l1) eqn:E; [|by injection H as <- <-]. injection H as <- <-.
  unfold runtime_ok in E. apply andb_prop in E as [_ E]. by apply N.eqb_eq.
Qed.

(** ** C35: markets are created once and with sound parameters *)
Theorem C35_create_iff : forall l a p more,
  ledger_ok l -> create_typed p ->
  (exists l', instr (keys a ++ more) (ix_create_market :: wr_create p) l = (Ok None, l')) <->
  (NoDup (keys a) /\
   (a_owner (l (ac_queue a)) = pid /\ a_owner (l (ac_bids a)) = pid /\ a_owner (l (ac_asks a)) = pid) /\
   (forall k, k ∈ keys a -> rent_exempt (a_lamports (l k)) (length (a_data (l k))) = true) /\
   (0 < cp_min p /\ 0 < cp_tick p) /\
   (length (a_data (l (ac_market a))) = 120%nat /\ read_tag (a_data (l (ac_market a))) = Ok 0) /\
   ((exists n, (5 <= n)%nat /\ length (a_data (l (ac_queue a))) = queue_allocation_size cs n) /\
    cs <> 0%nat /\ read_tag (a_data (l (ac_queue a))) = Ok 0) /\
   (idx (a_data (l (ac_bids a))) 0 = Ok 0 /\ idx (a_data (l (ac_asks a))) 0 = Ok 0)).
Proof. intros l a p more Hok Hp. rewrite create_instr_iff by done. by apply creatable_iff. Qed.
(** What it writes: the market account holds the three keys and the parameters, and the
    three other accounts get their tags. *)
Theorem C35_create_effect : forall l a p more r l',
  create_typed p -> instr (keys a ++ more) (ix_create_market :: wr_create p) l = (Ok r, l') ->
  a_data (l' (ac_market a)) =
    le_enc 8 128 ++ le_enc 32 (ac_queue a) ++ le_enc 32 (ac_bids a) ++ le_enc 32 (ac_asks a) ++
    le_enc 8 (cp_min p) ++ le_enc 8 (cp_tick p) /\
  a_data (l' (ac_queue a)) = le_enc 8 129 ++ drop 8 (a_data (l (ac_queue a))) /\
  a_data (l' (ac_bids a)) = 130 :: tail (a_data (l (ac_bids a))) /\
  a_data (l' (ac_asks a)) = 131 :: tail (a_data (l (ac_asks a))) /\
  (forall k, k ∉ keys a -> l' k = l k) /\
  (forall k, a_owner (l' k) = a_owner (l k) /\ a_lamports (l' k) = a_lamports (l k)).
Proof.
  intros l a p more r l' Hp H. apply create_instr in H as (_ & Hcr & Hl'); [|done].
  destruct (keys_distinct _ (cr_distinct _ _ _ _ _ _ Hcr)) as (D1&D2&D3&D4&D5&D6).
  split_and!.
  - by rewrite Hl', N.eqb_refl.
  - rewrite Hl'. eqbs. done.
  - rewrite Hl'. eqbs. done.
  - rewrite Hl'. eqbs. done.
  - intros k Hk. by apply (created_other cs rent_exempt pid l a p l' k Hl').
  - intros k. rewrite Hl'. eqbs; done.
Qed.
(** On zeroed accounts the result is the initial market of the model, with the sizes of
    the accounts: empty books, empty queue. *)
Theorem C35_create_opens : forall l a p more r l' nb xb na xa ne,
  cs <> 0%nat -> create_typed p -> Forall (fun k => k < 256 ^ 32) (keys a) ->
  instr (keys a ++ more) (ix_create_market :: wr_create p) l = (Ok r, l') ->
  a_owner (l (ac_market a)) = pid ->
  zeroed l (ac_queue a) -> zeroed l (ac_bids a) -> zeroed l (ac_asks a) ->
  length (a_data (l (ac_queue a))) = queue_allocation_size cs ne ->
  slab_room cs (length (a_data (l (ac_bids a)))) nb xb ->
  slab_room cs (length (a_data (l (ac_asks a)))) na xa ->
  opens l' a (init_market (mk_config (cp_min p) (cp_tick p) (replicate cs 0) nb na ne xb xa)).
Proof.
  intros l a p more r l' nb xb na xa ne Hcs Hp Hk H Ho Z1 Z2 Z3 L1 L2 L3.
  apply create_instr in H as (_ & Hcr & Hl'); [|done].
  apply (created_opens cs same_id rent_exempt pid Hcs l a p l' nb na ne xb xa); try done.
  by apply Forall_forall.
Qed.
(** An account of a live market cannot be used in another creation, in any role. *)
Theorem C35_once : rent_ok -> forall l a a' p more r l' k,
  world l -> records l a -> create_typed p ->
  instr (keys a' ++ more) (ix_create_market :: wr_create p) l = (Ok r, l') ->
  k ∈ keys a -> k ∉ keys a'.
Proof.
  intros Hrent l a a' p more r l' k W Hr Hp H Hk Hk'. apply (world_wf _ _ _ _ Hrent) in W.
  apply create_instr in H as (_ & Hcr & _); [|done].
  apply (creatable_fresh cs rent_exempt pid l a' p k W Hcr Hk'). by exists a.
Qed.
(** Accounts on which a market can be created hold nothing but zeros, unless the program
    around this library wrote to them. *)
Theorem C35_fresh : rent_ok -> forall l0 tr l a p more r l' k,
  ledger_ok l0 -> (forall k, a_owner (l0 k) <> pid) -> trace l0 tr l -> Own k ∉ tr ->
  create_typed p -> step l (Call (keys a ++ more) (ix_create_market :: wr_create p) r) l' ->
  k ∈ keys a -> zeroed l k.
Proof.
  intros Hrent l0 tr l a p more r l' k Hok Hno Htr HnO Hp Hs Hk.
  inversion Hs as [? ? ? ? ? Hc Hrt Hks Hd| |]; subst.
  apply create_instr in Hc as (_ & Hcr & Hl'); [|done].
  pose proof (creatable_hd _ _ _ _ _ _ _ Hcr Hk) as Hhd.
  assert (Ho : a_owner (l k) = pid).
  { apply elem_keys in Hk. destruct Hcr. destruct Hk as [-> | [-> | [-> | ->]]]; try done.
    apply Hrt. left. rewrite Hl', N.eqb_refl. cbn. intros E. by rewrite <- E in cr_market_tag. }
  destruct (fresh_trace cs same_id rent_exempt pid Hrent l0 tr l k Hok Hno Htr HnO Ho) as [|Hge]; [done|].
  rewrite Hhd in Hge. lia.
Qed.

(** ** C36: only the accounts recorded in the market *)
(** The processor that the data selects. *)
Theorem C36_checked : forall l ks data o r l',
  ledger_ok l -> bytes_ok data -> op_of_data cs data = Some o -> instr ks data l = (Ok r, l') ->
  exists a more, ks = op_keys a o ++ more /\ records l a /\
    forall k, k ∈ op_keys a o -> a_owner (l k) = pid.
Proof.
  intros l ks data o r l' Hok Hd Ho H.
  destruct (call_inv _ _ _ _ _ _ _ _ _ Hd H) as
    [a p more Hks Hdata _ _ Hc|a p more sm Hks Hdata Ht _ Hc|a id more sm Hks Hdata Ht _ Hc
    |a ids more sm Hks Hdata Ht _ Hc|km kq n more Hks Hdata Ht _ Hc|a t more d Hks Hdata _ Hc]; subst data.
  - done.
  - rewrite (op_of_op_data cs (NewOrder p) Ht) in Ho. injection Ho as <-.
    destruct (new_order_l_inv _ _ _ _ _ _ _ _ Hok Hc) as [m Hm].
    exists a, more. split_and!; [done|by eapply opens_records|]. apply Hm.
  - rewrite (op_of_op_data cs (CancelOrder id) Ht) in Ho. injection Ho as <-.
    exists a, more. split_and!; [done|by apply (with_book_inv _ _ _ _ _ _ _ Hok Hc)|].
    by apply (perform_checks_inv _ _ _ _ _ _ Hc).
  - rewrite (op_of_op_data cs (MassCancelOrders ids) Ht) in Ho. injection Ho as <-.
    exists a, more. split_and!; [done|by apply (with_book_inv _ _ _ _ _ _ _ Hok Hc)|].
    by apply (perform_checks_inv _ _ _ _ _ _ Hc).
  - rewrite (op_of_op_data cs (ConsumeEvents n) Ht) in Ho. injection Ho as <-.
    destruct (consume_inv _ _ _ _ _ _ _ Hok Hc) as (ms & q & q' & Hr & Hkq & _ & Hown & _).
    exists (ms_accounts km ms), more. cbn [op_keys]. cbn. rewrite <- Hkq. split_and!; [done|done|].
    intros k Hk. apply elem_of_cons in Hk as [->|Hk]; [apply Hr|]. by apply elem_of_list_singleton in Hk as ->.
  - done.
Qed.
Theorem C36_close_checked : forall l ks d r l',
  ledger_ok l -> bytes_ok d -> instr ks (ix_close_market :: d) l = (Ok r, l') ->
  exists a t more, ks = keys a ++ t :: more /\ records l a.
Proof.
  intros l ks d r l' Hok Hd H.
  assert (Hd' : bytes_ok (ix_close_market :: d)) by by apply Forall_cons.
  destruct (call_inv _ _ _ _ _ _ _ _ _ Hd' H) as
    [a p more Hks Hdata|a p more sm Hks Hdata|a id more sm Hks Hdata
    |a ids more sm Hks Hdata|km kq n more Hks Hdata|a t more d' Hks Hdata _ Hc]; try done.
  exists a, t, more. split; [done|]. by apply (close_inv _ _ _ _ _ _ Hok Hc).
Qed.
(** Two lists of accounts recorded by the same market account are the same: the market
    decides which accounts an instruction gets. *)
Theorem C36_records_unique : forall l a a',
  records l a -> records l a' -> ac_market a = ac_market a' -> a = a'.
Proof. intros l a a'. apply records_unique. Qed.
(** Whatever the instruction, the ledger and the outcome: no other account changes, and
    no owner. *)
Theorem C36_frame : forall l ks data r l' k,
  instr ks data l = (r, l') ->
  (k ∉ used ks data -> l' k = l k) /\ a_owner (l' k) = a_owner (l k).
Proof. intros l ks data r l' k H. by apply (instr_frame _ _ _ _ _ _ _ _ _ H). Qed.
(** The market account itself is only read by instructions on a live market, so it always
    names the same accounts. *)
Theorem C36_market_constant : rent_ok -> forall l ks data o r l' k,
  world l -> bytes_ok data -> op_of_data cs data = Some o -> instr (k :: ks) data l = (Ok r, l') ->
  l' k = l k.
Proof.
  intros Hrent l ks data o r l' k W Hd Ho H. apply (world_wf _ _ _ _ Hrent) in W.
  destruct (call_effect _ _ _ _ _ _ _ _ _ W Hd H)
    as [a p more _ -> |a o' more E -> Ht Hr Hta|a t more d m _ -> ]; try done.
  assert (Ek : k = ac_market a) by (destruct o'; by injection E). subst k.
  destruct (keys_distinct _ (wf_distinct _ _ _ _ (w_market _ _ _ W a Hr))) as (D1&D2&D3&D4&D5&D6).
  by destruct (Hta (ac_market a)) as (_&_&_&_&_&->).
Qed.

(** ** C45: instruction builders *)
Notation built i := (entrypoint (map mt_key (i_metas i)) (i_data i)).
Theorem C45_create_market : forall a reg p l, create_typed p ->
  built (build_create_market a reg p) l =
  answer reg (do! create_market cs rent_exempt pid a p in ret None) l.
Proof.
  intros a reg p l Hp. change (map mt_key (i_metas (build_create_market a reg p))) with (keys a ++ [reg]).
  rewrite entry_answer. apply answer_ext. rewrite <- (app_nil_r (keys a)). by apply create_instr_eq.
Qed.
Theorem C45_new_order : forall a reg p l, new_order_typed cs p ->
  built (build_new_order a reg p) l =
  answer reg (let! s := new_order_l cs same_id pid a p in ret (Some s)) l.
Proof.
  intros a reg p l Hp. change (map mt_key (i_metas (build_new_order a reg p))) with (keys a ++ [reg]).
  rewrite entry_answer. apply answer_ext. rewrite <- (app_nil_r (keys a)).
  by apply (op_instr_eq cs same_id rent_exempt pid l a [] (NewOrder p)).
Qed.
Theorem C45_cancel_order : forall a reg id l, id < p128 ->
  built (build_cancel_order a reg id) l =
  answer reg (let! s := cancel_order_l cs pid a id in ret (Some s)) l.
Proof.
  intros a reg id l Hp. change (map mt_key (i_metas (build_cancel_order a reg id))) with (keys a ++ [reg]).
  rewrite entry_answer. apply answer_ext. rewrite <- (app_nil_r (keys a)).
  by apply (op_instr_eq cs same_id rent_exempt pid l a [] (CancelOrder id)).
Qed.
Theorem C45_consume_events : forall km kq reg n l, n < p64 ->
  built (build_consume_events km kq reg n) l =
  answer reg (do! consume_events_l cs pid km kq n in ret None) l.
Proof.
  intros km kq reg n l Hp. change (map mt_key (i_metas (build_consume_events km kq reg n))) with ([km; kq] ++ [reg]).
  rewrite entry_answer. apply answer_ext.
  by apply (op_instr_eq cs same_id rent_exempt pid l (mk_accounts km kq 0 0) [] (ConsumeEvents n)).
Qed.
Theorem C45_close_market : forall a t reg l,
  built (build_close_market a t reg) l =
  answer reg (do! close_market cs pid a t in ret None) l.
Proof.
  intros a t reg l. change (map mt_key (i_metas (build_close_market a t reg))) with ((keys a ++ [t]) ++ [reg]).
  rewrite entry_answer. apply answer_ext. apply close_instr_eq.
Qed.
(** The claim fails for the sixth: the instruction built by [mass_cancel_orders] carries
    the tag of close_market, for which an account is missing, so it always fails. *)
Theorem C45_mass_cancel_refuted : forall a reg ids l,
  execute (i_metas (build_mass_cancel_orders a reg ids)) (i_data (build_mass_cancel_orders a reg ids)) l
    = (Err PE_NotEnoughAccountKeys, l).
Proof. done. Qed.
(** With the right tag it would work. *)
Theorem C45_mass_cancel_fixed : forall a reg ids l,
  Forall (fun id => id < p128) ids -> N.of_nat (length ids) < p32 ->
  entrypoint (map mt_key (i_metas (build_mass_cancel_orders a reg ids)))
    (ix_mass_cancel_orders :: tail (i_data (build_mass_cancel_orders a reg ids))) l =
  answer reg (let! s := mass_cancel_l cs pid a ids in ret (Some s)) l.
Proof.
  intros a reg ids l H1 H2. change (map mt_key (i_metas (build_mass_cancel_orders a reg ids))) with (keys a ++ [reg]).
  rewrite entry_answer. apply answer_ext. rewrite <- (app_nil_r (keys a)).
  by apply (op_instr_eq cs same_id rent_exempt pid l a [] (MassCancelOrders ids)).
Qed.
(** The accounts are marked writable as needed: what the program accepts, the runtime
    accepts too. *)
Theorem C45_metas_create : forall a reg p l r l',
  create_typed p -> reg ∉ keys a -> a_owner (l reg) = pid -> a_owner (l (ac_market a)) = pid ->
  let i := build_create_market a reg p in
  built i l = (Ok r, l') -> execute (i_metas i) (i_data i) l = (Ok r, l').
Proof. intros a reg p l r l' H1 H2 H3 H4. by apply create_accepted. Qed.
Theorem C45_metas_trade : rent_ok -> forall a reg l r l' i,
  world l -> reg ∉ keys a -> a_owner (l reg) = pid ->
  (exists p, new_order_typed cs p /\ i = build_new_order a reg p) \/
  (exists id, id < p128 /\ i = build_cancel_order a reg id) \/
  (exists n, n < p64 /\ i = build_consume_events (ac_market a) (ac_queue a) reg n) ->
  built i l = (Ok r, l') -> execute (i_metas i) (i_data i) l = (Ok r, l').
Proof.
  intros Hrent a reg l r l' i W Hreg Ho Hi H. apply (world_wf _ _ _ _ Hrent) in W.
  destruct Hi as [(p & Ht & ->)|[(id & Ht & ->)|(n & Ht & ->)]].
  - apply (op_accepted cs same_id rent_exempt pid a (NewOrder p) reg); try done.
    intros k Hk. cbn [op_keys keys tail] in Hk. cbn. set_solver.
  - apply (op_accepted cs same_id rent_exempt pid a (CancelOrder id) reg); try done.
    intros k Hk. cbn [op_keys keys tail] in Hk. cbn. set_solver.
  - apply (op_accepted cs same_id rent_exempt pid a (ConsumeEvents n) reg); try done.
    + cbn [op_keys]. unfold keys in Hreg. set_solver.
    + intros k Hk. cbn [op_keys keys tail] in Hk. cbn. set_solver.
Qed.
Theorem C45_metas_close : rent_ok -> forall a t reg l r l',
  world l -> reg ∉ keys a -> reg <> t -> a_owner (l reg) = pid ->
  let i := build_close_market a t reg in
  built i l = (Ok r, l') -> execute (i_metas i) (i_data i) l = (Ok r, l').
Proof.
  intros Hrent a t reg l r l' W Hreg Hrt Ho i H. apply (world_wf _ _ _ _ Hrent) in W.
  by apply (close_accepted cs same_id rent_exempt pid a t reg).
Qed.
(** No more than that: an instruction built for trading, cancelling or consuming asks for
    no write access to the market account, or to any account but those that it is about. *)
Theorem C45_read_only : forall a reg i k,
  (exists p, i = build_new_order a reg p) \/ (exists id, i = build_cancel_order a reg id) \/
  (exists ids, i = build_mass_cancel_orders a reg ids) \/
  (exists n, i = build_consume_events (ac_market a) (ac_queue a) reg n) ->
  k ∉ [ac_queue a; ac_bids a; ac_asks a; reg] -> writable (i_metas i) k = false.
Proof.
  intros a reg i k Hi Hk. rewrite !not_elem_of_cons in Hk. destruct Hk as (H1 & H2 & H3 & H4 & _).
  apply N.eqb_neq in H1, H2, H3, H4. rewrite N.eqb_sym in H1, H2, H3, H4.
  destruct Hi as [(p & ->)|[(id & ->)|[(ids & ->)|(n & ->)]]]; unfold writable; cbn;
    rewrite ?H1, ?H2, ?H3, ?H4; by destruct (ac_market a =? k).
Qed.
(** Consuming events asks for no write access to the two sides of the book either. *)
Theorem C45_read_only_consume : forall km kq reg n k,
  k <> kq -> k <> reg -> writable (i_metas (build_consume_events km kq reg n)) k = false.
Proof.
  intros km kq reg n k H1 H2. apply N.eqb_neq in H1, H2. rewrite N.eqb_sym in H1, H2.
  unfold writable; cbn. rewrite H1, H2. by destruct (km =? k).
Qed.

(** ** C48: failed instructions have no effect *)
Theorem C48_execute : forall ms data l l' r,
  execute ms data l = (r, l') -> is_ok r = false -> l' = l.
Proof.
  intros ms data l l' r H Hr. unfold Ledger.execute in H.
  destruct (Ledger.entrypoint _ _ _ _ _ _ _) as [[r1| | |] l1]; try (by injection H as <- <-).
  destruct (runtime_ok pid ms l l1); by injection H as <- <-.
Qed.

(** ** C51: the accounts of a market evolve as the market of the model *)
(** One instruction: same answer, same next state. *)
Theorem C51_answer : forall l a m o more,
  ledger_ok l -> opens l a m -> op_bytes_typed cs o ->
  exists l', instr (op_keys a o ++ more) (op_data o) l = (fst (exec same_id o m), l') /\
    (is_ok (fst (exec same_id o m)) = true -> opens l' a (snd (exec same_id o m))).
Proof.
  intros l a m o more Hok Ho Ht. destruct (op_run cs same_id rent_exempt pid l a m o more Hok Ho Ht) as (l' & E & Hw).
  exists l'. unfold exec. destruct (process same_id o m) as [[r| | |] m'] eqn:Ep; cbn in *; try (split; [done|discriminate]).
  split; [done|]. intros _. pose proof (op_opens cs same_id pid l a m o l' Hok Ho Ht) as H.
  rewrite Ep in H. cbn in H. auto.
Qed.
(** Whole histories: from its creation until it is closed, whatever else happens on the
    ledger, the market's accounts hold exactly the market that the instructions on it
    lead to; these markets are the ones all other properties are about. *)
Theorem C51_history : rent_ok -> forall l0 a p more l1 tr l2 nb xb na xa ne,
  cs <> 0%nat -> world l0 -> create_typed p ->
  step l0 (Call (keys a ++ more) (ix_create_market :: wr_create p) None) l1 ->
  zeroed l0 (ac_queue a) -> zeroed l0 (ac_bids a) -> zeroed l0 (ac_asks a) ->
  length (a_data (l0 (ac_queue a))) = queue_allocation_size cs ne ->
  slab_room cs (length (a_data (l0 (ac_bids a)))) nb xb ->
  slab_room cs (length (a_data (l0 (ac_asks a)))) na xa ->
  trace l1 tr l2 -> Forall (fun lb => ~ closes (ac_market a) lb) tr ->
  let c := mk_config (cp_min p) (cp_tick p) (replicate cs 0) nb na ne xb xa in
  exists m log, opens l2 a m /\ config_ok c /\ history same_id c log m /\
    map (fun e => (en_op e, en_res e)) log =
      map (fun x => (fst x, Ok (snd x))) (market_calls cs (ac_market a) tr) /\
    (N.of_nat (length (market_calls cs (ac_market a) tr)) < p63 -> reachable same_id c m).
Proof.
  intros Hrent l0 a p more l1 tr l2 nb xb na xa ne Hcs W Hp Hs Z1 Z2 Z3 L1 L2 L3 Htr Hncl c.
  apply (world_wf _ _ _ _ Hrent) in W. pose proof (step_wf _ _ _ _ Hrent _ _ _ W Hs) as W1.
  inversion Hs as [? ? ? ? ? Hc Hrt Hks Hd| |]; subst.
  apply create_instr in Hc as (_ & Hcr & Hl'); [|done].
  assert (Ho : opens l1 a (init_market c)).
  { apply (created_opens cs same_id rent_exempt pid Hcs l0 a p l1 nb na ne xb xa); try done.
    - intros k Hk. apply (proj1 (Forall_forall _ _) Hks).
      change (k ∈ keys a ++ more). apply elem_of_app. by left.
    - apply Hrt. left. rewrite Hl', N.eqb_refl. cbn. intros E. pose proof (cr_market_tag _ _ _ _ _ _ Hcr) as Ht.
      by rewrite <- E in Ht. }
  assert (Hcfg : config_ok c).
  { pose proof (cr_queue_size _ _ _ _ _ _ Hcr) as Hq. apply C42_accepted_sizes in Hq as (n & Hn & Hn').
    assert (n = ne) as ->. { rewrite L1 in Hn'. rewrite !C42_allocation_size in Hn'. nia. }
    pose proof (cr_min _ _ _ _ _ _ Hcr). pose proof (cr_tick _ _ _ _ _ _ Hcr).
    eapply new_config_ok; try done; try lia; apply W. }
  destruct (trace_follow cs same_id rent_exempt pid Hcs Hrent c l1 tr l2 a (init_market c) [] W1) as (log & m & Hh & Hm & Hmap);
    try done; [constructor|].
  exists m, log. split_and!; try done. intros Hlen. split; [done|]. exists log. split; [done|].
  assert (E : length log = length (market_calls cs (ac_market a) tr)).
  { rewrite <- (map_length (fun e => (en_op e, en_res e)) log), Hmap, map_length. done. }
  by rewrite E.
Qed.
(** A transaction with a register outside the markets is a call and a write to the
    register, so sequences of transactions are traces. *)
Theorem C51_execute : rent_ok -> forall ms ks reg data l r l',
  world l -> execute ms data l = (Ok r, l') ->
  map mt_key ms = ks ++ [reg] -> reg ∉ ks -> ~ in_market l reg ->
  Forall (fun k => k < 256 ^ 32) ks -> bytes_ok data ->
  trace l [Call ks data r; Own reg] l'.
Proof.
  intros Hrent ms ks reg data l r l' W. apply (world_wf _ _ _ _ Hrent) in W. by apply execute_trace.
Qed.

(** ** C52: markets do not interfere *)
Theorem C52_disjoint : rent_ok -> forall l a a' k,
  world l -> records l a -> records l a' -> k ∈ keys a -> k ∈ keys a' -> a = a'.
Proof. intros Hrent l a a' k W. apply (world_wf _ _ _ _ Hrent) in W. apply (w_disjoint _ _ _ W). Qed.
Theorem C52_recorded : rent_ok -> forall l a,
  world l -> records l a ->
  NoDup (keys a) /\ (forall k, k ∈ keys a -> a_owner (l k) = pid /\ 0 < a_lamports (l k)) /\
  read_tag (a_data (l (ac_queue a))) = Ok 129 /\
  hd 0 (a_data (l (ac_bids a))) = 130 /\ hd 0 (a_data (l (ac_asks a))) = 131.
Proof.
  intros Hrent l a W Hr. apply (world_wf _ _ _ _ Hrent) in W. destruct (w_market _ _ _ W a Hr).
  split_and!; try done. intros k Hk. auto.
Qed.
(** An instruction on one market leaves the accounts of every other market as they are,
    except that closing may pay lamports into one of them. *)
Theorem C52_isolated : rent_ok -> forall l k ks data r l' a k',
  world l -> step l (Call (k :: ks) data r) l' -> records l a -> ac_market a <> k -> k' ∈ keys a ->
  a_data (l' k') = a_data (l k') /\ a_owner (l' k') = a_owner (l k') /\
  a_lamports (l k') <= a_lamports (l' k').
Proof.
  intros Hrent l k ks data r l' a k' W Hs Hr Hne Hk'. apply (world_wf _ _ _ _ Hrent) in W.
  inversion Hs as [? ? ? ? ? Hc Hrt Hks Hd| |]; subst.
  destruct (call_effect _ _ _ _ _ _ _ _ _ W Hd Hc)
    as [a' p more E _ _ _ Hcr Hl'|a' o more E _ _ Hr' Hta|a' t more d m E _ _ Hr' _ _ _ _ _ _ Hl'].
  - rewrite (created_other cs rent_exempt pid _ _ _ _ _ Hl'); [split_and!; [done..|lia]|].
    intros Hk. apply (creatable_fresh cs rent_exempt pid l a' p k' W Hcr Hk). by exists a.
  - assert (Em : k = ac_market a') by (destruct o; by injection E).
    assert (Hn : k' ∉ keys a').
    { intros Hk. apply Hne. rewrite Em. by rewrite (w_disjoint _ _ _ W a a' k' Hr Hr' Hk' Hk). }
    destruct (Hta k') as (_&_&_&_&_&->); [split_and!; [done..|lia]| | |];
      intros ->; apply Hn, elem_keys; naive_solver.
  - assert (Em : k = ac_market a') by by injection E.
    assert (Hn : k' ∉ keys a').
    { intros Hk. apply Hne. rewrite Em. by rewrite (w_disjoint _ _ _ W a a' k' Hr Hr' Hk' Hk). }
    destruct (closed_other cs rent_exempt _ _ _ _ _ Hl' Hn) as (E1 & E2 & E3). done.
Qed.
(** And a market that opens as [m] opens as [m] afterwards. *)
Theorem C52_same_market : rent_ok -> forall l k ks data r l' a m,
  world l -> step l (Call (k :: ks) data r) l' -> opens l a m -> ac_market a <> k -> opens l' a m.
Proof.
  intros Hrent l k ks data r l' a m W Hs Ho Hne. apply (opens_same cs pid l); [done|].
  intros k' Hk'. apply opens_records in Ho.
  by destruct (C52_isolated Hrent l k ks data r l' a k' W Hs Ho Hne Hk') as (E1 & E2 & _).
Qed.
End Props.

(** ** Examples
    The ledger of LedgerExample.v: [e_l4] holds two live markets, the first with a bid and
    an event, the second empty; [e_l5] is the ledger after the second was closed, its
    lamports going to account 6. *)
Example C33_example_hypotheses :
  ledger_ok e_l4 /\ world e_cs e_same e_rent e_pid e_l4 /\ rent_ok e_rent /\
  opens e_cs e_pid e_l4 e_a e_ma /\ reachable e_same e_cfg e_ma /\ resting e_ma Bid <> [] /\
  opens e_cs e_pid e_l4 e_b e_mb /\ reachable e_same e_cfg e_mb.
Proof.
  split; [exact e_ok4|]. split; [exact e_world4|]. split; [exact e_rent_0|].
  split; [exact e_opens_a|]. split; [exact e_reachable_a|]. split; [by vm_compute|].
  split; [exact e_opens_b|exact e_reachable_b].
Qed.
Example C33_example :
  fst (e_instr (keys e_a ++ 6 :: []) [ix_close_market] e_l4) = Err MarketStillActive /\
  fst (e_instr (keys e_b ++ 6 :: []) [ix_close_market] e_l4) = Ok None /\
  map (fun k => take 9 (a_data (e_l5 k))) (keys e_b) =
    [[132;0;0;0;0;0;0;0;12]; [132;0;0;0;0;0;0;0;0]; [132;0;0;0;0;0;0;0;0]; [132;0;0;0;0;0;0;0;0]] /\
  fst (e_instr (keys e_b ++ 6 :: []) [ix_close_market] e_l5) <> Ok None /\
  fst (e_instr (keys e_b ++ []) (e_create e_b) e_l5) <> Ok None.
Proof. vm_compute. repeat split; discriminate. Qed.
Example C33_example_disabled : forall k, k ∈ keys e_b -> disabled e_pid e_l5 k.
Proof.
  intros k Hk. apply elem_keys in Hk. destruct Hk as [-> | [-> | [-> | ->]]]; by vm_compute.
Qed.
Example C33_example_stays : forall k, k ∈ keys e_b ->
  exists tr l2, trace e_cs e_same e_rent e_pid e_l5 tr l2 /\ Forall (spares k) tr /\
    disabled e_pid l2 k /\ a_lamports (l2 k) = 50.
Proof.
  intros k Hk. exists ([] ++ [Env []]), e_l6. split; [|split; [|split]].
  - eapply trace_snoc; [constructor|].
    apply fund_step; [exact (w_ok _ _ _ (world_wf _ _ _ _ e_rent_0 _ e_world5))|vm_compute; reflexivity].
  - constructor; [|constructor]. cbn. apply not_elem_of_nil.
  - apply elem_keys in Hk. destruct Hk as [-> | [-> | [-> | ->]]]; by vm_compute.
  - apply elem_keys in Hk. destruct Hk as [-> | [-> | [-> | ->]]]; by vm_compute.
Qed.
(** The claim fails for transactions that name an account of a closed market as register:
    the entrypoint writes its answer there without a check.  In the witness the accounts
    of the closed market get lamports again, a transaction on the other market resets each
    of the four tags, and then the market is created a second time. *)
Theorem C33_register_refuted :
  exists l ms1 ms2 ms3 ms4 ms5 data data' l1 l2 l3 l4 l5,
    let exec := execute e_cs e_same e_rent e_pid in
    world e_cs e_same e_rent e_pid l /\ (forall k, k ∈ keys e_b -> disabled e_pid l k) /\
    exec ms1 data l = (Ok None, l1) /\ exec ms2 data l1 = (Ok None, l2) /\
    exec ms3 data l2 = (Ok None, l3) /\ exec ms4 data l3 = (Ok None, l4) /\
    read_tag (a_data (l1 (ac_market e_b))) = Ok 0 /\
    exec ms5 data' l4 = (Ok None, l5) /\ read_tag (a_data (l5 (ac_market e_b))) = Ok 128.
Proof.
  set (ms reg := i_metas (build_consume_events 1 2 reg 0)).
  exists e_l6, (ms 11), (ms 12), (ms 13), (ms 14), (i_metas (build_create_market e_b 5 e_p)),
    (i_data (build_consume_events 1 2 0 0)), (i_data (build_create_market e_b 5 e_p)),
    e_l7, e_l8, e_l9, e_l10, (snd e_again).
  assert (T : forall x : res (option summary) * ledger, fst x = Ok None -> x = (Ok None, snd x)).
  { intros [r l] E. cbn in E. by rewrite E. }
  split; [exact e_world6|]. split.
  { intros k Hk. apply elem_keys in Hk. destruct Hk as [-> | [-> | [-> | ->]]]; by vm_compute. }
  split; [apply (T (e_poke 11 e_l6)); by vm_compute|].
  split; [apply (T (e_poke 12 e_l7)); by vm_compute|].
  split; [apply (T (e_poke 13 e_l8)); by vm_compute|].
  split; [apply (T (e_poke 14 e_l9)); by vm_compute|].
  split; [by vm_compute|]. split; [apply (T e_again); by vm_compute|by vm_compute].
Qed.

Example C34_example :
  map (fun k => a_lamports (e_l4 k)) [11; 12; 13; 14; 6] = [10; 20; 30; 40; 600] /\
  map (fun k => a_lamports (e_l5 k)) [11; 12; 13; 14; 6] = [0; 0; 0; 0; 700] /\
  fst (e_instr (keys e_b ++ 6 :: []) [ix_close_market] e_l4) = Ok None /\
  fst (e_instr (keys e_b ++ 11 :: []) [ix_close_market] e_l4) <> Ok None.
Proof. vm_compute. repeat split; discriminate. Qed.
Example C34_example_execute :
  let i := build_close_market e_b 6 5 in
  let x := e_exec (i_metas i) (i_data i) e_l4 in
  fst x = Ok None /\
  total_lamports (remove_dups (map mt_key (i_metas i))) (snd x) = 705.
Proof. by vm_compute. Qed.

Example C35_example :
  ledger_ok e_l0 /\ create_typed e_p /\
  (forall k, k ∈ keys e_a -> zeroed e_l0 k) /\
  fst (e_instr (keys e_a ++ []) (ix_create_market :: wr_create e_p) e_l0) = Ok None /\
  fst (e_instr (keys e_a ++ []) (ix_create_market :: wr_create e_p) e_l1) <> Ok None /\
  fst (e_instr (keys (mk_accounts 11 12 3 14) ++ []) (ix_create_market :: wr_create e_p) e_l1) <> Ok None /\
  fst (e_instr (keys e_a ++ []) (ix_create_market :: wr_create (mk_create_params 0 1)) e_l0) = Err PE_InvalidArgument.
Proof.
  split; [exact e_ok0|]. split; [by vm_compute|]. split.
  { intros k Hk. apply elem_keys in Hk. destruct Hk as [-> | [-> | [-> | ->]]]; apply zeros_0. }
  vm_compute. repeat split; discriminate.
Qed.
Example C35_example_opens :
  slab_room 32 184 2 0 /\ 552%nat = queue_allocation_size 32 5 /\
  opens e_cs e_pid e_l1 e_a (init_market (mk_config 2 1 (replicate 32 0) 2 2 5 0 0)).
Proof.
  assert (R : slab_room 32 184 2 0) by (unfold slab_room; lia). split; [done|]. split; [done|].
  assert (T : forall x : res (option summary) * ledger, fst x = Ok None -> x = (Ok None, snd x)).
  { intros [r l] E. cbn in E. by rewrite E. }
  apply (C35_create_opens e_cs e_same e_rent e_pid e_l0 e_a e_p [] None e_l1 2 0 2 0 5).
  - discriminate.
  - by vm_compute.
  - repeat constructor.
  - exact (T (e_instr (keys e_a ++ []) (e_create e_a) e_l0) ltac:(by vm_compute)).
  - reflexivity.
  - apply zeros_0.
  - apply zeros_0.
  - apply zeros_0.
  - reflexivity.
  - exact R.
  - exact R.
Qed.
(** What create_market does not check: the slab accounts may be too small to hold any
    order. *)
Example C35_example_small :
  let l := fun k => if k =? 3 then mk_account 9 30 [0] else e_l0 k in
  fst (e_instr (keys e_a ++ []) (ix_create_market :: wr_create e_p) l) = Ok None.
Proof. by vm_compute. Qed.

Example C36_example :
  records e_pid e_l4 e_a /\ records e_pid e_l4 e_b /\
  op_of_data e_cs (op_data (e_order Bid 10 4)) = Some (e_order Bid 10 4) /\
  used (keys e_a ++ [77]) (op_data (e_order Bid 10 4)) = keys e_a /\
  is_ok (fst (e_instr (keys e_a ++ [77]) (op_data (e_order Bid 10 5)) e_l4)) = true /\
  fst (e_instr (keys (mk_accounts 1 2 13 4)) (op_data (e_order Bid 10 4)) e_l4) = Err WrongBidsAccount /\
  fst (e_instr (keys (mk_accounts 1 12 3 4)) (op_data (e_order Bid 10 4)) e_l4) = Err WrongEventQueueAccount /\
  fst (e_instr [1; 12] (op_data (ConsumeEvents 1)) e_l4) = Err WrongEventQueueAccount /\
  fst (e_instr [6; 12] (op_data (ConsumeEvents 1)) e_l4) = Err WrongMarketOwner.
Proof.
  split; [exact (opens_records _ _ _ _ _ e_opens_a)|]. split; [exact (opens_records _ _ _ _ _ e_opens_b)|].
  vm_compute. repeat split; discriminate.
Qed.

(** All builders produce instructions that work, here on the accounts of the example
    (except the last). *)
Example C45_example :
  let run i l := fst (e_exec (i_metas i) (i_data i) l) in
  run (build_create_market e_a 5 e_p) e_l0 = Ok None /\
  run (build_new_order e_a 5 (mk_params 10 1000000 (e_price 3) Bid 5 (e_cb 1) false true DecrementTake)) e_l4
    = Ok (Some (mk_summary (Some (e_price 3 * p64 + p64 - 2)) 10 30 10)) /\
  run (build_cancel_order e_a 5 (e_price 4 * p64 + p64 - 1)) e_l4 = Ok (Some (mk_summary None 7 28 0)) /\
  run (build_consume_events 1 2 5 1) e_l4 = Ok None /\
  run (build_close_market e_b 6 5) e_l4 = Ok None /\
  run (build_mass_cancel_orders e_a 5 [e_price 4 * p64 + p64 - 1]) e_l4 = Err PE_NotEnoughAccountKeys.
Proof. by vm_compute. Qed.
Example C45_example_metas : world e_cs e_same e_rent e_pid e_l4 /\ 5 ∉ keys e_a /\ a_owner (e_l4 5) = e_pid.
Proof.
  split; [exact e_world4|]. split; [|by vm_compute]. apply (bool_decide_eq_true_1 _). by vm_compute.
Qed.

Example C48_example_execute :
  let i := build_close_market e_a 6 5 in
  fst (e_exec (i_metas i) (i_data i) e_l4) = Err MarketStillActive.
Proof. by vm_compute. Qed.

(** The history of the first market in the example: two orders among the calls on both
    markets. *)
Example C51_example :
  exists m log, opens e_cs e_pid e_l4 e_a m /\ reachable e_same e_cfg m /\
    history e_same e_cfg log m /\
    map (fun e => (en_op e, en_res e)) log =
      [(e_order Bid 10 4, Ok (Some e_sum3)); (e_order Ask 3 4, Ok (Some e_sum4))] /\
    map o_qty (resting e_ma Bid) = [7].
Proof.
  destruct (C51_history e_cs e_same e_rent e_pid e_rent_0 e_l0 e_a e_p [] e_l1 _ e_l4 2 0 2 0 5
    ltac:(done) e_world0 ltac:(by vm_compute) e_step1 (zeros_0 _) (zeros_0 _) (zeros_0 _) eq_refl
    ltac:(unfold slab_room; cbn; lia) ltac:(unfold slab_room; cbn; lia) e_trace4)
    as (m & log & H1 & H2 & H3 & H4 & H5).
  { repeat constructor; intros []; done. }
  exists m, log. split; [exact H1|]. split; [apply H5; by vm_compute|]. split; [exact H3|].
  split; [rewrite H4; by vm_compute|by vm_compute].
Qed.
Example C51_example_answer :
  ledger_ok e_l4 /\ opens e_cs e_pid e_l4 e_a e_ma /\ op_bytes_typed e_cs (ConsumeEvents 1) /\
  fst (exec e_same (ConsumeEvents 1) e_ma) = Ok None /\
  fst (e_instr (op_keys e_a (ConsumeEvents 1)) (op_data (ConsumeEvents 1)) e_l4) = Ok None.
Proof.
  split; [exact e_ok4|]. split; [exact e_opens_a|]. by vm_compute.
Qed.

Example C52_example :
  records e_pid e_l4 e_a /\ records e_pid e_l4 e_b /\ ac_market e_b <> 1 /\
  opens e_cs e_pid e_l3 e_b e_mb /\ opens e_cs e_pid e_l4 e_b e_mb.
Proof.
  split; [exact (opens_records _ _ _ _ _ e_opens_a)|]. split; [exact (opens_records _ _ _ _ _ e_opens_b)|].
  split; [done|].
  assert (O : opens e_cs e_pid e_l3 e_b e_mb).
  { split; [apply (bool_decide_eq_true_1 _); by vm_compute|by apply e_owned_b; vm_compute|
    vm_compute; reflexivity..]. }
  split; [exact O|].
  refine (C52_same_market e_cs e_same e_rent e_pid e_rent_0 e_l3 1 _ _ _ e_l4 e_b e_mb _ e_step4 O _); [|done].
  exact (world_step _ _ _ (world_step _ _ _ (world_step _ _ _ e_world0 e_step1) e_step2) e_step3).
Qed.
(** Isolation fails too when the register of a transaction is an account of another
    market: here consume_events on the first market makes the second unusable. *)
Theorem C52_register_refuted :
  exists l ms data l',
    world e_cs e_same e_rent e_pid l /\ records e_pid l e_b /\
    hd (mk_meta 0 false) ms = mk_meta (ac_market e_a) false /\
    execute e_cs e_same e_rent e_pid ms data l = (Ok None, l') /\ ~ records e_pid l' e_b.
Proof.
  exists e_l4, (i_metas (build_consume_events 1 2 11 0)), (i_data (build_consume_events 1 2 11 0)),
    (snd (e_poke 11 e_l4)).
  assert (T : forall x : res (option summary) * ledger, fst x = Ok None -> x = (Ok None, snd x)).
  { intros [r l] E. cbn in E. by rewrite E. }
  split; [exact e_world4|]. split; [exact (opens_records _ _ _ _ _ e_opens_b)|]. split; [done|].
  split; [apply (T (e_poke 11 e_l4)); by vm_compute|]. intros H. apply records_market in H.
  assert (E : read_tag (a_data (snd (e_poke 11 e_l4) (ac_market e_b))) = Ok 0) by by vm_compute.
  rewrite E in H. discriminate H.
Qed.

Print Assumptions C33_close_iff.
Print Assumptions C33_close_active.
Print Assumptions C33_close_needs_empty.
Print Assumptions C33_is_empty.
Print Assumptions C33_close_disables.
Print Assumptions C33_no_market.
Print Assumptions C33_no_role.
Print Assumptions C33_stays_closed.
Print Assumptions C34_close.
Print Assumptions C34_other_instructions.
Print Assumptions C34_execute_total.
Print Assumptions C35_create_iff.
Print Assumptions C35_create_effect.
Print Assumptions C35_create_opens.
Print Assumptions C35_once.
Print Assumptions C35_fresh.
Print Assumptions C36_checked.
Print Assumptions C36_close_checked.
Print Assumptions C36_records_unique.
Print Assumptions C36_frame.
Print Assumptions C36_market_constant.
Print Assumptions C45_create_market.
Print Assumptions C45_new_order.
Print Assumptions C45_cancel_order.
Print Assumptions C45_consume_events.
Print Assumptions C45_close_market.
Print Assumptions C45_mass_cancel_refuted.
Print Assumptions C45_mass_cancel_fixed.
Print Assumptions C45_metas_create.
Print Assumptions C45_metas_trade.
Print Assumptions C45_metas_close.
Print Assumptions C45_read_only.
Print Assumptions C45_read_only_consume.
Print Assumptions C48_execute.
Print Assumptions C51_answer.
Print Assumptions C51_history.
Print Assumptions C51_execute.
Print Assumptions C52_disjoint.
Print Assumptions C52_recorded.
Print Assumptions C52_isolated.
Print Assumptions C52_same_market.
Print Assumptions C33_register_refuted.
Print Assumptions C52_register_refuted.
