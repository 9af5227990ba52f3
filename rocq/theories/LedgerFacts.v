(** * LedgerFacts.v: frames, closed accounts, fresh accounts, transactions *)
From Verif Require Import Machine Bytes Critbit EventQueue OrderBook Market Spec MachineProofs QueueProofs
  Layout LayoutProofs Borsh BorshProofs TypedProps Ledger LedgerSpec LedgerProofs PropsLayout
  WorldProofs FollowProofs.
From Coq Require Import ZifyBool ZifyNat ZifyN.

(** ** What an instruction can change, in any ledger and also when it fails *)
Definition frame (K : list N) (lam : bool) (l0 l : ledger) : Prop :=
  forall k, (k ∉ K -> l k = l0 k) /\ a_owner (l k) = a_owner (l0 k) /\
    (lam = true -> a_lamports (l k) = a_lamports (l0 k)).
Lemma frame_set_data K lam l0 k d : k ∈ K -> pres (frame K lam l0) any (set_data k d).
Proof.
  intros Hk. apply pres_modify. intros l H k'. destruct (H k') as (H1 & H2 & H3). unfold set_account.
  destruct (N.eqb_spec k' k) as [->|]; [|done]. cbn. done.
Qed.
Lemma frame_set_lamports K l0 k v : k ∈ K -> pres (frame K false l0) any (set_lamports k v).
Proof.
  intros Hk. apply pres_modify. intros l H k'. destruct (H k') as (H1 & H2 & H3). unfold set_account.
  destruct (N.eqb_spec k' k) as [->|]; [|done]. cbn. done.
Qed.
Lemma pres_get_any {S} (P : S -> Prop) : pres P any get.
Proof. by eapply pres_weaken; [apply pres_get|]. Qed.
Ltac fr1 :=
  cbv beta;
  match goal with
  | |- pres _ _ (bind _ _) => eapply (pres_bind _ (fun _ => True)); [|intros ? _]
  | |- pres _ _ (lift _) => by apply pres_lift
  | |- pres _ _ get => apply pres_get_any
  | |- pres _ _ (ret _) => by apply pres_ret
  | |- pres _ _ (fail _) => apply pres_fail
  | |- pres _ _ (panic_with _) => apply pres_panic
  | |- pres _ _ (set_data _ _) => apply frame_set_data
  | |- pres _ _ (set_lamports _ _) => apply frame_set_lamports
  | |- pres _ _ (if ?c then _ else _) => destruct c
  | |- pres _ _ (match ?c with pair _ _ => _ end) => destruct c
  | |- pres _ _ (let x := _ in _) => cbv zeta
  end.
Ltac fr := repeat fr1.

Lemma parse_consume_inv ks a : parse_consume ks = Ok a -> exists more, ks = fst a :: snd a :: more.
Proof. destruct ks as [|m [|q more]]; try done. intros [= <-]. by exists more. Qed.

Section Facts.
Context (cs : nat) (same_id : bytes -> bytes -> bool) (rent_exempt : N -> nat -> bool) (pid : N).
Notation pinstr := (process_instruction cs same_id rent_exempt pid).

Lemma borrow_frame K lam l0 h k : pres (frame K lam l0) any (borrow h k).
Proof. unfold borrow. fr. Qed.
Lemma borrow_lamports_frame K lam l0 h k : pres (frame K lam l0) any (borrow_lamports h k).
Proof. unfold borrow_lamports. fr. Qed.
Lemma owner_frame K lam l0 k o e : pres (frame K lam l0) any (check_account_owner k o e).
Proof. unfold check_account_owner. fr. Qed.
Lemma key_frame K lam l0 k o e : pres (frame K lam l0) any (check_account_key k o e).
Proof. unfold check_account_key. fr. Qed.
Lemma rent_frame K lam l0 k : pres (frame K lam l0) any (check_rent_exempt rent_exempt k).
Proof. unfold check_rent_exempt. fr. Qed.
Lemma checks_frame K lam l0 a : pres (frame K lam l0) any (perform_checks pid a).
Proof. unfold perform_checks. fr; apply owner_frame. Qed.
Lemma accounts_frame K lam l0 a ms : pres (frame K lam l0) any (check_accounts a ms).
Proof. unfold check_accounts. fr; apply key_frame. Qed.
Lemma open_market_frame K lam l0 k t : k ∈ K -> pres (frame K lam l0) any (open_market k t).
Proof. intros Hk. unfold open_market. fr; [apply borrow_frame|done]. Qed.
Lemma open_book_frame K lam l0 h a : pres (frame K lam l0) any (open_book cs h a).
Proof. unfold open_book. fr; apply borrow_frame. Qed.
Ltac frs := fr; try first [apply borrow_frame | apply borrow_lamports_frame | apply owner_frame | apply key_frame
  | apply rent_frame | apply checks_frame | apply accounts_frame | apply open_book_frame | by apply open_market_frame
  | done].

Lemma keys_in a more k : k ∈ keys a -> k ∈ take 4 (keys a ++ more).
Proof. intros H. by rewrite take_app_alt by done. Qed.

Lemma trade_frame l0 ks data : match data with t :: _ => t <> ix_close_market | [] => True end ->
  pres (frame (used ks data) true l0) any (pinstr ks data).
Proof.
  intros Ht. unfold process_instruction. destruct data as [|t d]; [apply pres_panic|]. cbn [used].
  destruct (N.eqb_spec t ix_consume_events) as [->|]; cbn [N.eqb].
  { change (ix_consume_events =? ix_create_market) with false. change (ix_consume_events =? ix_new_order) with false.
    cbv iota. eapply (pres_bind _ (fun x => x.1 ∈ take 2 ks /\ x.2 ∈ take 2 ks)).
    { apply pres_lift. intros [km kq] H. apply parse_consume_inv in H as [more ->]. cbn. set_solver. }
    intros [km kq] [H1 H2]. unfold decode, consume_events_l. cbn [fst snd] in *. frs. }
  destruct (N.eqb_spec t ix_close_market) as [->|]; [done|].
  assert (Hp : pres (frame (take 4 ks) true l0) (fun a => forall k, k ∈ keys a -> k ∈ take 4 ks) (lift (parse_accounts ks))).
  { apply pres_lift. intros a H. apply parse_accounts_inv in H as [more ->]. intros k. apply keys_in. }
  assert (K : forall a, (forall k, k ∈ keys a -> k ∈ take 4 ks) -> ac_market a ∈ take 4 ks /\ ac_queue a ∈ take 4 ks /\
     ac_bids a ∈ take 4 ks /\ ac_asks a ∈ take 4 ks).
  { intros a H. split_and!; apply H, elem_keys; naive_solver. }
  unfold decode. repeat (destruct (t =? _); [|]); try apply pres_fail; try by apply pres_fail.
  - eapply pres_bind; [exact Hp|]. intros a (K1&K2&K3&K4)%K. unfold create_market. frs.
  - eapply pres_bind; [exact Hp|]. intros a (K1&K2&K3&K4)%K. unfold new_order_l. frs.
  - eapply pres_bind; [exact Hp|]. intros a (K1&K2&K3&K4)%K. unfold cancel_order_l, with_book. frs.
  - eapply pres_bind; [exact Hp|]. intros a (K1&K2&K3&K4)%K. unfold mass_cancel_l, with_book. frs.
Qed.
Lemma close_frame l0 ks d : pres (frame (take 5 ks) false l0) any (pinstr ks (ix_close_market :: d)).
Proof.
  unfold process_instruction. change (ix_close_market =? ix_create_market) with false.
  change (ix_close_market =? ix_new_order) with false. change (ix_close_market =? ix_consume_events) with false.
  change (ix_close_market =? ix_cancel_order) with false. change (ix_close_market =? ix_close_market) with true.
  cbv iota.
  eapply (pres_bind _ (fun x => (forall k, k ∈ keys x.1 -> k ∈ take 5 ks) /\ x.2 ∈ take 5 ks)).
  { apply pres_lift. intros [a t] H. apply parse_close_inv in H as [more ->]. cbn [fst snd].
    cbn [keys app take]. split; [|set_solver]. intros k Hk. apply elem_keys in Hk. set_solver. }
  intros [a t] [K Ht]. cbn [fst snd] in *.
  assert (K1 : ac_market a ∈ take 5 ks) by (apply K, elem_keys; naive_solver).
  assert (K2 : ac_queue a ∈ take 5 ks) by (apply K, elem_keys; naive_solver).
  assert (K3 : ac_bids a ∈ take 5 ks) by (apply K, elem_keys; naive_solver).
  assert (K4 : ac_asks a ∈ take 5 ks) by (apply K, elem_keys; naive_solver).
  unfold close_market, sides_empty. frs.
Qed.
Lemma instr_frame l ks data r l' : pinstr ks data l = (r, l') ->
  forall k, (k ∉ used ks data -> l' k = l k) /\ a_owner (l' k) = a_owner (l k).
Proof.
  intros H k. assert (F0 : forall K lam, frame K lam l l) by (intros K lam ?; done).
  assert (Hl : l' = snd (pinstr ks data l)) by by rewrite H. rewrite Hl.
  destruct data as [|t d]; [done|]. destruct (N.eqb_spec t ix_close_market) as [->|Ht].
  - destruct (close_frame l ks d l (F0 _ _)) as [F _]. destruct (F k) as (F1 & F2 & _). split; [|done].
    intros Hk. apply F1. exact Hk.
  - destruct (trade_frame l ks (t :: d) Ht l (F0 _ _)) as [F _]. destruct (F k) as (F1 & F2 & _). done.
Qed.
Lemma instr_lamports l ks t d r l' : pinstr ks (t :: d) l = (r, l') -> t <> ix_close_market ->
  forall k, a_lamports (l' k) = a_lamports (l k).
Proof.
  intros H Ht k. assert (Hl : l' = snd (pinstr ks (t :: d) l)) by by rewrite H. rewrite Hl.
  destruct (trade_frame l ks (t :: d) Ht l) as [F _]; [intros ?; done|]. by apply (F k).
Qed.
Lemma used_in ks data k : k ∈ used ks data -> k ∈ ks.
Proof.
  assert (T : forall n, k ∈ take n ks -> k ∈ ks).
  { intros n H. rewrite <- (take_drop n ks). set_solver. }
  destruct data; cbn [used]; [set_solver|]. repeat destruct (_ =? _); apply T.
Qed.

(** ** Total of lamports *)
Lemma total_perm L L' l : L ≡ₚ L' -> total_lamports L l = total_lamports L' l.
Proof. unfold total_lamports. induction 1; cbn; [done|lia|lia|congruence]. Qed.
Lemma total_app L L' l : total_lamports (L ++ L') l = total_lamports L l + total_lamports L' l.
Proof. unfold total_lamports. induction L; cbn; [done|]. lia. Qed.
Lemma total_same L l l' : (forall k, k ∈ L -> a_lamports (l' k) = a_lamports (l k)) ->
  total_lamports L l' = total_lamports L l.
Proof. unfold total_lamports. induction L as [|k L IH]; cbn; intros H; [done|]. f_equal; [apply H; set_solver|apply IH; set_solver]. Qed.
Lemma closed_total l a t l' L : NoDup (keys a) -> t ∉ keys a -> closed l a t l' ->
  NoDup L -> (forall k, k ∈ keys a -> k ∈ L) -> t ∈ L -> total_lamports L l' = total_lamports L l.
Proof.
  intros Hd Ht Hl' HL Hk HtL.
  assert (HS : keys a ++ [t] ⊆+ L).
  { apply NoDup_submseteq; [|set_solver]. apply NoDup_app. split_and!; [done|set_solver|apply NoDup_singleton]. }
  apply submseteq_Permutation in HS as [rest HP]. rewrite !(total_perm _ _ _ HP), !total_app.
  assert (HN : NoDup ((keys a ++ [t]) ++ rest)) by by rewrite <- HP.
  apply NoDup_app in HN as (_ & Hdis & _).
  assert (E1 : total_lamports rest l' = total_lamports rest l).
  { apply total_same. intros k Hkr. rewrite Hl'.
    assert (Hnk : k ∉ keys a ++ [t]) by (intros H; by apply (Hdis k H)).
    assert (Hnk1 : k ∉ keys a) by set_solver. apply not_held in Hnk1. rewrite Hnk1.
    destruct (N.eqb_spec k t) as [->|]; [|done]. set_solver. }
  assert (E2 : total_lamports (keys a) l' = 0).
  { assert (Z : forall k, k ∈ keys a -> a_lamports (l' k) = 0).
    { intros k Hka. rewrite Hl'. destruct (existsb (N.eqb k) (keys a)) eqn:E; [done|]. by apply not_held in E. }
    cbn. rewrite !Z by (apply elem_keys; naive_solver). done. }
  assert (E3 : a_lamports (l' t) = a_lamports (l t) + close_total l a).
  { rewrite Hl'. apply not_held in Ht. rewrite Ht, N.eqb_refl. done. }
  rewrite E1, E2. cbn. rewrite E3. unfold close_total. lia.
Qed.

(** ** Disabled accounts *)
Lemma disabled_hd l k : disabled pid l k -> hd 0 (a_data (l k)) = tag_disabled.
Proof. intros [_ H]. by apply read_tag_hd in H. Qed.
Lemma market_not_disabled l a k : market_wf cs pid l a -> k ∈ keys a -> ~ disabled pid l k.
Proof.
  intros W Hk H. apply disabled_hd in H.
  destruct (wf_hd cs pid l a k W Hk) as [(_ & E)|[(_ & E)|[(_ & E)|(_ & E)]]]; by rewrite E in H.
Qed.
Lemma disabled_call l ks data r l' k : wf_ledger cs pid l -> bytes_ok data ->
  pinstr ks data l = (Ok r, l') -> disabled pid l k ->
  k ∉ take 2 ks /\ (hd 0 data <> ix_consume_events -> k ∉ take 4 ks) /\ a_owner (l' k) = pid /\ a_data (l' k) = a_data (l k).
Proof.
  intros W Hd Hc Hk. pose proof (proj1 Hk) as Hown.
  assert (T2 : forall a more, k ∉ keys a -> k ∉ take 2 (keys a ++ more) /\ k ∉ take 4 (keys a ++ more)).
  { intros a more H. rewrite (take_app_alt (keys a) more 4) by done. split; [|done]. cbn. cbn in H. set_solver. }
  destruct (call_effect _ _ _ _ _ _ _ _ _ W Hd Hc)
    as [a p more -> -> Hp -> Hcr Hl'|a o more -> -> Ht Hr Hta|a t more d m -> -> -> Hr _ _ _ _ Htk _ Hl'].
  - assert (Hna : k ∉ keys a).
    { intros Hka. pose proof (creatable_hd _ _ _ _ _ _ _ Hcr Hka) as E. apply disabled_hd in Hk. by rewrite Hk in E. }
    destruct (T2 a more Hna). rewrite (created_other cs rent_exempt pid _ _ _ _ _ Hl' Hna). done.
  - assert (Hna : k ∉ keys a) by (intros Hka; by apply (market_not_disabled l a k (w_market _ _ _ W a Hr) Hka)).
    destruct (Hta k) as (_&_&_&_&_&E).
    rewrite E by (intros ->; apply Hna, elem_keys; naive_solver).
    destruct (T2 a more Hna) as [T T'].
    destruct o; cbn [op_keys]; try done.
  - assert (Hna : k ∉ keys a) by (intros Hka; by apply (market_not_disabled l a k (w_market _ _ _ W a Hr) Hka)).
    destruct (T2 a (t :: more) Hna). destruct (closed_other cs rent_exempt _ _ _ _ _ Hl' Hna) as (-> & -> & _). done.
Qed.
Lemma disabled_step l lb l' k : wf_ledger cs pid l -> ledger_step cs same_id rent_exempt pid l lb l' ->
  disabled pid l k -> spares k lb -> disabled pid l' k /\ a_data (l' k) = a_data (l k).
Proof.
  intros W Hs Hk Hsp. destruct Hs as [l ks data r l' Hc Hrt Hks Hd|l k1 l' Hsm Hk1 Hm Hok|l gone l' He Hok Hg].
  - destruct (disabled_call _ _ _ _ _ _ W Hd Hc Hk) as (_ & _ & E1 & E2). unfold disabled. rewrite E1, E2.
    destruct Hk. done.
  - cbn in Hsp. unfold disabled. rewrite Hsm by done. done.
  - cbn in Hsp. destruct Hk as [Ho Ht]. assert (Ho' : a_owner (l' k) = pid).
    { destruct (N.eq_dec (a_owner (l' k)) pid); [done|]. by destruct Hsp; apply Hg. }
    destruct (He k) as [(_ & _ & E & _)|[(E & _)|(E & _)]]; [|done..]. unfold disabled. by rewrite E.
Qed.
Context (Hrent : forall n, rent_exempt 0 n = false).
Lemma disabled_trace l tr l' k : wf_ledger cs pid l -> trace cs same_id rent_exempt pid l tr l' ->
  disabled pid l k -> Forall (spares k) tr -> disabled pid l' k /\ a_data (l' k) = a_data (l k).
Proof.
  intros W H Hk. induction H as [|tr l1 lb l' Ht IH Hs]; intros Hsp; [done|].
  apply Forall_app in Hsp as [Hsp Hlb]. apply Forall_cons in Hlb as [Hlb _].
  destruct (IH Hsp) as [Hd E]. pose proof (trace_wf _ _ _ _ Hrent _ _ _ W Ht) as W1.
  destruct (disabled_step _ _ _ _ W1 Hs Hd Hlb) as [Hd' E']. split; [done|]. by rewrite E', E.
Qed.

(** ** Accounts that were never written are zeroed *)
Definition fresh_or_tagged (l : ledger) (k : N) : Prop :=
  a_owner (l k) = pid -> zeroed l k \/ 128 <= hd 0 (a_data (l k)).
Lemma fresh_step l lb l' k : wf_ledger cs pid l -> ledger_step cs same_id rent_exempt pid l lb l' ->
  fresh_or_tagged l k -> lb <> Own k -> fresh_or_tagged l' k.
Proof.
  intros W Hs Hf Hne. pose proof (step_wf cs same_id rent_exempt pid Hrent _ _ _ W Hs) as W'.
  destruct Hs as [l ks data r l' Hc Hrt Hks Hd|l k1 l' Hsm Hk1 Hm Hok|l gone l' He Hok Hg].
  - assert (Hown : a_owner (l' k) = a_owner (l k)) by by apply (instr_frame _ _ _ _ _ Hc).
    unfold fresh_or_tagged, zeroed in *. rewrite Hown. intros Ho. specialize (Hf Ho).
    destruct (call_effect _ _ _ _ _ _ _ _ _ W Hd Hc)
      as [a p more -> -> Hp -> Hcr Hl'|a o more -> -> Ht Hr Hta|a t more d m -> -> -> Hr _ _ _ _ Htk _ Hl'].
    + destruct (decide (k ∈ keys a)) as [Hka|Hka]; [|by rewrite (created_other cs rent_exempt pid _ _ _ _ _ Hl' Hka)].
      right. destruct (create_wf cs rent_exempt pid Hrent l a p l') as [_ Hra]; try done.
      { intros k' Hk'. apply (proj1 (Forall_forall _ _) Hks). set_solver. }
      destruct (wf_hd cs pid l' a k (w_market _ _ _ W' a Hra) Hka) as [(_ & ->)|[(_ & ->)|[(_ & ->)|(_ & ->)]]]; done.
    + destruct (decide (k ∈ keys a)) as [Hka|Hka].
      * right. rewrite (tame_hd _ _ _ _ Hta).
        destruct (wf_hd cs pid l a k (w_market _ _ _ W a Hr) Hka) as [(_ & ->)|[(_ & ->)|[(_ & ->)|(_ & ->)]]]; done.
      * destruct (Hta k) as (_&_&_&_&_&E).
        rewrite E by (intros ->; apply Hka, elem_keys; naive_solver). done.
    + destruct (decide (k ∈ keys a)) as [Hka|Hka].
      * right. rewrite Hl'. destruct (existsb (N.eqb k) (keys a)) eqn:E; [|by apply not_held in E]. done.
      * destruct (closed_other cs rent_exempt _ _ _ _ _ Hl' Hka) as (_ & -> & _). done.
  - unfold fresh_or_tagged, zeroed. rewrite Hsm by congruence. done.
  - unfold fresh_or_tagged, zeroed in *. intros Ho.
    destruct (He k) as [(E1 & _ & E & _)|[(E & _)|(_ & _ & E)]]; [|done|by left]. rewrite E. auto.
Qed.
Lemma fresh_trace l0 tr l k : ledger_ok l0 -> (forall k, a_owner (l0 k) <> pid) ->
  trace cs same_id rent_exempt pid l0 tr l -> Own k ∉ tr -> fresh_or_tagged l k.
Proof.
  intros Hok Hno H. assert (W0 : wf_ledger cs pid l0).
  { apply (world_wf cs same_id rent_exempt pid Hrent). exists l0, []. split_and!; [done..|constructor]. }
  induction H as [|tr l1 lb l' Ht IH Hs]; intros Hn.
  - intros E. by destruct (Hno k).
  - apply not_elem_of_app in Hn as [Hn Hlb]. eapply fresh_step; [|exact Hs|auto|set_solver].
    by apply (trace_wf _ _ _ _ Hrent _ _ _ W0 Ht).
Qed.

(** ** A transaction is two steps: the call and the write of the register *)
Lemma call_in_market l ks data r l' k : wf_ledger cs pid l -> bytes_ok data ->
  Forall (fun k => k < 256 ^ 32) ks -> runtime_rule pid l l' ->
  pinstr ks data l = (Ok r, l') -> in_market pid l' k -> in_market pid l k \/ k ∈ ks.
Proof.
  intros W Hd Hks Hrt Hc (a1 & Hr1 & Hk1).
  destruct (call_effect _ _ _ _ _ _ _ _ _ W Hd Hc)
    as [a p more -> -> Hp -> Hcr Hl'|a o more -> -> Ht Hr Hta|a t more d m -> -> -> Hr _ _ _ _ Htk _ Hl'].
  - destruct (decide (k ∈ keys a)) as [|Hka]; [right; set_solver|]. left.
    destruct (create_wf cs rent_exempt pid Hrent l a p l') as [W' Hra]; try done.
    { intros k' Hk'. apply (proj1 (Forall_forall _ _) Hks). set_solver. }
    exists a1. split; [|done].
    assert (Hm : ac_market a1 ∉ keys a).
    { intros Hin. apply Hka. rewrite <- (w_disjoint _ _ _ W' a1 a (ac_market a1)); try done.
      apply elem_keys. by left. }
    apply (records_same pid l l'); [..|done]; by rewrite (created_other cs rent_exempt pid _ _ _ _ _ Hl' Hm).
  - left. exists a1. split; [|done]. by apply (tame_records cs pid l a l').
  - left. exists a1. split; [|done]. by apply (close_wf cs rent_exempt pid Hrent l a t l' W Hr Hl').
Qed.
Lemma split_last_app ks k : split_last (ks ++ [k]) = Some (ks, k).
Proof. induction ks as [|x ks IH]; [done|]. cbn. rewrite IH. by destruct (ks ++ [k]) eqn:E; [destruct ks|]. Qed.
Lemma wr_register_ok r : bytes_ok (wr_register r).
Proof.
  unfold bytes_ok. destruct r as [[[i|] a b c]|]; unfold wr_register, wr_option, wr_summary; cbn [posted_order_id total_base_qty total_quote_qty total_base_qty_posted wr_option];
    repeat first [apply Forall_cons; split; [done|] | apply Forall_app; split | apply le_enc_ok | apply Forall_nil; done | constructor].
Qed.
Lemma wr_register_hd r d : hd 0 (wr_register r ++ d) = 0 \/ hd 0 (wr_register r ++ d) = 1.
Proof. destruct r; cbn; auto. Qed.

Lemma entrypoint_inv ks reg data l r l' :
  entrypoint cs same_id rent_exempt pid (ks ++ [reg]) data l = (Ok r, l') ->
  exists l1, pinstr ks data l = (Ok r, l1) /\
    (length (wr_register r) <= length (a_data (l1 reg)))%nat /\
    l' = set_account reg (with_data (l1 reg)
           (wr_register r ++ drop (length (wr_register r)) (a_data (l1 reg)))) l1.
Proof.
  unfold entrypoint. rewrite split_last_app. cbn [unwrap]. intros H.
  apply b_lift in H as (s & E & H). injection E as <-. cbn [fst snd] in H.
  apply bind_inv in H as (r1 & l1 & E1 & H). apply b_borrow in H as [_ H]. cbv zeta in H.
  destruct (Nat.ltb_spec (length (a_data (l1 reg))) (length (wr_register r1))) as [|Hlen]; [done|].
  apply bind_inv in H as ([] & l2 & E2 & H). injection H as <- <-. exists l1. split_and!; [done|done|].
  by injection E2 as <-.
Qed.
Lemma execute_trace ms ks reg data l r l' : wf_ledger cs pid l ->
  execute cs same_id rent_exempt pid ms data l = (Ok r, l') ->
  map mt_key ms = ks ++ [reg] -> reg ∉ ks -> ~ in_market pid l reg ->
  Forall (fun k => k < 256 ^ 32) ks -> bytes_ok data ->
  trace cs same_id rent_exempt pid l [Call ks data r; Own reg] l'.
Proof.
  intros W He Hms Hreg Hnm Hks Hd. unfold execute in He. rewrite Hms in He.
  destruct (entrypoint cs same_id rent_exempt pid (ks ++ [reg]) data l) as [[r1| | |] l2] eqn:E; try done.
  destruct (runtime_ok pid ms l l2) eqn:Hrt; [|done]. apply pair_inj in He as [Er El].
  apply Ok_inj in Er. subst r1 l2.
  apply entrypoint_inv in E as (l1 & Hc & Hlen & Hl').
  pose proof (instr_frame _ _ _ _ _ Hc) as Hf.
  assert (E1 : forall k, k <> reg -> l' k = l1 k) by (intros k Hk; subst l'; by apply set_account_ne).
  assert (E2 : l1 reg = l reg) by (apply Hf; intros H; by apply used_in in H).
  assert (Hrule : runtime_rule pid l l1).
  { intros k Hk. destruct (N.eq_dec k reg) as [->|Hne]; [rewrite E2 in Hk; destruct Hk; [done|lia]|].
    destruct (decide (k ∈ ks)) as [Hin|Hin].
    - unfold runtime_ok in Hrt. apply andb_prop in Hrt as [Hrt _].
      rewrite forallb_forall in Hrt. specialize (Hrt k).
      assert (Hin' : In k (remove_dups (map mt_key ms))).
      { apply elem_of_list_In, elem_of_remove_dups. rewrite Hms. set_solver. }
      specialize (Hrt Hin'). unfold account_ok in Hrt. rewrite E1 in Hrt by done.
      apply andb_prop in Hrt as [Hrt H3]. apply andb_prop in Hrt as [H1 _].
      destruct Hk as [Hk|Hk].
      + apply orb_prop in H1 as [H1|H1]; [by apply bool_decide_eq_true in H1|].
        apply andb_prop in H1 as [H1 _]. by apply N.eqb_eq.
      + apply orb_prop in H3 as [H3|H3]; [apply N.leb_le in H3; lia|]. by apply N.eqb_eq.
    - assert (Es : l1 k = l k) by (apply Hf; intros H; by apply used_in in H).
      rewrite Es in Hk. destruct Hk; [done|lia]. }
  assert (S1 : ledger_step cs same_id rent_exempt pid l (Call ks data r) l1) by by constructor.
  pose proof (step_wf _ _ _ _ Hrent _ _ _ W S1) as W1.
  assert (Hdata : a_data (l' reg) = wr_register r ++ drop (length (wr_register r)) (a_data (l1 reg))).
  { subst l'. by rewrite set_account_eq. }
  change [Call ks data r; Own reg] with (([] ++ [Call ks data r]) ++ [Own reg]).
  eapply trace_snoc; [eapply trace_snoc; [constructor|exact S1]|]. constructor.
  - done.
  - intros H. destruct (call_in_market _ _ _ _ _ _ W Hd Hks Hrule Hc H); done.
  - intros a Hr Heq. apply records_market in Hr. rewrite Heq, Hdata in Hr. apply read_tag_hd in Hr; [|done].
    destruct (wr_register_hd r (drop (length (wr_register r)) (a_data (l1 reg)))) as [X|X]; by rewrite X in Hr.
  - intros k. destruct (N.eq_dec k reg) as [->|Hne]; [|rewrite E1 by done; apply W1].
    destruct (w_ok _ _ _ W1 reg) as [Hb Hl]. rewrite Hdata. split.
    + apply bytes_ok_app. split; [apply wr_register_ok|]. by apply Forall_drop.
    + rewrite app_length, drop_length. lia.
Qed.
End Facts.
