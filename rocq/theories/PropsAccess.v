(** * PropsAccess.v: who may act on a market (C75) *)
From Verif Require Import Machine Bytes Critbit EventQueue OrderBook Market Spec Layout Borsh BorshProofs Ledger LedgerSpec
  LedgerProofs WorldProofs FollowProofs LedgerFacts LedgerFacts2 LedgerExample PropsLedger Access ScheduleProofs.
From Coq Require Import ZifyBool ZifyNat ZifyN.

(** The accounts of an instruction on market [a], as its builder lists them. *)
Definition op_metas (a : accounts) (o : op bytes) (reg : N) : list meta :=
  match o with
  | ConsumeEvents _ => [mk_meta (ac_market a) false; mk_meta (ac_queue a) true; mk_meta reg true]
  | _ => trade_metas a reg
  end.

Section Props.
Context (cs : nat) (same_id : bytes -> bytes -> bool) (rent_exempt : N -> nat -> bool) (pid : N).
Notation instr := (process_instruction cs same_id rent_exempt pid).
Notation opens := (opens cs pid).
Notation world := (world cs same_id rent_exempt pid).
Notation submit := (submit cs same_id rent_exempt pid).
Notation entry := (entrypoint cs same_id rent_exempt pid).

Lemma submit_unsigned ms data l :
  submit [] (unsigned ms) data l = Some (execute cs same_id rent_exempt pid ms data l).
Proof.
  unfold Access.submit, unsigned. rewrite map_map. cbn. rewrite map_id.
  assert (E : forallb (fun m : signed_meta => negb (sm_signer m) || false) (map (fun m => mk_signed_meta m false) ms) = true).
  { induction ms; cbn; [done|]. by rewrite IHms. }
  cbn in E. by rewrite E.
Qed.
(** Anyone can do with any live market whatever its rules allow: place orders, cancel the
    orders of others, drop events.  Nobody has to sign. *)
Theorem C75_anyone : rent_ok rent_exempt -> forall l a m o reg r,
  world l -> opens l a m -> op_bytes_typed cs o -> fst (exec same_id o m) = Ok r ->
  reg ∉ keys a -> a_owner (l reg) = pid -> (length (wr_register r) <= length (a_data (l reg)))%nat ->
  exists l', submit [] (unsigned (op_metas a o reg)) (op_data o) l = Some (Ok r, l') /\
    opens l' a (snd (exec same_id o m)).
Proof.
  intros Hrent l a m o reg r W Ho Ht He Hreg Hown Hlen. apply (world_wf _ _ _ _ Hrent) in W.
  destruct (C51_answer cs same_id rent_exempt pid l a m o [] (w_ok _ _ _ W) Ho Ht) as (l1 & Hi & Hop).
  rewrite He in Hi, Hop. specialize (Hop eq_refl). rewrite app_nil_r in Hi.
  assert (Hms : map mt_key (op_metas a o reg) = op_keys a o ++ [reg]) by (by destruct o).
  assert (Hreg' : reg ∉ op_keys a o) by (destruct o; cbn [op_keys]; try done; unfold keys in Hreg; set_solver).
  assert (El : l1 reg = l reg).
  { apply (instr_frame _ _ _ _ _ _ _ _ _ Hi). intros X. by apply used_in in X. }
  pose proof (entry_answer cs same_id rent_exempt pid (op_keys a o) reg (op_data o) l) as Hen.
  unfold answer in Hen. rewrite Hi, El in Hen.
  assert (Hl : (length (a_data (l reg)) <? length (wr_register r))%nat = false) by (apply Nat.ltb_ge; lia).
  cbv zeta in Hen. rewrite Hl in Hen. eexists. split.
  - rewrite submit_unsigned. f_equal. eapply (op_accepted cs same_id rent_exempt pid a o reg); try done.
    + intros k Hk. destruct o; cbn [op_keys keys tail] in Hk; cbn; set_solver.
    + by rewrite Hms.
  - eapply opens_same; [exact Hop|]. intros k Hk. rewrite set_account_ne; [done|]. by intros ->.
Qed.
(** Anyone can close an empty market and name the account that gets its lamports. *)
Theorem C75_anyone_closes : rent_ok rent_exempt -> forall c l a m t reg,
  world l -> opens l a m -> reachable same_id c m ->
  resting m Bid = [] -> resting m Ask = [] -> pending m = [] ->
  t ∉ keys a -> a_lamports (l t) + balances l a < p64 ->
  reg ∉ keys a -> reg <> t -> a_owner (l reg) = pid -> a_data (l reg) <> [] ->
  exists l', submit [] (unsigned (i_metas (build_close_market a t reg))) [ix_close_market] l = Some (Ok None, l') /\
    a_lamports (l' t) = a_lamports (l t) + balances l a /\
    forall k, k ∈ keys a -> a_lamports (l' k) = 0.
Proof.
  intros Hrent c l a m t reg W Ho Hr Hb Ha Hp Ht Hs Hreg Hrt Hown Hd.
  pose proof (w_ok _ _ _ (world_wf _ _ _ _ Hrent _ W)) as Hok.
  destruct (proj2 (C33_close_iff cs same_id rent_exempt pid c l a m t [] [] Hok Ho Hr)) as [l1 Hi]; [done|].
  destruct (C34_close cs same_id rent_exempt pid _ _ _ _ _ _ _ Hok Hi) as (_ & Hz & Hl & _ & Hf & _).
  assert (El : l1 reg = l reg) by (by apply Hf).
  pose proof (entry_answer cs same_id rent_exempt pid (keys a ++ [t]) reg [ix_close_market] l) as Hen.
  unfold answer in Hen. rewrite Hi, El in Hen. cbv zeta in Hen.
  assert (Hlt : (length (a_data (l reg)) <? length (wr_register None))%nat = false).
  { apply Nat.ltb_ge. cbn. destruct (a_data (l reg)); [done|]. cbn. lia. }
  rewrite Hlt in Hen. eexists. split_and!.
  - rewrite submit_unsigned. f_equal.
    eapply (C45_metas_close cs same_id rent_exempt pid Hrent a t reg); try done.
  - by rewrite set_account_ne.
  - intros k Hk. rewrite set_account_ne; [by apply Hz|]. by intros ->.
Qed.
(** What protects a market is the owner of its accounts.  This program never changes data
    of another program's account, nor takes lamports from it, whoever signs. *)
Theorem C75_owner_protects : forall signed ms data l r l' k,
  submit signed ms data l = Some (r, l') -> a_owner (l k) <> pid ->
  a_data (l' k) = a_data (l k) /\ a_lamports (l k) <= a_lamports (l' k).
Proof.
  intros signed ms data l r l' k H Hk. unfold Access.submit in H.
  destruct (forallb _ _); [|done]. injection H as H. revert H. set (ms' := map sm_meta ms).
  unfold execute. destruct (entry (map mt_key ms') data l) as [[x|e|p|] l1] eqn:E;
    try (intros H; injection H as <- <-; split; [done|lia]).
  destruct (runtime_ok pid ms' l l1) eqn:Hrt; intros H; injection H as <- <-; [|split; [done|lia]].
  destruct (decide (k ∈ map mt_key ms')) as [Hin|Hin].
  - unfold runtime_ok in Hrt. apply andb_prop in Hrt as [Hrt _]. rewrite forallb_forall in Hrt.
    specialize (Hrt k (proj1 (elem_of_list_In _ _) (proj2 (elem_of_remove_dups _ _) Hin))).
    unfold account_ok in Hrt. apply N.eqb_neq in Hk. rewrite Hk in Hrt. cbn [andb] in Hrt.
    rewrite !orb_false_r in Hrt. apply andb_prop in Hrt as [Hrt H3]. apply andb_prop in Hrt as [H1 _].
    apply bool_decide_eq_true in H1. split; [done|]. lia.
  - pose proof (lo_frame _ _ (lo_entry cs same_id rent_exempt pid (map mt_key ms') (map mt_key ms') data ltac:(done)) l k Hin) as Hf.
    rewrite E in Hf. cbn in Hf. rewrite Hf. split; [done|lia].
Qed.
(** No instruction other than create_market succeeds on a market account of another
    program. *)
Theorem C75_owner_needed : forall l k ks data,
  ledger_ok l -> bytes_ok data -> hd 0 data <> ix_create_market -> a_owner (l k) <> pid ->
  is_ok (fst (instr (k :: ks) data l)) = false.
Proof.
  intros l k ks data Hok Hd Hc Hk. destruct (instr (k :: ks) data l) as [[r|e|p|] l'] eqn:E; try done. exfalso.
  destruct (call_inv _ _ _ _ _ _ _ _ _ Hd E) as
    [a p more Hks Hdata _ _ _|a p more sm Hks Hdata Ht _ _|a id more sm Hks Hdata Ht _ _
    |a ids more sm Hks Hdata Ht _ _|km kq n more Hks Hdata Ht _ _|a t more d Hks Hdata _ _]; subst data.
  - done.
  - destruct (C36_checked cs same_id rent_exempt pid l (k :: ks) _ (NewOrder p) _ _ Hok Hd (op_of_op_data cs (NewOrder p) Ht) E)
      as (a' & more' & Ek & _ & Ho). injection Ek as -> _. apply Hk, Ho. set_solver.
  - destruct (C36_checked cs same_id rent_exempt pid l (k :: ks) _ (CancelOrder id) _ _ Hok Hd (op_of_op_data cs (CancelOrder id) Ht) E)
      as (a' & more' & Ek & _ & Ho). injection Ek as -> _. apply Hk, Ho. set_solver.
  - destruct (C36_checked cs same_id rent_exempt pid l (k :: ks) _ (MassCancelOrders ids) _ _ Hok Hd (op_of_op_data cs (MassCancelOrders ids) Ht) E)
      as (a' & more' & Ek & _ & Ho). injection Ek as -> _. apply Hk, Ho. set_solver.
  - destruct (C36_checked cs same_id rent_exempt pid l (k :: ks) _ (ConsumeEvents n) _ _ Hok Hd (op_of_op_data cs (ConsumeEvents n) Ht) E)
      as (a' & more' & Ek & _ & Ho). injection Ek as -> _. apply Hk, Ho. cbn. set_solver.
  - assert (Hd' : bytes_ok d) by (by apply Forall_cons in Hd as [_ Hd]).
    destruct (C36_close_checked cs same_id rent_exempt pid l (k :: ks) d _ _ Hok Hd' E) as (a' & t' & more' & Ek & Hr).
    injection Ek as -> _. apply Hk. by destruct Hr.
Qed.
End Props.

(** The documented rule is false, already in its weakest form: here nobody signed at all,
    the fifth account is the register, and the bid of 7 that somebody else placed is
    gone. *)
Definition e_bid_id : N := e_price 4 * p64 + p64 - 1.
Theorem C75_authority_refuted :
  exists l a m id reg s l', world e_cs e_same e_rent e_pid l /\ opens e_cs e_pid l a m /\
    reachable e_same e_cfg m /\ map o_id (resting m Bid) = [id] /\
    let ms := unsigned (trade_metas a reg) in
    let data := op_data (CancelOrder id) in
    submit e_cs e_same e_rent e_pid [] ms data l = Some (Ok (Some s), l') /\
    ~ authority_signed [] (map mt_key (map sm_meta ms)) data /\ total_base_qty s = 7 /\
    exists m', opens e_cs e_pid l' a m' /\ resting m' Bid = [].
Proof.
  pose (o := CancelOrder e_bid_id : op bytes).
  destruct (C75_anyone e_cs e_same e_rent e_pid e_rent_0 e_l4 e_a e_ma o 5 (Some (mk_summary None 7 28 0)) e_world4 e_opens_a)
    as (l' & Hs & Ho).
  - vm_compute. done.
  - vm_compute. reflexivity.
  - vm_compute. set_solver by lia.
  - vm_compute. done.
  - vm_compute. lia.
  - exists e_l4, e_a, e_ma, e_bid_id, 5, (mk_summary None 7 28 0), l'. split_and!.
    + exact e_world4.
    + exact e_opens_a.
    + exact e_reachable_a.
    + vm_compute. reflexivity.
    + cbv zeta. split_and!; [exact Hs| |done|].
      { cbn. intros (k & _ & Hk). by apply elem_of_nil in Hk. }
      exists (snd (exec e_same o e_ma)). split; [done|]. vm_compute. reflexivity.
Qed.

(** The other hypotheses are met: closing the second market of that ledger, with account 6
    as target and account 5 as register. *)
Example C75_closes_case :
  resting e_mb Bid = [] /\ resting e_mb Ask = [] /\ pending e_mb = [] /\ 6 ∉ keys e_b /\
  a_lamports (e_l4 6) + balances e_l4 e_b < p64 /\ 5 ∉ keys e_b /\ a_owner (e_l4 5) = e_pid /\
  a_data (e_l4 5) <> [] /\ a_owner (e_l4 6) <> e_pid.
Proof.
  split_and!; try (vm_compute; done); try (vm_compute; set_solver by lia).
Qed.

Print Assumptions C75_anyone.
Print Assumptions C75_anyone_closes.
Print Assumptions C75_owner_protects.
Print Assumptions C75_owner_needed.
Print Assumptions C75_authority_refuted.
