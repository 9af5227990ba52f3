(** * PropsFail.v: a refused instruction says why (C73)

    The tables of what can be wrong are in FailSpec.v. *)
From Verif Require Import Machine MachineProofs Bytes Critbit EventQueue OrderBook Market Spec Layout LayoutProofs Borsh BorshProofs
  Ledger LedgerSpec LedgerProofs WorldProofs FollowProofs LedgerFacts LedgerFacts2 LedgerExample PropsLedger
  ExchangeSpec PropsExchange Errors FailSpec FailErrors FailProofs.
From Coq Require Import ZifyBool ZifyNat ZifyN.

Section Props.
Context (cs : nat) (same_id : bytes -> bytes -> bool) (rent_exempt : N -> nat -> bool) (pid : N).
Notation instr := (process_instruction cs same_id rent_exempt pid).
Notation opens := (opens cs pid).
Notation world := (world cs same_id rent_exempt pid).

(** Whatever the accounts hold: something is wrong with them, and the error is that of the
    first entry of the table that applies. *)
Theorem C73_accounts : forall l a o more r l' x,
  length (a_data (l (ac_market a))) = 120%nat -> op_bytes_typed cs o ->
  instr (op_keys a o ++ more) (op_data o) l = (r, l') ->
  first_problem (op_problems pid l a o) = Some x -> fails r x.
Proof.
  intros l a o more r l' x Hl Ht H E. pose proof (op_reason _ _ _ _ _ _ _ _ _ _ Hl Ht H) as Hf.
  by rewrite E in Hf.
Qed.
(** The accounts of a live market have none of these problems; its answer is then the one
    that the rules of the exchange give, with the code of that answer. *)
Theorem C73_market : forall c l a m o more r l',
  ledger_ok l -> opens l a m -> reachable same_id c m -> op_bytes_typed cs o ->
  instr (op_keys a o ++ more) (op_data o) l = (r, l') ->
  first_problem (op_problems pid l a o) = None /\
  exists answer x', rule same_id (rules_of c) o (view m) = (answer, x') /\ told answer r.
Proof.
  intros c l a m o more r l' Hok Ho Hr Ht H. split.
  - destruct Ho as [Hd Hown Hm _ _ _]. pose proof (market_from_ok _ _ _ _ Hm) as (Hl & Htag & Hms & _).
    destruct (recorded_eq l (ac_market a)) as (R1&R2&R3). rewrite <- Hms in R1, R2, R3. cbn in R1, R2, R3.
    assert (F : forall k, k ∈ keys a -> foreign pid l k = false).
    { intros k Hk. unfold foreign. rewrite (Hown k Hk), N.eqb_refl. done. }
    assert (T : account_tag l (ac_market a) = 128).
    { unfold read_tag in Htag. rewrite Hl in Htag. injection Htag as Htag. done. }
    destruct o; cbn [op_problems]; unfold trade_problems, consume_problems;
      rewrite !first_cons, !F, T, <- R1, <- ?R2, <- ?R3, !N.eqb_refl
        by (apply elem_keys; auto); done.
  - destruct (C51_answer cs same_id rent_exempt pid l a m o more Hok Ho Ht) as (l1 & E & _).
    rewrite H in E. injection E as Er _. destruct (exec same_id o m) as [r0 m'] eqn:Ex. cbn [fst] in Er. subst r0.
    destruct (C72_step _ _ _ _ _ _ _ Hr (op_bytes_op_typed _ _ Ht) Ex) as (ans & Ha & Hrule).
    exists ans, (view m'). split; [done|].
    destruct r as [[[]|]|e|k|]; cbn [answer_of] in Ha; try (injection Ha as <-; done); [..|done].
    + destruct e; try done; injection Ha as <-; cbn; try (left; by apply fails_err); by apply fails_err.
    + destruct k; try done; injection Ha as <-; cbn; auto.
Qed.

(** Closing. *)
Theorem C73_close_accounts : forall l a t more d r l' x,
  length (a_data (l (ac_market a))) = 120%nat ->
  instr (keys a ++ t :: more) (ix_close_market :: d) l = (r, l') ->
  first_problem (close_problems pid l a) = Some x -> fails r x.
Proof.
  intros l a t more d r l' x Hl H E. pose proof (close_reason _ _ _ _ _ _ _ _ _ _ _ Hl H) as Hf.
  by rewrite E in Hf.
Qed.
Theorem C73_close_market : forall c l a m t more d r l',
  ledger_ok l -> opens l a m -> reachable same_id c m ->
  instr (keys a ++ t :: more) (ix_close_market :: d) l = (r, l') ->
  if bool_decide (resting m Bid = [] /\ resting m Ask = [] /\ pending m = [])
  then (r = Ok None <-> t ∉ keys a /\ a_lamports (l t) + balances l a < p64)
  else fails r (Custom 11).
Proof.
  intros c l a m t more d r l' Hok Ho Hr H. destruct (bool_decide _) eqn:E.
  - apply bool_decide_eq_true in E as (E1 & E2 & E3).
    pose proof (C33_close_iff cs same_id rent_exempt pid c l a m t more d Hok Ho Hr) as Hi. rewrite H in Hi.
    split; [intros ->|intros [? ?]].
    + destruct (proj1 Hi ltac:(by exists l')) as (_&_&_&?&?). done.
    + destruct (proj2 Hi ltac:(done)) as [l1 El]. by injection El as -> _.
  - apply bool_decide_eq_false in E.
    pose proof (C33_close_active cs same_id rent_exempt pid c l a m t more d Hok Ho Hr) as Ha. rewrite H in Ha.
    cbn [fst] in Ha. rewrite Ha; [by apply fails_err|].
    destruct (resting m Bid); [|by left]. destruct (resting m Ask); [|right; by left].
    right; right. intros E3. by apply E.
Qed.

(** Creating: with four different accounts of sizes that the program accepts.  Without a
    problem the market is created. *)
Theorem C73_create : forall l a p more r l',
  ledger_ok l -> create_typed p -> NoDup (keys a) -> cs <> 0%nat ->
  (exists n, (5 <= n)%nat /\ length (a_data (l (ac_queue a))) = queue_allocation_size cs n) ->
  a_data (l (ac_bids a)) <> [] -> a_data (l (ac_asks a)) <> [] ->
  instr (keys a ++ more) (ix_create_market :: wr_create p) l = (r, l') ->
  match first_problem (create_problems rent_exempt pid l a p) with
  | Some x => fails r x
  | None => r = Ok None
  end.
Proof. intros l a p more r l'. apply create_reason. Qed.
(** A queue account of another size is a panic, unless an earlier entry applies. *)
Theorem C73_create_queue_size : forall l a p more r l',
  create_typed p ->
  (forall n, (5 <= n)%nat -> length (a_data (l (ac_queue a))) <> queue_allocation_size cs n) ->
  instr (keys a ++ more) (ix_create_market :: wr_create p) l = (r, l') ->
  match first_problem (take 5 (create_problems rent_exempt pid l a p)) with
  | Some x => fails r x
  | None => r = Panic PUnwrap
  end.
Proof.
  intros l a p more r l' Hp Hq. rewrite create_instr_eq by done. intros H. unfold bind in H.
  destruct (create_market cs rent_exempt pid a p l) as [r0 l0] eqn:E0. apply create_queue_size in E0; [|done].
  destruct (first_problem _) as [x|]; [|subst r0; by injection H as <- _].
  destruct E0 as (e & -> & ?). injection H as <- _. by exists e.
Qed.

(** Before the accounts are looked at: an instruction needs its accounts and a tag and
    parameters that can be decoded, and says which of the two is missing. *)
Theorem C73_dispatch : forall ks t d l r l',
  instr ks (t :: d) l = (r, l') ->
  if 5 <? t then fails r InvalidInstructionData
  else if (length ks <? accounts_needed t)%nat then fails r NotEnoughAccountKeys
  else if negb (decodable cs t d) then fails r InvalidInstructionData
  else ~ fails r NotEnoughAccountKeys /\ ~ fails r InvalidInstructionData.
Proof. intros ks t d l r l'. apply dispatch. Qed.
(** Whatever the accounts hold, the errors that an instruction can end with are these. *)
Theorem C73_only : forall ks t d l r l' x,
  instr ks (t :: d) l = (r, l') -> fails r x -> In x (possible t).
Proof. intros ks t d l r l' x. apply instr_possible. Qed.
Theorem C73_no_data : forall ks l, fst (instr ks [] l) = Panic PIndex.
Proof. done. Qed.
End Props.

(** The codes: the error of each failure that the program returns, as in error.rs, is
    different from the others. *)
Theorem C73_codes :
  map to_program_error
    [WrongBidsAccount; WrongAsksAccount; WrongEventQueueAccount; EventQueueFull; OrderNotFound; WouldSelfTrade;
     SlabOutOfSpace; MarketStillActive; WrongEventQueueOwner; WrongBidsOwner; WrongAsksOwner; WrongMarketOwner;
     InvalidLimitPrice; NumericalOverflow; AccountTagMismatch] =
  map (fun n => Some (Custom n)) [1; 2; 3; 5; 6; 7; 8; 11; 13; 14; 15; 16; 21; 22; 24] /\
  (forall e e', to_program_error e = to_program_error e' -> to_program_error e <> None -> e = e').
Proof. split; [done|]. intros e e'. destruct e, e'; done. Qed.

(** ** Concrete cases

    On the ledger of LedgerExample.v: market accounts 1 to 4 (a bid of 7, a notice), market
    accounts 11 to 14 (nothing), account 6 of somebody else. *)
Definition e_res (ks : list N) (data : bytes) (l : ledger) : option program_error :=
  match fst (e_instr ks data l) with Err e => to_program_error e | _ => None end.
Definition e_bad (a : accounts) : option program_error := first_problem (op_problems e_pid e_l4 a (e_order Bid 4 4)).
Definition e_try (a : accounts) (o : op bytes) : option program_error := e_res (op_keys a o ++ []) (op_data o) e_l4.
(** Wrong accounts: of somebody else, the ones of the other market, the two sides swapped,
    the queue in the place of the market. *)
Example C73_example_accounts :
  Forall (fun '(a, x) => length (a_data (e_l4 (ac_market a))) = 120%nat /\ e_bad a = Some x /\
                         e_try a (e_order Bid 4 4) = Some x)
    [(mk_accounts 11 2 3 4, Custom 3); (mk_accounts 1 2 13 4, Custom 1); (mk_accounts 1 2 3 14, Custom 2);
     (mk_accounts 1 2 4 3, Custom 1); (mk_accounts 1 6 3 4, Custom 13); (mk_accounts 1 2 6 4, Custom 14);
     (mk_accounts 1 2 3 6, Custom 15); (mk_accounts 1 6 6 6, Custom 13)] /\
  e_res (keys (mk_accounts 6 2 3 4)) (op_data (e_order Bid 4 4)) e_l4 = Some (Custom 16) /\
  e_res (keys (mk_accounts 2 2 3 4)) (op_data (e_order Bid 4 4)) e_l4 = Some (Custom 24).
Proof. split; [repeat constructor; by vm_compute|split; by vm_compute]. Qed.
(** The refusals of a market; closing one that is in use and one that is not. *)
Definition e_own : op bytes := NewOrder (mk_params 3 1000000 (e_price 4) Ask 5 (e_cb 1) false true AbortTransaction).
Definition e_off : op bytes := NewOrder (mk_params 3 1000000 0 Ask 5 (e_cb 1) false true AbortTransaction).
Example C73_example_market :
  ledger_ok e_l4 /\ opens e_cs e_pid e_l4 e_a e_ma /\ reachable e_same e_cfg e_ma /\
  e_try e_a e_own = Some (Custom 7) /\ fst (rule e_same (rules_of e_cfg) e_own (view e_ma)) = SelfTrade /\
  e_try e_a e_off = Some (Custom 21) /\ fst (rule e_same (rules_of e_cfg) e_off (view e_ma)) = BadPrice /\
  e_try e_a (CancelOrder 99) = Some (Custom 6) /\
  fst (rule e_same (rules_of e_cfg) (CancelOrder 99) (view e_ma)) = NoSuchOrder /\
  e_res (keys e_a ++ [6]) [4] e_l4 = Some (Custom 11) /\
  fst (e_instr (keys e_b ++ [6]) [4] e_l4) = Ok None.
Proof.
  split; [apply e_ok4|]. split; [apply e_opens_a|]. split; [apply e_reachable_a|]. repeat split; by vm_compute.
Qed.
(** Creating a market: again, with a tick of 0, with an account that is in use. *)
Example C73_example_create :
  Forall (fun '(a, p, l, x) => bool_decide (NoDup (keys a)) = true /\
      length (a_data (l (ac_queue a))) = queue_allocation_size e_cs 5 /\
      first_problem (create_problems e_rent e_pid l a p) = x /\
      e_res (keys a) (ix_create_market :: wr_create p) l = x)
    [(e_a, e_p, e_l0, None); (e_a, e_p, e_l1, Some (Custom 24));
     (e_a, mk_create_params 2 0, e_l0, Some InvalidArgument);
     (mk_accounts 11 12 3 14, e_p, e_l1, Some AccountAlreadyInitialized);
     (mk_accounts 11 2 13 14, e_p, e_l1, Some (Custom 24));
     (mk_accounts 5 12 13 14, e_p, e_l1, Some InvalidAccountData);
     (mk_accounts 7 12 13 14, e_p, e_l1, Some AccountNotRentExempt)] /\
  fst (e_instr (keys (mk_accounts 11 13 12 14)) (e_create e_a) e_l0) = Panic PUnwrap.
Proof. split; [repeat constructor; by vm_compute|by vm_compute]. Qed.
Example C73_example_dispatch :
  e_res [1; 2; 3] (op_data (e_order Bid 4 4)) e_l4 = Some NotEnoughAccountKeys /\
  e_res [1; 2; 3] [1] e_l4 = Some NotEnoughAccountKeys /\
  e_res [1; 2; 3; 4] [1] e_l4 = Some InvalidInstructionData /\
  e_res [1; 2; 3; 4] [4] e_l4 = Some NotEnoughAccountKeys /\
  e_res [1] [2; 0] e_l4 = Some NotEnoughAccountKeys /\
  e_res [1; 2; 3; 4] [6] e_l4 = Some InvalidInstructionData /\
  fst (e_instr [1; 2] (op_data (ConsumeEvents 1)) e_l4) = Ok None.
Proof. by vm_compute. Qed.

Print Assumptions C73_accounts.
Print Assumptions C73_market.
Print Assumptions C73_close_accounts.
Print Assumptions C73_close_market.
Print Assumptions C73_create.
Print Assumptions C73_create_queue_size.
Print Assumptions C73_dispatch.
Print Assumptions C73_only.
Print Assumptions C73_no_data.
Print Assumptions C73_codes.
