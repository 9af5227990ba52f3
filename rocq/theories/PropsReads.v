(** * PropsReads.v: C59 (get_depth), C46 and C44 on accounts and parameters, C48 before
    the runtime's rollback

    Vocabulary: ReadSpec.v, Spec.v, DataSpec.v, LedgerSpec.v. *)
From stdpp Require Import gmap.
From Verif Require Import Machine Bytes Critbit EventQueue OrderBook Market Spec DataSpec ReadSpec Reads
  ExampleRuns Layout Borsh BorshProofs Ledger LedgerSpec.
From Verif Require Import SlabProofs DataProps BookProofs MarketProofs ReadProofs PropsData PropsMarket LedgerExample.

(** ** C59: the depth of a tree *)
Theorem C59_every_slab : forall (C : Type) (z : C) (n x : nat) log s,
  (1 <= n)%nat -> N.of_nat n <= p31 -> slab_run z n x log s ->
  let count := N.of_nat (size (snd (map_run n (map fst log)))) in
  exists d, get_depth s = Ok d /\ tree_depth s d /\ d <= 129 /\ d <= count /\
    (count <> 0 -> count <= 2 ^ (d - 1)).
Proof.
  intros C z n x log s H1 H2 H3. destruct (slab_run_sinv _ _ _ _ _ H1 H2 H3) as [_ (es & Hs & Hmp & _)].
  cbv zeta. rewrite Hmp, (srep_size _ _ Hs). by apply depth_of_rep.
Qed.
Print Assumptions C59_every_slab.
Theorem C59_every_market : forall (C : Type) (same_id : C -> C -> bool) c m sd,
  reachable same_id c m ->
  let count := N.of_nat (length (resting m sd)) in
  exists d, get_depth (tree (m_book m) sd) = Ok d /\ tree_depth (tree (m_book m) sd) d /\ d <= 129 /\ d <= count /\
    (count <> 0 -> count <= 2 ^ (d - 1)).
Proof.
  intros C same_id c m sd Hr. destruct (reachable_minv _ _ _ Hr) as (L & pend & Hm & _).
  cbv zeta. rewrite (minv_resting _ _ _ _ sd Hm). pose proof (mi_rep _ _ _ _ Hm sd) as (es & Hs & E).
  rewrite E, !prio_length, map_length. by apply depth_of_rep.
Qed.
Print Assumptions C59_every_market.
Example C59_example : slab_run 0 3 1 ex_slab_log ex_slab /\ get_depth ex_slab = Ok 3 /\
  get_depth (tree (m_book h_m) Bid) = Ok 2 /\ get_depth (tree (m_book h_m) Ask) = Ok 1.
Proof. split; [exact ex_slab_run|]. by vm_compute. Qed.

(** ** C46 on accounts: utils::get_spread *)
Theorem C46_accounts : forall cs same_id pid c l a m,
  ledger_ok l -> opens cs pid l a m -> reachable same_id c m ->
  exists pb pa, spread_of_accounts cs (ac_bids a) (ac_asks a) l = (Ok (pb, pa), l) /\
    best_price m Bid pb /\ best_price m Ask pa.
Proof. exact spread_accounts. Qed.
Print Assumptions C46_accounts.
(** Accounts given in the wrong order, or twice the same one, are refused. *)
Theorem C46_wrong_accounts : forall cs pid l a m, opens cs pid l a m ->
  spread_of_accounts cs (ac_asks a) (ac_bids a) l = (Panic PUnwrap, l) /\
  forall k, spread_of_accounts cs k k l = (Panic PBorrow, l).
Proof. intros cs pid l a m H. split; [by eapply spread_swapped|]. apply spread_same. Qed.
Print Assumptions C46_wrong_accounts.
Example C46_accounts_example : opens e_cs e_pid e_l4 e_a e_ma /\ reachable e_same e_cfg e_ma /\ ledger_ok e_l4 /\
  fst (spread_of_accounts e_cs (ac_bids e_a) (ac_asks e_a) e_l4) = Ok (Some (e_price 4), None).
Proof. split; [exact e_opens_a|]. split; [exact e_reachable_a|]. split; [exact e_ok4|]. by vm_compute. Qed.

(** ** C44: the announced length of the parameters of new_order is their length *)
Theorem C44_borsh_len : forall p : params bytes, length (wr_new_order p) = params_borsh_len p.
Proof. exact borsh_len_ok. Qed.
Print Assumptions C44_borsh_len.
Example C44_borsh_len_example :
  params_borsh_len (mk_params 10 20 4294967296 Bid 3 [1;2;3;4] false true CancelProvide) = 40%nat.
Proof. done. Qed.

(** ** C48: what a failure leaves behind before the rollback

    [process] is the program alone, [exec] the program under a runtime that undoes a
    failed instruction. *)
Theorem C48_raw_cancel : forall (C : Type) (same_id : C -> C -> bool) c m id r m',
  reachable same_id c m -> process same_id (CancelOrder id) m = (r, m') -> is_ok r = false -> m' = m.
Proof. exact @cancel_raw. Qed.
Print Assumptions C48_raw_cancel.
Theorem C48_raw_bad_price : forall (C : Type) (same_id : C -> C -> bool) m p,
  m_tick m <> 0 -> limit_price p mod m_tick m <> 0 ->
  process same_id (NewOrder p) m = (Err InvalidLimitPrice, m).
Proof. exact @price_raw. Qed.
Print Assumptions C48_raw_bad_price.
Theorem C48_raw_consume : forall (C : Type) (same_id : C -> C -> bool) c m n, reachable same_id c m ->
  exists m', process same_id (ConsumeEvents n) m = (Ok None, m').
Proof. exact @consume_raw. Qed.
Print Assumptions C48_raw_consume.
(** A mass cancellation that fails has cancelled the orders named first and nothing else. *)
Theorem C48_raw_mass_cancel : forall (C : Type) (same_id : C -> C -> bool) c m ids r m',
  reachable same_id c m -> process same_id (MassCancelOrders ids) m = (r, m') ->
  exists k sms, cancels same_id m (take k ids) sms m'.
Proof. exact @mass_raw. Qed.
Print Assumptions C48_raw_mass_cancel.
(** So the rollback is needed: without it a failed mass cancellation, a queue that fills
    up while matching and an aborted self-trade leave a changed market. *)
Definition raw_cfg : config N := mk_config 1 1 0 4 4 5 0 0.
Definition raw_ops : list (op N) :=
  [NewOrder (mk_params 10 1000 (2 * p32) Ask 5 1 false true DecrementTake);
   NewOrder (mk_params 10 1000 (2 * p32) Bid 5 3 false true DecrementTake);
   NewOrder (mk_params 10 1000 (3 * p32) Ask 5 1 false true DecrementTake);
   NewOrder (mk_params 10 1000 (4 * p32) Ask 5 2 false true DecrementTake);
   NewOrder (mk_params 5 1000 (1 * p32) Bid 5 3 false true DecrementTake)].
Definition raw_m : market N := after N.eqb raw_cfg raw_ops.
Definition raw_bid : N := match resting raw_m Bid with o :: _ => o_id o | [] => 0 end.
Theorem C48_rollback_needed :
  exists (c : config N) (m : market N), reachable N.eqb c m /\
  (exists ids, fst (process N.eqb (MassCancelOrders ids) m) = Err OrderNotFound /\
     resting (snd (process N.eqb (MassCancelOrders ids) m)) Bid <> resting m Bid) /\
  (exists p, fst (process N.eqb (NewOrder p) m) = Err EventQueueFull /\
     resting (snd (process N.eqb (NewOrder p) m)) Ask <> resting m Ask) /\
  (exists p, fst (process N.eqb (NewOrder p) m) = Err WouldSelfTrade /\
     resting (snd (process N.eqb (NewOrder p) m)) Ask <> resting m Ask).
Proof.
  exists raw_cfg, raw_m. split; [apply after_reachable; [unfold config_ok; cbn; lia|by vm_compute..]|].
  split; [|split].
  - exists [raw_bid; 77]. split; vm_compute; discriminate || reflexivity.
  - exists (mk_params 30 1000 (4 * p32) Bid 5 9 false true DecrementTake).
    split; vm_compute; discriminate || reflexivity.
  - exists (mk_params 30 1000 (4 * p32) Bid 5 2 false true AbortTransaction).
    split; vm_compute; discriminate || reflexivity.
Qed.
Print Assumptions C48_rollback_needed.
