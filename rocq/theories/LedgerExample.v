(** * LedgerExample.v: a concrete ledger with two markets, used beside the theorems of
    PropsLedger.v to show that their hypotheses are met *)
From Verif Require Import Machine Bytes Critbit EventQueue OrderBook Market Spec
  Layout Borsh BorshProofs Ledger LedgerSpec LedgerProofs WorldProofs LedgerFacts LedgerFacts2 ExampleRuns.
From Coq Require Import ZifyBool ZifyNat ZifyN.

(** Program 9 with 32 byte callback infos.  Market accounts 1 to 4 and 11 to 14 (two
    orders per side, five events), register 5, and account 6 of somebody else. *)
Definition e_cs : nat := 32.
Definition e_same (x y : bytes) : bool := bool_decide (x = y).
Definition e_rent (lamports : N) (len : nat) : bool := negb (lamports =? 0).
Definition e_pid : N := 9.
Definition zeros (n : nat) : bytes := replicate n 0.
Definition e_genesis : ledger := fun k => mk_account 0 0 [].
Definition e_l0 : ledger := fun k =>
  if k =? 1 then mk_account 9 10 (zeros 120)
  else if k =? 2 then mk_account 9 20 (zeros 552)
  else if k =? 3 then mk_account 9 30 (zeros 184)
  else if k =? 4 then mk_account 9 40 (zeros 184)
  else if k =? 5 then mk_account 9 5 (zeros 42)
  else if k =? 6 then mk_account 0 600 []
  else if k =? 11 then mk_account 9 10 (zeros 120)
  else if k =? 12 then mk_account 9 20 (zeros 552)
  else if k =? 13 then mk_account 9 30 (zeros 184)
  else if k =? 14 then mk_account 9 40 (zeros 184)
  else mk_account 0 0 [].
Definition e_a : accounts := mk_accounts 1 2 3 4.
Definition e_b : accounts := mk_accounts 11 12 13 14.
Definition e_p : create_params := mk_create_params 2 1.
Definition e_instr := process_instruction e_cs e_same e_rent e_pid.
Definition e_create (a : accounts) : bytes := ix_create_market :: wr_create e_p.
Definition e_price (x : N) : N := x * p32.
Definition e_cb (x : N) : bytes := replicate 32 x.
Definition e_order (sd : side) (qty px : N) : op bytes :=
  NewOrder (mk_params qty 1000000 (e_price px) sd 5 (e_cb 1) false true DecrementTake).

(** Both markets are created; then a bid of 10 at 4 and an ask of 3 at 4 on the first. *)
Definition e_l1 : ledger := snd (e_instr (keys e_a ++ []) (e_create e_a) e_l0).
Definition e_l2 : ledger := snd (e_instr (keys e_b ++ []) (e_create e_b) e_l1).
Definition e_l3 : ledger := snd (e_instr (keys e_a ++ []) (op_data (e_order Bid 10 4)) e_l2).
Definition e_l4 : ledger := snd (e_instr (keys e_a ++ []) (op_data (e_order Ask 3 4)) e_l3).
(** The second market is closed. *)
Definition e_l5 : ledger := snd (e_instr (keys e_b ++ 6 :: []) [ix_close_market] e_l4).

Lemma e_rent_0 n : e_rent 0 n = false.
Proof. done. Qed.
Lemma zeros_ok n : bytes_ok (zeros n).
Proof. by apply Forall_replicate. Qed.
Lemma zeros_0 n : Forall (fun b => b = 0) (zeros n).
Proof. by apply Forall_replicate. Qed.
Lemma e_l0_cases (P : account -> Prop) :
  P (mk_account 9 10 (zeros 120)) -> P (mk_account 9 20 (zeros 552)) -> P (mk_account 9 30 (zeros 184)) ->
  P (mk_account 9 40 (zeros 184)) -> P (mk_account 9 5 (zeros 42)) -> P (mk_account 0 600 []) ->
  P (mk_account 0 0 []) -> forall k, P (e_l0 k).
Proof. intros. unfold e_l0. repeat (destruct (k =? _); [done|]). done. Qed.
Lemma e_ok0 : ledger_ok e_l0.
Proof.
  intros k. apply (e_l0_cases (fun x => bytes_ok (a_data x) /\ N.of_nat (length (a_data x)) <= 10485760));
    cbn [a_data]; (split; [first [apply zeros_ok|constructor]|unfold zeros; rewrite ?replicate_length; done]).
Qed.
Lemma e_world0 : world e_cs e_same e_rent e_pid e_l0.
Proof.
  exists e_genesis, ([] ++ [Env []]). split; [|split].
  - intros k. cbn. split; [constructor|done].
  - done.
  - eapply trace_snoc; [constructor|]. constructor.
    + intros k. apply (e_l0_cases (fun x => env_change e_pid (e_genesis k) x));
      first [right; right; split_and!; [done|done|apply zeros_0] | right; left; done].
    + apply e_ok0.
    + done.
Qed.
Lemma world_step l lb l' : world e_cs e_same e_rent e_pid l -> ledger_step e_cs e_same e_rent e_pid l lb l' ->
  world e_cs e_same e_rent e_pid l'.
Proof. intros (l0 & tr & H1 & H2 & H3) Hs. exists l0, (tr ++ [lb]). split_and!; try done. by eapply trace_snoc. Qed.

(** Check that the runtime's rule allows a call. *)
Definition rule_ok (ks : list N) (data : bytes) (l : ledger) : bool :=
  let l' := snd (e_instr ks data l) in
  forallb (fun k => (a_owner (l k) =? e_pid) ||
    (bool_decide (a_data (l' k) = a_data (l k)) && (a_lamports (l k) <=? a_lamports (l' k)))) (used ks data) &&
  forallb (fun k => k <? 256 ^ 32) ks && forallb (fun b => b <? 256) data.
Lemma e_step ks data r l : fst (e_instr ks data l) = Ok r -> rule_ok ks data l = true ->
  ledger_step e_cs e_same e_rent e_pid l (Call ks data r) (snd (e_instr ks data l)).
Proof.
  intros H Hr. unfold rule_ok in Hr. apply andb_prop in Hr as [Hr H3]. apply andb_prop in Hr as [H1 H2].
  apply call_step; [done|..].
  - apply Forall_forall. intros k Hk. rewrite forallb_forall in H1. specialize (H1 k (proj1 (elem_of_list_In _ _) Hk)).
    apply orb_prop in H1 as [H1|H1]; [left; by apply N.eqb_eq|right].
    apply andb_prop in H1 as [H0 H1]. apply bool_decide_eq_true in H0. apply N.leb_le in H1. done.
  - apply Forall_forall. intros k Hk. rewrite forallb_forall in H2. specialize (H2 k (proj1 (elem_of_list_In _ _) Hk)).
    by apply N.ltb_lt.
  - apply Forall_forall. intros k Hk. rewrite forallb_forall in H3. specialize (H3 k (proj1 (elem_of_list_In _ _) Hk)).
    by apply N.ltb_lt.
Qed.
Lemma e_step1 : ledger_step e_cs e_same e_rent e_pid e_l0 (Call (keys e_a ++ []) (e_create e_a) None) e_l1.
Proof. apply e_step; by vm_compute. Qed.
Lemma e_step2 : ledger_step e_cs e_same e_rent e_pid e_l1 (Call (keys e_b ++ []) (e_create e_b) None) e_l2.
Proof. apply e_step; by vm_compute. Qed.
Definition e_sum3 : summary := mk_summary (Some (e_price 4 * p64 + p64 - 1)) 10 40 10.
Definition e_sum4 : summary := mk_summary None 3 12 0.
Lemma e_step3 : ledger_step e_cs e_same e_rent e_pid e_l2
  (Call (keys e_a ++ []) (op_data (e_order Bid 10 4)) (Some e_sum3)) e_l3.
Proof. apply e_step; by vm_compute. Qed.
Lemma e_step4 : ledger_step e_cs e_same e_rent e_pid e_l3
  (Call (keys e_a ++ []) (op_data (e_order Ask 3 4)) (Some e_sum4)) e_l4.
Proof. apply e_step; by vm_compute. Qed.
Lemma e_step5 : ledger_step e_cs e_same e_rent e_pid e_l4
  (Call (keys e_b ++ 6 :: []) [ix_close_market] None) e_l5.
Proof. apply e_step; by vm_compute. Qed.
Lemma e_world4 : world e_cs e_same e_rent e_pid e_l4.
Proof.
  exact (world_step _ _ _ (world_step _ _ _ (world_step _ _ _ (world_step _ _ _ e_world0 e_step1) e_step2)
    e_step3) e_step4).
Qed.

(** The markets in the accounts of [e_l4]. *)
Definition e_cfg : config bytes := mk_config 2 1 (replicate 32 0) 2 2 5 0 0.
Definition e_ma : market bytes := after e_same e_cfg [e_order Bid 10 4; e_order Ask 3 4].
Definition e_mb : market bytes := init_market e_cfg.
Lemma e_cfg_ok : config_ok e_cfg.
Proof. unfold config_ok. cbn. lia. Qed.
Lemma e_reachable_a : reachable e_same e_cfg e_ma.
Proof. apply after_reachable; [apply e_cfg_ok|by vm_compute|by vm_compute]. Qed.
Lemma e_reachable_b : reachable e_same e_cfg e_mb.
Proof. split; [apply e_cfg_ok|]. exists []. split; [constructor|done]. Qed.
Lemma e_owned_b l : forallb (fun k => a_owner (l k) =? e_pid) (keys e_b) = true ->
  forall k, k ∈ keys e_b -> a_owner (l k) = e_pid.
Proof. intros H k Hk. rewrite forallb_forall in H. apply N.eqb_eq, H. by apply elem_of_list_In. Qed.
Lemma e_owned_a l : forallb (fun k => a_owner (l k) =? e_pid) (keys e_a) = true ->
  forall k, k ∈ keys e_a -> a_owner (l k) = e_pid.
Proof. intros H k Hk. rewrite forallb_forall in H. apply N.eqb_eq, H. by apply elem_of_list_In. Qed.
Lemma e_opens_a : opens e_cs e_pid e_l4 e_a e_ma.
Proof.
  split; [apply (bool_decide_eq_true_1 _); by vm_compute|by apply e_owned_a; vm_compute|
    vm_compute; reflexivity..].
Qed.
Lemma e_opens_b : opens e_cs e_pid e_l4 e_b e_mb.
Proof.
  split; [apply (bool_decide_eq_true_1 _); by vm_compute|by apply e_owned_b; vm_compute|
    vm_compute; reflexivity..].
Qed.
(** What is in them: a bid of 7 and a fill event in the first, nothing in the second. *)
Lemma e_contents :
  map (fun o => (o_id o, o_qty o)) (resting e_ma Bid) = [(e_price 4 * p64 + p64 - 1, 7)] /\
  resting e_ma Ask = [] /\ length (pending e_ma) = 1%nat /\
  resting e_mb Bid = [] /\ resting e_mb Ask = [] /\ pending e_mb = [].
Proof. by vm_compute. Qed.
Lemma e_ok4 : ledger_ok e_l4.
Proof. exact (w_ok _ _ _ (world_wf _ _ _ _ e_rent_0 _ e_world4)). Qed.
Lemma e_world5 : world e_cs e_same e_rent e_pid e_l5.
Proof. exact (world_step _ _ _ e_world4 e_step5). Qed.
Lemma e_trace4 : trace e_cs e_same e_rent e_pid e_l1
  (([] ++ [Call (keys e_b ++ []) (e_create e_b) None]) ++
   [Call (keys e_a ++ []) (op_data (e_order Bid 10 4)) (Some e_sum3)] ++
   [Call (keys e_a ++ []) (op_data (e_order Ask 3 4)) (Some e_sum4)]) e_l4.
Proof.
  rewrite app_assoc. eapply trace_snoc; [|apply e_step4]. eapply trace_snoc; [|apply e_step3].
  eapply trace_snoc; [|apply e_step2]. constructor.
Qed.

(** ** The register
    The entrypoint writes the answer to the last account without any check.  The accounts
    of the closed market get lamports again; then three transactions that consume no event
    of the first market name them as register. *)
Definition e_exec := execute e_cs e_same e_rent e_pid.
Definition fund (ks : list N) (l : ledger) : ledger := fun k =>
  if existsb (N.eqb k) ks then mk_account (a_owner (l k)) 50 (a_data (l k)) else l k.
Lemma fund_same ks l k : a_owner (fund ks l k) = a_owner (l k) /\ a_data (fund ks l k) = a_data (l k).
Proof. unfold fund. by destruct (existsb _ _). Qed.
Lemma fund_step ks l : ledger_ok l ->
  forallb (fun k => (a_owner (l k) =? e_pid) && (a_lamports (l k) <=? 50)) ks = true ->
  ledger_step e_cs e_same e_rent e_pid l (Env []) (fund ks l).
Proof.
  intros Hok H. constructor.
  - intros k. unfold fund. destruct (existsb (N.eqb k) ks) eqn:E.
    + apply existsb_exists in E as (x & Hx & E). apply N.eqb_eq in E as <-.
      rewrite forallb_forall in H. specialize (H _ Hx). apply andb_prop in H as [H1 H2].
      apply N.eqb_eq in H1. apply N.leb_le in H2. by left.
    + destruct (N.eq_dec (a_owner (l k)) e_pid) as [H'|H']; [left; split_and!; try done; lia|right; left; done].
  - intros k. destruct (fund_same ks l k) as [_ ->]. apply Hok.
  - intros k H1 H2. destruct (fund_same ks l k) as [E _]. congruence.
Qed.
Definition e_l6 : ledger := fund (keys e_b) e_l5.
Definition e_poke (reg : N) (l : ledger) : res (option summary) * ledger :=
  let i := build_consume_events 1 2 reg 0 in e_exec (i_metas i) (i_data i) l.
Definition e_l7 : ledger := snd (e_poke 11 e_l6).
Definition e_l8 : ledger := snd (e_poke 12 e_l7).
Definition e_l9 : ledger := snd (e_poke 13 e_l8).
Definition e_l10 : ledger := snd (e_poke 14 e_l9).
Definition e_again : res (option summary) * ledger :=
  let i := build_create_market e_b 5 e_p in e_exec (i_metas i) (i_data i) e_l10.
Lemma e_world6 : world e_cs e_same e_rent e_pid e_l6.
Proof.
  apply (world_step e_l5 (Env [])); [exact e_world5|].
  apply fund_step; [exact (w_ok _ _ _ (world_wf _ _ _ _ e_rent_0 _ e_world5))|vm_compute; reflexivity].
Qed.
