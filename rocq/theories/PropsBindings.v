(** * PropsBindings.v: C64, creating a market from JavaScript (bindings.ts)

    Vocabulary: LedgerSpec.v. *)
From Verif Require Import Machine Bytes Critbit EventQueue OrderBook Market Spec Layout LayoutProofs Borsh BorshProofs Ledger LedgerSpec
  JsClient JsBindings.
From Verif Require Import LedgerExample PropsLayout PropsLedger PropsClient.

Section Bindings.
Context (cs : nat) (same_id : bytes -> bytes -> bool) (rent_exempt : N -> nat -> bool) (pid : N).
Notation instr := (process_instruction cs same_id rent_exempt pid).

(** An account that does not exist. *)
Definition unused (l : ledger) (k : N) : Prop := l k = mk_account system_id 0 [].
(** An account that can pay: of the system program, without data. *)
Definition wallet (l : ledger) (k : N) : Prop := a_owner (l k) = system_id /\ a_data (l k) = [].

Section Create.
(** Sizes that Solana allows, and the answer of the RPC node about rent. *)
Context (min_balance : Z -> N) (payer : N) (a : accounts) (orders events slab_size : nat).
Definition queue_size : nat := queue_allocation_size cs events.
Definition total_rent : N :=
  min_balance (Z.of_nat queue_size) + 2 * min_balance (Z.of_nat slab_size) + min_balance 120.
Context (Hrent : forall n, rent_exempt (min_balance (Z.of_nat n)) n = true).
Context (Hsize : slab_allocation_size cs orders = Ok slab_size).
Context (Hmax : N.of_nat slab_size <= 10485760 /\ N.of_nat queue_size <= 10485760).
Context (Hcs : cs <> 0%nat) (Hev : (5 <= events)%nat).
Context (Hkeys : NoDup (payer :: keys a)) (Hk32 : Forall (fun k => k < 256 ^ 32) (keys a)).

Definition after_create (l : ledger) : ledger := fun k =>
  if k =? payer then mk_account (a_owner (l payer)) (a_lamports (l payer) - total_rent) (a_data (l payer))
  else if k =? ac_queue a then mk_account pid (min_balance (Z.of_nat queue_size)) (replicate queue_size 0)
  else if k =? ac_bids a then mk_account pid (min_balance (Z.of_nat slab_size)) (replicate slab_size 0)
  else if k =? ac_asks a then mk_account pid (min_balance (Z.of_nat slab_size)) (replicate slab_size 0)
  else if k =? ac_market a then mk_account pid (min_balance 120) (replicate 120 0)
  else l k.
Lemma create_step i sg ixs l : existsb (N.eqb (ca_new i)) sg = true -> unused l (ca_new i) -> wallet l (ca_from i) ->
  ca_from i <> ca_new i -> (0 <= ca_space i <= 10485760)%Z -> ca_lamports i <= a_lamports (l (ca_from i)) ->
  tx_steps cs same_id rent_exempt pid sg (Create i :: ixs) l = tx_steps cs same_id rent_exempt pid sg ixs
    (set_account (ca_new i) (mk_account (ca_owner i) (ca_lamports i) (replicate (Z.to_nat (ca_space i)) 0))
          (set_account (ca_from i) (mk_account (a_owner (l (ca_from i))) (a_lamports (l (ca_from i)) - ca_lamports i) (a_data (l (ca_from i)))) l)).
Proof.
  intros Hs Hu [Hw1 Hw2] Hne Hsp Hl. cbn [tx_steps]. rewrite Hs. unfold system_create. rewrite Hu. cbn [a_lamports a_owner a_data].
  rewrite Hw1, Hw2. rewrite (bool_decide_true ([] = [])) by done.
  replace (0 <=? ca_space i)%Z with true by (symmetry; apply Z.leb_le; lia).
  replace (ca_space i <=? 10485760)%Z with true by (symmetry; apply Z.leb_le; lia).
  replace (ca_from i =? ca_new i) with false by (symmetry; by apply N.eqb_neq).
  replace (ca_lamports i <=? _) with true by (symmetry; by apply N.leb_le). reflexivity.
Qed.
Lemma create_four l : Forall (unused l) (keys a) -> wallet l payer -> total_rent <= a_lamports (l payer) ->
  exists l4, tx_steps cs same_id rent_exempt pid [ac_queue a; ac_bids a; ac_asks a; ac_market a]
    (map Create (js_create_accounts pid min_balance payer a (Z.of_nat cs) (Z.of_nat events) (Z.of_nat orders))) l = Ok l4 /\
    forall k, l4 k = after_create l k.
Proof.
  intros Hu [Hw1 Hw2] Hpay. unfold js_create_accounts.
  rewrite (C50_allocation_size cs), (C49_allocation_size cs orders slab_size Hsize).
  change (queue_allocation_size cs events) with queue_size. change (Z.of_nat js_market_len) with 120%Z.
  pose proof Hkeys as Hd. apply NoDup_cons in Hd as [Hp Hd]. unfold keys in *.
  rewrite !not_elem_of_cons in Hp. destruct Hp as (P1&P2&P3&P4&_).
  rewrite !NoDup_cons, !not_elem_of_cons in Hd. destruct Hd as ((D1&D2&D3&_)&(D4&D5&_)&(D6&_)&_).
  rewrite !Forall_cons in Hu. destruct Hu as (U1&U2&U3&U4&_). unfold unused, total_rent in *.
  assert (Hs4 : forall k, k ∈ [ac_queue a; ac_bids a; ac_asks a; ac_market a] ->
    existsb (N.eqb k) [ac_queue a; ac_bids a; ac_asks a; ac_market a] = true).
  { intros k Hk. apply existsb_exists. exists k. rewrite N.eqb_refl. split; [by apply elem_of_list_In|done]. }
  cbn [map].
  Ltac sa := repeat first [rewrite N.eqb_refl | match goal with |- context [?x =? ?y] =>
    rewrite (proj2 (N.eqb_neq x y)) by congruence end].
  rewrite create_step; cbn [ca_new ca_from ca_space ca_lamports ca_owner];
    [|apply Hs4; set_solver|done|done|done|lia|lia].
  rewrite create_step; cbn [ca_new ca_from ca_space ca_lamports ca_owner];
    [|apply Hs4; set_solver|unfold unused, set_account; sa; done|split; unfold set_account; sa; done|done|lia|
      unfold set_account; sa; cbn [a_lamports]; lia].
  rewrite create_step; cbn [ca_new ca_from ca_space ca_lamports ca_owner];
    [|apply Hs4; set_solver|unfold unused, set_account; sa; done|split; unfold set_account; sa; done|done|lia|
      unfold set_account; sa; cbn [a_lamports]; lia].
  rewrite create_step; cbn [ca_new ca_from ca_space ca_lamports ca_owner];
    [|apply Hs4; set_solver|unfold unused, set_account; sa; done|split; unfold set_account; sa; done|done|lia|
      unfold set_account; sa; cbn [a_lamports]; lia].
  cbn [tx_steps]. eexists. split; [reflexivity|]. intros k. unfold after_create, set_account, total_rent.
  rewrite !Nat2Z.id. change (Z.to_nat 120) with 120%nat.
  destruct (N.eqb_spec k payer) as [->|]; sa; cbn [a_owner a_lamports a_data];
    [f_equal; clear; generalize (min_balance (Z.of_nat queue_size)), (min_balance (Z.of_nat slab_size)), (min_balance 120), (a_lamports (l payer)); intros; lia|].
  destruct (N.eqb_spec k (ac_queue a)) as [->|]; sa; [done|].
  destruct (N.eqb_spec k (ac_bids a)) as [->|]; sa; [done|].
  destruct (N.eqb_spec k (ac_asks a)) as [->|]; sa; done.
Qed.

(** The accounts that the transaction creates are what the program's create_market needs,
    and they give an empty market of exactly the capacities asked for; apart from them only
    the payer's balance changes, by the rent of the four accounts. *)
Theorem C64_accounts_fit : forall l p,
  ledger_ok l -> Forall (unused l) (keys a) -> wallet l payer -> total_rent <= a_lamports (l payer) ->
  create_typed p -> 0 < cp_min p -> 0 < cp_tick p ->
  exists l4 l5,
    tx_steps cs same_id rent_exempt pid [ac_queue a; ac_bids a; ac_asks a; ac_market a]
      (map Create (js_create_accounts pid min_balance payer a (Z.of_nat cs) (Z.of_nat events) (Z.of_nat orders))) l = Ok l4 /\
    instr (keys a) (ix_create_market :: wr_create p) l4 = (Ok None, l5) /\
    let c := mk_config (cp_min p) (cp_tick p) (replicate cs 0) orders orders events 0 0 in
    config_ok c /\ opens cs pid l5 a (init_market c) /\
    a_lamports (l5 payer) + total_rent = a_lamports (l payer) /\
    forall k, k ∉ payer :: keys a -> l5 k = l k.
Proof.
  intros l p Hok Hu Hw Hpay Hp Hmin Htick.
  destruct (create_four l Hu Hw Hpay) as (l4&Hrun&Hl4).
  pose proof Hkeys as Hd. apply NoDup_cons in Hd as [Hpk Hd].
  pose proof Hpk as Hp'. unfold keys in Hp'. rewrite !not_elem_of_cons in Hp'. destruct Hp' as (P1&P2&P3&P4&_).
  pose proof Hd as Hd'. unfold keys in Hd'.
  rewrite !NoDup_cons, !not_elem_of_cons in Hd'. destruct Hd' as ((D1&D2&D3&_)&(D4&D5&_)&(D6&_)&_).
  assert (Eq : l4 (ac_queue a) = mk_account pid (min_balance (Z.of_nat queue_size)) (replicate queue_size 0))
    by (rewrite Hl4; unfold after_create; sa; done).
  assert (Eb : l4 (ac_bids a) = mk_account pid (min_balance (Z.of_nat slab_size)) (replicate slab_size 0))
    by (rewrite Hl4; unfold after_create; sa; done).
  assert (Ea : l4 (ac_asks a) = mk_account pid (min_balance (Z.of_nat slab_size)) (replicate slab_size 0))
    by (rewrite Hl4; unfold after_create; sa; done).
  assert (Em : l4 (ac_market a) = mk_account pid (min_balance 120) (replicate 120 0))
    by (rewrite Hl4; unfold after_create; sa; done).
  pose proof Hsize as Hsz. apply C41_allocation_size in Hsz as [Ho Hsz].
  assert (Hok4 : ledger_ok l4).
  { intros k. rewrite Hl4. unfold after_create.
    assert (Hz : forall n, bytes_ok (replicate n 0)) by (intros n; apply Forall_replicate; done).
    repeat case_match; cbn [a_data]; rewrite ?replicate_length; try (split; [apply Hz|lia]); apply Hok. }
  assert (Hcr : exists l5, instr (keys a ++ []) (ix_create_market :: wr_create p) l4 = (Ok None, l5)).
  { apply C35_create_iff; [done|done|]. rewrite Eq, Eb, Ea, Em. cbn [a_owner a_data a_lamports].
    split; [done|]. split; [done|]. split; [|split; [done|split; [|split]]].
    - intros k Hk. assert (Hk' : k = ac_market a \/ k = ac_queue a \/ k = ac_bids a \/ k = ac_asks a) by (revert Hk; clear; set_solver).
      destruct Hk' as [-> | [-> | [-> | ->]]]; rewrite ?Eq, ?Eb, ?Ea, ?Em; cbn [a_data a_lamports];
        rewrite replicate_length; apply Hrent || apply (Hrent 120).
    - split; [by rewrite replicate_length|]. by vm_compute.
    - split; [|split; [done|]].
      + exists events. rewrite replicate_length. done.
      + unfold read_tag. rewrite replicate_length. unfold queue_size, queue_allocation_size, queue_header_len.
        destruct (Nat.ltb_spec (events * event_size cs + 24 + 8) 8); [lia|].
        rewrite take_replicate, Nat.min_l by lia. by vm_compute.
    - replace slab_size with (S (slab_size - 1)) by (clear - Hsz; lia). done. }
  destruct Hcr as (l5&Hcr). exists l4, l5. rewrite app_nil_r in Hcr. split; [exact Hrun|]. split; [exact Hcr|].
  cbv zeta. split; [|split; [|split]].
  - destruct Hp as [Hp1 Hp2]. destruct Hmax as [Hm1 Hm2].     assert (orders <= slab_size)%nat by (clear - Hsz; lia).
    assert (events <= queue_size)%nat.
    { clear. unfold queue_size, queue_allocation_size, event_size, fill_len.
      replace (events * (40 + 2 * cs))%nat with (events + events * (39 + 2 * cs))%nat by lia. lia. }
    unfold config_ok. cbn [c_min c_tick c_bids c_asks c_events]. clear - Hp1 Hp2 Hm1 Hm2 H H0 Ho Hev Hmin Htick.
    unfold queue_size in *. generalize dependent (queue_allocation_size cs events). intros qs. lia.
  - rewrite <- (app_nil_r (keys a)) in Hcr.
    apply (C35_create_opens cs same_id rent_exempt pid l4 a p [] None l5 orders 0 orders 0 events); try done.
    + by rewrite Em.
    + unfold zeroed. rewrite Eq. by apply Forall_replicate.
    + unfold zeroed. rewrite Eb. by apply Forall_replicate.
    + unfold zeroed. rewrite Ea. by apply Forall_replicate.
    + rewrite Eq. cbn. by rewrite replicate_length.
    + rewrite Eb. cbn. rewrite replicate_length. unfold slab_room. clear - Hsz Ho Hcs. nia.
    + rewrite Ea. cbn. rewrite replicate_length. unfold slab_room. clear - Hsz Ho Hcs. nia.
  - rewrite <- (app_nil_r (keys a)) in Hcr.
    destruct (C35_create_effect _ _ _ _ _ _ _ _ _ _ Hp Hcr) as (_&_&_&_&Hf&_).
    rewrite Hf, Hl4 by done. unfold after_create. rewrite N.eqb_refl. cbn [a_lamports].
    clear - Hpay. generalize dependent total_rent. intros. lia.
  - intros k Hk. apply not_elem_of_cons in Hk as [Hk1 Hk2]. rewrite <- (app_nil_r (keys a)) in Hcr.
    destruct (C35_create_effect _ _ _ _ _ _ _ _ _ _ Hp Hcr) as (_&_&_&_&Hf&_).
    rewrite Hf, Hl4 by done. unfold after_create. unfold keys in Hk2. rewrite !not_elem_of_cons in Hk2.
    destruct Hk2 as (?&?&?&?&_). by sa.
Qed.
(** But the transaction as built fails: its last instruction lacks an account (C53).  It
    then leaves no trace: no account is created and no rent is paid. *)
Theorem C64_transaction_refuted : forall l authority id_len min tick,
  Forall (unused l) (keys a) -> wallet l payer -> total_rent <= a_lamports (l payer) ->
  tx_run cs same_id rent_exempt pid
    (js_create_market_tx pid min_balance payer a authority (Z.of_nat cs) (Z.of_nat events) (Z.of_nat orders) id_len min tick) l
  = (Err PE_NotEnoughAccountKeys, l).
Proof.
  intros l au id_len min tick Hu Hw Hpay. destruct (create_four l Hu Hw Hpay) as (l4&Hrun&_).
  unfold tx_run, js_create_market_tx. cbn [fst snd]. set (sg := [_;_;_;_]) in *.
  set (ixs := js_create_accounts _ _ _ _ _ _ _) in *. clearbody ixs.
  assert (H : forall l0 l1, tx_steps cs same_id rent_exempt pid sg (map Create ixs) l0 = Ok l1 ->
    tx_steps cs same_id rent_exempt pid sg (map Create ixs ++ [Program (js_create_market a au (Z.to_N (Z.of_nat cs)) id_len min tick 0)]) l0
    = Err PE_NotEnoughAccountKeys).
  { clear. induction ixs as [|i ixs IH]; intros l0 l1; [done|]. cbn [map app tx_steps].
    destruct (existsb _ _); [|done]. destruct (system_create i l0); cbn [rbind]; [apply IH|done..]. }
  by rewrite (H _ _ Hrun).
Qed.
End Create.
End Bindings.
Print Assumptions C64_accounts_fit.
Print Assumptions C64_transaction_refuted.
(** A wallet, a rent of one lamport per byte, a market for 3 orders a side and 5 events. *)
Definition b_rent (lamports : N) (n : nat) : bool := N.of_nat n <=? lamports.
Definition b_l : ledger := fun k => if k =? 77 then mk_account system_id 5000 [] else mk_account system_id 0 [].
Definition b_a : accounts := mk_accounts 1 2 3 4.
Example C64_example :
  (forall n, b_rent (Z.to_N (Z.of_nat n)) n = true) /\
  slab_allocation_size 32 3 = Ok 272%nat /\ queue_size 32 5 = 552%nat /\ NoDup (77 :: keys b_a) /\
  Forall (unused b_l) (keys b_a) /\ wallet b_l 77 /\ ledger_ok b_l /\
  total_rent 32 Z.to_N 5 272 = 1216 /\ create_typed (mk_create_params 2 1) /\
  exists l4, tx_steps 32 e_same b_rent 9 [2; 3; 4; 1] (map Create (js_create_accounts 9 Z.to_N 77 b_a 32 5 3)) b_l = Ok l4 /\
    a_lamports (l4 77) = 3784 /\ length (a_data (l4 3)) = 272%nat /\
    fst (process_instruction 32 e_same b_rent 9 (keys b_a) (ix_create_market :: wr_create (mk_create_params 2 1)) l4) = Ok None.
Proof.
  split; [intros n; unfold b_rent; apply N.leb_le; lia|]. split; [done|]. split; [done|].
  split; [repeat constructor; set_solver|]. split; [repeat constructor|]. split; [done|].
  split; [intros k; unfold b_l; destruct (k =? 77); cbn; split; [constructor|done|constructor|done]|].
  split; [done|]. split; [by vm_compute|].
  eexists. split; [vm_compute; reflexivity|]. by vm_compute.
Qed.
