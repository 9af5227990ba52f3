(** * PropsSchedule.v: transactions without a conflict can run in any order (C74)

    [conflict], [reordered] and [run_schedule] are defined in ScheduleSpec.v, from the
    account metas of the instructions alone. *)
From Verif Require Import Machine Bytes Critbit EventQueue OrderBook Market Spec Layout Borsh Ledger LedgerSpec
  LedgerProofs WorldProofs LedgerExample PropsLedger ScheduleSpec ScheduleProofs.
From Coq Require Import ZifyBool ZifyNat ZifyN.

Section Props.
Context (cs : nat) (same_id : bytes -> bytes -> bool) (rent_exempt : N -> nat -> bool) (pid : N).
Notation run1 := (run1 cs same_id rent_exempt pid).
Notation run_schedule := (run_schedule cs same_id rent_exempt pid).
Notation world := (world cs same_id rent_exempt pid).
Notation records := (records pid).

(** A transaction has all its effects or none: when the ledger changed, every instruction
    succeeded. *)
Theorem C74_atomic : forall t l k, snd (run1 t l) k <> l k ->
  length (fst (run1 t l)) = length t /\ forall r, r ∈ fst (run1 t l) -> is_ok r = true.
Proof.
  intros t l k. unfold ScheduleSpec.run1.
  assert (H : forall is l, match run_list cs same_id rent_exempt pid t is l with
    | (rs, Some _) => length rs = length is /\ forall r, r ∈ rs -> is_ok r = true | _ => True end).
  { clear. induction is as [|i is IH]; intros l; cbn [run_list]; [split; [done|]; set_solver|].
    destruct (execute _ _ _ _ _ _ l) as [[r|e|p|] l1]; try done. specialize (IH l1).
    destruct (run_list _ _ _ _ t is l1) as [rs [l2|]]; [|done]. cbn. destruct IH as [-> IH]. split; [done|].
    intros r' Hr. apply elem_of_cons in Hr as [->|Hr]; [done|auto]. }
  specialize (H t l). destruct (run_list _ _ _ _ t t l) as [rs [l'|]]; cbn; done.
Qed.
(** It reads only the accounts it names: on two ledgers that have these accounts in
    common, the answers and the accounts afterwards are the same. *)
Theorem C74_reads : forall t l l',
  (forall k, k ∈ names t -> l k = l' k) ->
  fst (run1 t l) = fst (run1 t l') /\
  (forall k, k ∈ names t -> snd (run1 t l) k = snd (run1 t l') k).
Proof. apply run1_same. Qed.
(** It changes only accounts that it names and marks as writable. *)
Theorem C74_writes : forall t l k,
  snd (run1 t l) k <> l k -> k ∈ names t /\ may_write t k = true.
Proof.
  intros i l k H. destruct (decide (k ∈ names i)) as [Hk|Hk]; [|by destruct H; apply run1_frame; left].
  split; [done|]. destruct (may_write i k) eqn:E; [done|]. destruct H. apply run1_frame. by right.
Qed.
(** Two transactions without a conflict: each gets the answers it would have got alone,
    and the order does not matter. *)
Theorem C74_commute : forall t u l, ~ conflict t u ->
  fst (run1 u (snd (run1 t l))) = fst (run1 u l) /\
  fst (run1 t (snd (run1 u l))) = fst (run1 t l) /\
  same_ledger (snd (run1 u (snd (run1 t l)))) (snd (run1 t (snd (run1 u l)))).
Proof. apply run1_commute. Qed.
(** Two schedules of the same transactions that agree on the order of those in conflict:
    every transaction gets the same answers and the ledgers at the end are the same. *)
Theorem C74_schedules : forall s s' l,
  NoDup (map fst s) -> reordered s s' ->
  (forall n r, (n, r) ∈ fst (run_schedule s l) <-> (n, r) ∈ fst (run_schedule s' l)) /\
  map fst (fst (run_schedule s l)) = map fst s /\
  same_ledger (snd (run_schedule s l)) (snd (run_schedule s' l)).
Proof.
  intros s s' l Hn Hr. destruct (run_reordered cs same_id rent_exempt pid s s' l (NoDup_fmap_1 fst s Hn) Hr) as [P S].
  split_and!; [intros n r; by rewrite P| |done]. clear. revert l.
  induction s as [|[n i] s IH]; intros l; [done|]. cbn. destruct (run1 i l) as [r l1]. specialize (IH l1).
  destruct (run_schedule s l1). cbn in *. by rewrite IH.
Qed.
Lemma names_of (P : N -> Prop) t : (forall i, i ∈ t -> forall k, k ∈ names [i] -> P k) -> forall k, k ∈ names t -> P k.
Proof.
  intros H k Hk. apply elem_of_list_fmap in Hk as (m & -> & Hm). apply elem_of_list_In, in_flat_map in Hm as (i & Hi & Hm).
  apply elem_of_list_In in Hi. apply (H i Hi). apply elem_of_list_fmap. exists m. split; [done|].
  apply elem_of_list_In, in_flat_map. exists i. split; [by left|done].
Qed.
(** Transactions on two markets never conflict unless a register is shared. *)
Theorem C74_markets : rent_ok rent_exempt -> forall l a a' reg reg' t u,
  world l -> records l a -> records l a' -> a <> a' ->
  reg <> reg' -> reg ∉ keys a' -> reg' ∉ keys a ->
  market_transaction a reg t -> market_transaction a' reg' u -> ~ conflict t u.
Proof.
  intros Hrent l a a' reg reg' t u W Ra Ra' Hne Hrr Hr Hr' [_ Ht] [_ Hu] (k & Ki & Kj & _).
  assert (Hin : forall a reg t, (forall i, i ∈ t -> market_instruction a reg i) -> forall k, k ∈ names t -> k ∈ keys a \/ k = reg).
  { clear. intros a reg t Ht. apply (names_of (fun k => k ∈ keys a \/ k = reg)). intros i Hi k.
    destruct (Ht i Hi) as [[p ->]|[[p ->]|[[p ->]|[p ->]]]]; unfold names; cbn; unfold keys; set_solver. }
  destruct (Hin _ _ _ Ht _ Ki) as [H1| ->], (Hin _ _ _ Hu _ Kj) as [H2| ->]; try done.
  apply Hne. by eapply C52_disjoint.
Qed.
(** Two transactions on one market do conflict: their order counts. *)
Theorem C74_same_market : forall a reg reg' t u,
  market_transaction a reg t -> market_transaction a reg' u -> conflict t u.
Proof.
  intros a reg reg' t u Ht Hu. exists (ac_queue a).
  assert (Hq : forall a reg t, market_transaction a reg t -> ac_queue a ∈ names t /\ may_write t (ac_queue a) = true).
  { clear. intros a reg [|i t] [Hne Ht]; [done|]. specialize (Ht i ltac:(set_solver)). unfold names, may_write, metas. cbn [flat_map].
    rewrite map_app, existsb_app. destruct Ht as [[p ->]|[[p ->]|[[p ->]|[p ->]]]]; cbn;
      rewrite N.eqb_refl, ?andb_true_r, ?andb_false_r, ?orb_true_r, ?orb_true_l; (split; [set_solver|done]). }
  destruct (Hq _ _ _ Ht) as [? ?]. destruct (Hq _ _ _ Hu) as [? ?]. auto.
Qed.
End Props.

(** ** A concrete case *)
(** Two orders on the first market with register 5 and a crank on the second one with
    register 7, in two orders. *)
Definition e_bid : instruction := build_new_order e_a 5 (mk_params 10 1000000 (e_price 4) Bid 5 (e_cb 1) false true DecrementTake).
Definition e_ask : instruction := build_new_order e_a 5 (mk_params 3 1000000 (e_price 4) Ask 5 (e_cb 2) false true DecrementTake).
Definition e_other : instruction := build_new_order e_b 7 (mk_params 2 1000000 (e_price 9) Ask 5 (e_cb 3) false true DecrementTake).
Definition e_l2r : ledger := set_account 7 (mk_account 9 5 (zeros 42)) e_l2.
Definition e_s1 : schedule := [(0%nat, [e_bid]); (1%nat, [e_ask; e_ask]); (2%nat, [e_other])].
Definition e_s2 : schedule := [(0%nat, [e_bid]); (2%nat, [e_other]); (1%nat, [e_ask; e_ask])].
Example C74_case : reordered e_s1 e_s2 /\ conflict [e_bid] [e_ask; e_ask] /\ ~ conflict [e_ask; e_ask] [e_other].
Proof.
  assert (Hno : ~ conflict [e_ask; e_ask] [e_other]).
  { intros (k & H1 & H2 & _). revert H1 H2. unfold names. cbn. set_solver by lia. }
  split_and!; [|exists 2; split_and!; [cbn; set_solver..|by left]|done]. split.
  - unfold e_s1, e_s2. apply perm_skip, perm_swap.
  - intros x y (s1 & s2 & s3 & E) Hc. unfold e_s1 in E.
    destruct s1 as [|b1 s1]; cbn in E.
    + injection E as <- E. destruct s2 as [|b2 s2]; cbn in E.
      * injection E as <- _. by exists [], [(2%nat, [e_other])], [].
      * injection E as _ E. destruct s2 as [|b3 s2]; cbn in E; [|by injection E as _ E; destruct s2].
        injection E as <- _. by exists [], [], [(1%nat, [e_ask; e_ask])].
    + injection E as _ E. destruct s1 as [|b2 s1]; cbn in E.
      * injection E as <- E. destruct s2 as [|b3 s2]; cbn in E; [|by injection E as _ E; destruct s2].
        injection E as <- _. by destruct Hno.
      * injection E as _ E. destruct s1 as [|b3 s1]; cbn in E; [injection E as _ E; by destruct s2|].
        injection E as _ E. by destruct s1.
Qed.
Definition e_totals (r : res (option summary)) : option (N * N * N) :=
  match r with Ok (Some s) => Some (total_base_qty s, total_quote_qty s, total_base_qty_posted s) | _ => None end.
Example C74_runs :
  map (fun x => map e_totals (snd x)) (fst (run_schedule e_cs e_same e_rent e_pid e_s1 e_l2r)) =
  [[Some (10, 40, 10)]; [Some (3, 12, 0); Some (3, 12, 0)]; [Some (2, 18, 2)]].
Proof. vm_compute. reflexivity. Qed.
(** A transaction whose second instruction fails has no effect, although its first one
    succeeded. *)
Definition e_bad : instruction := build_cancel_order e_a 5 12345.
Example C74_rolled_back :
  map is_ok (fst (run1 e_cs e_same e_rent e_pid [e_bid; e_bad] e_l2r)) = [true; false] /\
  a_data (snd (run1 e_cs e_same e_rent e_pid [e_bid; e_bad] e_l2r) 3) = a_data (e_l2r 3) /\
  bool_decide (a_data (snd (run1 e_cs e_same e_rent e_pid [e_bid] e_l2r) 3) = a_data (e_l2r 3)) = false.
Proof. by vm_compute. Qed.

Print Assumptions C74_atomic.
Print Assumptions C74_reads.
Print Assumptions C74_writes.
Print Assumptions C74_commute.
Print Assumptions C74_schedules.
Print Assumptions C74_markets.
Print Assumptions C74_same_market.
