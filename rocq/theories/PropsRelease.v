(** * PropsRelease.v: the build without overflow checks (C84)

    [execute], [exec], [slab_from_buffer] ... are the program with overflow checks, as in
    the rest of the model; the names ending in [_r] (Release.v) are the program built
    without them: additions and subtractions wrap around, shifts take their distance modulo
    128.  Deployed Solana programs are built that way. *)
From Verif Require Import Machine Bytes Critbit EventQueue OrderBook Market Spec MarketProofs MarketFacts HistoryProps
  Layout LayoutProofs Borsh BorshProofs Ledger LedgerSpec LedgerProofs WorldProofs FollowProofs Release ReleaseProofs
  LedgerFacts LedgerFacts2 LedgerExample ExampleRuns PropsMarket PropsLedger ReleaseFacts ReleaseWorld.
From Coq Require Import ZifyBool ZifyNat ZifyN.

(** ** any ledger, any transaction: the two builds differ at most where the checked one
    stops because of an overflow *)
Theorem C84_same : forall cs same_id rent_exempt pid ms data l,
  fst (execute cs same_id rent_exempt pid ms data l) <> Panic POverflow ->
  execute_r cs same_id rent_exempt pid ms data l = execute cs same_id rent_exempt pid ms data l.
Proof. intros cs same_id rent_exempt pid ms data l H. destruct (execute_ref cs same_id rent_exempt pid ms data l) as [E|E]; [contradiction|exact E]. Qed.

(** ** markets: no request overflows, so the builds do not differ *)
Theorem C84_market : forall (C : Type) (same_id : C -> C -> bool) c m o,
  reachable same_id c m -> op_typed o -> exec_r same_id o m = exec same_id o m.
Proof.
  intros C same_id c m o Hr Ht. destruct (exec_ref same_id o m) as [E|E]; [by apply (exec_noov same_id c m o Hr Ht) in E|exact E].
Qed.

(** The answers to a list of requests, and the market after them. *)
Fixpoint session {C} (run1 : op C -> market C -> res (option summary) * market C) (m : market C) (os : list (op C))
    : list (res (option summary)) * market C :=
  match os with
  | [] => ([], m)
  | o :: os => let '(r, m1) := run1 o m in let '(rs, m2) := session run1 m1 os in (r :: rs, m2)
  end.
Theorem C84_history : forall (C : Type) (same_id : C -> C -> bool) c os,
  config_ok c -> Forall op_typed os -> N.of_nat (length os) < p63 ->
  session (exec_r same_id) (init_market c) os = session (exec same_id) (init_market c) os.
Proof.
  intros C same_id c os Hc Hos Hlen.
  assert (G : forall os m log, Forall op_typed os -> history same_id c log m -> N.of_nat (length log + length os) < p63 ->
    session (exec_r same_id) m os = session (exec same_id) m os).
  { clear os Hos Hlen. induction os as [|o os IH]; intros m log Hos Hh Hl; [done|]. apply Forall_cons in Hos as [Ho Hos]. cbn [length] in Hl.
    cbn [session]. rewrite (C84_market C same_id c m o); [|split; [done|exists log; split; [done|lia]]|done].
    destruct (exec same_id o m) as [r m'] eqn:E. rewrite (IH m' (log ++ [mk_entry o r (emitted m m')])); [done|done| |].
    - by eapply steps_snoc.
    - rewrite app_length. cbn [length]. lia. }
  apply (G os (init_market c) []); [done|constructor|cbn; lia].
Qed.

Notation provided_steps cs step := (steps_of (fun l lb l' => step l lb l' /\ provided cs l lb)).
(** ** accounts *)
Section Ledger.
Context (cs : nat) (same_id : bytes -> bytes -> bool) (rent_exempt : N -> nat -> bool) (pid : N).
(** An account opens in one build exactly when it opens in the other, with the same
    contents (an account that is too short opens in neither). *)
Theorem C84_open : N.of_nat cs < p32 -> forall buf t,
  (forall s, slab_from_buffer_r cs buf t = Ok s <-> slab_from_buffer cs buf t = Ok s) /\
  (forall q, queue_from_buffer_r cs buf t = Ok q <-> queue_from_buffer cs buf t = Ok q).
Proof. intros Hcs buf t. split; intros x; [by apply slab_open_iff|by apply queue_open_iff]. Qed.

(** Creating a market, with whatever accounts and parameters. *)
Theorem C84_create : forall ms ks reg d l,
  map mt_key ms = ks ++ [reg] ->
  execute_r cs same_id rent_exempt pid ms (ix_create_market :: d) l =
  execute cs same_id rent_exempt pid ms (ix_create_market :: d) l.
Proof. intros ms ks reg d l Hk. apply C84_same. eapply execute_noov; [exact Hk|]. apply create_instr_noov. Qed.

(** Any transaction, with whatever accounts and data, that names as its market an account
    which is no live market or the account of a market in a state it can reach.  When it
    closes a market, the balances fit in 64 bits. *)
Theorem C84_transaction : forall ms ks reg data l,
  ledger_ok l -> bytes_ok data -> map mt_key ms = ks ++ [reg] ->
  (forall a, ac_market a = hd 0 ks -> records pid l a ->
     (exists c m, opens cs pid l a m /\ reachable same_id c m) /\
     a_lamports (l (nth 4 ks 0)) + balances l a < p64) ->
  execute_r cs same_id rent_exempt pid ms data l = execute cs same_id rent_exempt pid ms data l.
Proof.
  intros ms ks reg data l Hok Hd Hk H. apply C84_same. eapply execute_noov; [exact Hk|].
  apply (any_noov cs same_id rent_exempt pid l Hok (hd 0 ks)) with (nth 4 ks 0); try done; intros a Ha Hr; by apply (H a Ha Hr).
Qed.

(** Whatever the ledger: in the release build too a failed transaction changes nothing, and
    no transaction changes the sum of the balances. *)
Theorem C84_safe : forall ms data l r l',
  execute_r cs same_id rent_exempt pid ms data l = (r, l') ->
  (is_ok r = false -> l' = l) /\
  total_lamports (remove_dups (map mt_key ms)) l' = total_lamports (remove_dups (map mt_key ms)) l.
Proof.
  intros ms data l r l' H. unfold execute_r in H.
  destruct (entrypoint_r _ _ _ _ _ _ _) as [[r1| | |] l1]; try (by injection H as <- <-).
  destruct (runtime_ok pid ms l l1) eqn:E; [|by injection H as <- <-]. injection H as <- <-. split; [done|].
  unfold runtime_ok in E. apply andb_prop in E as [_ E]. by apply N.eqb_eq.
Qed.

(** ** Whole histories of a ledger
    [steps_of (fun l lb l' => ... l lb l' /\ provided l lb) l0 tr l]: the steps [tr] lead from
    [l0], when the program owned no account, to [l]; markets were created on zeroed
    accounts, two of the size of a slab.  The release build allows exactly the sequences of
    steps, with the same answers, that the checked build allows; so what is proved of the
    latter ([world], [trace]) holds where the former is deployed. *)
Theorem C84_ledger : (forall n, rent_exempt 0 n = false) -> cs <> 0%nat -> forall l0 tr l,
  ledger_ok l0 -> (forall k, a_owner (l0 k) <> pid) -> N.of_nat (length tr) < p63 ->
  provided_steps cs (ledger_step_r cs same_id rent_exempt pid) l0 tr l <->
  provided_steps cs (ledger_step cs same_id rent_exempt pid) l0 tr l.
Proof.
  intros Hrent Hcs l0 tr l Hok Hno Hlen. split.
  - intros H. by apply (steps_healthy cs same_id rent_exempt pid Hcs Hrent l0 tr l).
  - apply steps_of_mono. intros l1 lb l2 [H1 H2]. split; [by apply step_to_r|done].
Qed.
(** Every ledger that occurs is one the other properties speak of, and every market on it is
    in a state that they speak of. *)
Theorem C84_world : (forall n, rent_exempt 0 n = false) -> cs <> 0%nat -> forall l0 tr l,
  ledger_ok l0 -> (forall k, a_owner (l0 k) <> pid) -> N.of_nat (length tr) < p63 ->
  provided_steps cs (ledger_step_r cs same_id rent_exempt pid) l0 tr l ->
  trace cs same_id rent_exempt pid l0 tr l /\ world cs same_id rent_exempt pid l /\
  forall a, records pid l a -> exists c m, opens cs pid l a m /\ reachable same_id c m.
Proof.
  intros Hrent Hcs l0 tr l Hok Hno Hlen H.
  destruct (steps_healthy cs same_id rent_exempt pid Hcs Hrent l0 tr l Hok Hno Hlen H) as [Hs [_ Hh]].
  assert (Ht : trace cs same_id rent_exempt pid l0 tr l).
  { apply steps_of_trace. revert Hs. apply steps_of_mono. by intros l1 lb l2 [? _]. }
  split; [exact Ht|]. split; [by exists l0, tr|].
  intros a Ha. destruct (Hh a Ha) as (c & m & log & Ho & Hc & Hhist & Hl). exists c, m. split; [done|].
  split; [done|]. exists log. split; [done|lia].
Qed.
End Ledger.

(** ** Examples *)
(** A session with trades, a full queue, a repeated cancellation and a refused order. *)
Definition rel_ops : list (op N) :=
  [ex_new Ask 100 100000 7 10 1 false true DecrementTake; ex_new Ask 100 100000 7 10 1 false true DecrementTake;
   CancelOrder h_id_a3; CancelOrder h_id_a3; ex_new Bid 30 100000 9 10 2 false true CancelProvide;
   ex_new Bid (2 ^ 64 - 1) (2 ^ 64 - 1) 9 (2 ^ 64 - 1) 3 false true CancelProvide; ConsumeEvents 7; MassCancelOrders [5]].
Example C84_example_history :
  config_ok ex_cfg /\ forallb op_typedb rel_ops = true /\
  map is_ok (fst (session (exec_r N.eqb) (init_market ex_cfg) rel_ops)) =
    [true; true; true; false; true; true; true; false] /\
  session (exec_r N.eqb) (init_market ex_cfg) rel_ops = session (exec N.eqb) (init_market ex_cfg) rel_ops.
Proof. split; [exact ex_cfg_ok|]. by vm_compute. Qed.

(** The hypotheses of [C84_transaction] hold on the ledger of the examples. *)
Lemma e_rec_a a : ac_market a = 1 -> records e_pid e_l4 a -> a = e_a.
Proof. intros Ha Hr. eapply records_unique; [exact Hr|exact (opens_records _ _ _ _ _ e_opens_a)|done]. Qed.
Example C84_example_transaction :
  ledger_ok e_l4 /\
  (forall a, ac_market a = hd 0 (keys e_a ++ [6]) -> records e_pid e_l4 a ->
     (exists c m, opens e_cs e_pid e_l4 a m /\ reachable e_same c m) /\
     a_lamports (e_l4 (nth 4 (keys e_a ++ [6]) 0)) + balances e_l4 a < p64) /\
  let i := build_new_order e_a 5 (mk_params 10 1000000 (e_price 3) Bid 5 (e_cb 1) false true DecrementTake) in
  fst (execute_r e_cs e_same e_rent e_pid (i_metas i) (i_data i) e_l4) =
    Ok (Some (mk_summary (Some (e_price 3 * p64 + p64 - 2)) 10 30 10)).
Proof.
  split; [exact e_ok4|]. split; [|by vm_compute]. intros a Ha Hr. rewrite (e_rec_a a Ha Hr).
  split; [|by vm_compute]. destruct C51_example as (m&_&Ho&Hr'&_). by exists e_cfg, m.
Qed.

(** The hypotheses of [C84_ledger] and [C84_world] hold of a history with two markets. *)
Definition rel_steps : list label :=
  [Env []; Call (keys e_a ++ []) (e_create e_a) None; Call (keys e_b ++ []) (e_create e_b) None;
   Call (keys e_a ++ []) (op_data (e_order Bid 10 4)) (Some e_sum3);
   Call (keys e_a ++ []) (op_data (e_order Ask 3 4)) (Some e_sum4)].
Lemma total_le ks : forall L l, NoDup ks -> (forall k, k ∈ ks -> k ∈ L \/ a_lamports (l k) = 0) ->
  total_lamports ks l <= total_lamports L l.
Proof.
  induction ks as [|k ks IH]; intros L l Hd H; [apply N.le_0_l|].
  apply NoDup_cons in Hd as [Hk Hd]. cbn [total_lamports fold_right]. fold (total_lamports ks l).
  destruct (H k ltac:(by left)) as [Hin|Hz].
  - apply elem_of_Permutation in Hin as [L' HL]. rewrite (total_perm e_cs e_same e_rent _ _ l HL). cbn [total_lamports fold_right].
    fold (total_lamports L' l). apply N.add_le_mono_l, IH; [done|]. intros k' Hk'.
    destruct (H k' ltac:(by right)) as [Hin|?]; [left|by right]. rewrite HL in Hin.
    apply elem_of_cons in Hin as [-> |]; done.
  - rewrite Hz, N.add_0_l. apply IH; [done|]. intros k' Hk'. apply H. by right.
Qed.
Lemma e_total l : (forall k, a_lamports (l k) = a_lamports (e_l0 k)) -> forall ks, NoDup ks -> total_lamports ks l < p63.
Proof.
  intros E ks Hd. rewrite (total_same e_cs e_same e_rent ks e_l0 l) by (intros; apply E).
  eapply N.le_lt_trans; [apply (total_le ks [1; 2; 3; 4; 5; 6; 11; 12; 13; 14])|by vm_compute]; [done|].
  intros k _. unfold e_l0. repeat (match goal with |- context [k =? ?x] => destruct (N.eqb_spec k x) as [-> |] end;
    [left; apply elem_of_list_In; cbn; tauto|]). by right.
Qed.
Lemma e_kept ks t d r l : fst (e_instr ks (t :: d) l) = Ok r -> t <> ix_close_market ->
  forall k, a_lamports (snd (e_instr ks (t :: d) l) k) = a_lamports (l k).
Proof.
  intros H Ht. destruct (e_instr ks (t :: d) l) as [r' l'] eqn:E. cbn in *.
  exact (instr_lamports e_cs e_same e_rent e_pid l ks t d r' l' E Ht).
Qed.
Lemma e_creates b a p more : Call (keys b ++ []) (e_create b) None = Call (keys a ++ more) (ix_create_market :: wr_create p) None -> a = b.
Proof. destruct a, b. cbn [keys app]. by intros [= <- <- <- <- _ _]. Qed.
Lemma e_first : ledger_step e_cs e_same e_rent e_pid e_genesis (Env []) e_l0.
Proof.
  constructor; [|exact e_ok0|done]. intros k. apply (e_l0_cases (fun x => env_change e_pid (e_genesis k) x));
    first [right; right; split_and!; [done|done|apply zeros_0] | right; left; done].
Qed.
Lemma e_total0 ks : NoDup ks -> total_lamports ks e_genesis < p63.
Proof.
  intros Hd. eapply N.le_lt_trans; [apply (total_le ks [])|by vm_compute]; [done|]. by right.
Qed.
Lemma e_more tr l lb l' : provided_steps e_cs (ledger_step_r e_cs e_same e_rent e_pid) e_genesis tr l ->
  ledger_step e_cs e_same e_rent e_pid l lb l' -> provided e_cs l lb ->
  provided_steps e_cs (ledger_step_r e_cs e_same e_rent e_pid) e_genesis (tr ++ [lb]) l'.
Proof. intros H1 H2 H3. eapply steps_more; [exact H1|]. split; [by apply step_to_r|exact H3]. Qed.
Example C84_example_ledger :
  provided_steps e_cs (ledger_step_r e_cs e_same e_rent e_pid) e_genesis rel_steps e_l4 /\
  ledger_ok e_genesis /\ (forall k, a_owner (e_genesis k) <> e_pid) /\
  map o_qty (resting e_ma Bid) = [7] /\ opens e_cs e_pid e_l4 e_a e_ma.
Proof.
  assert (L1 : forall k, a_lamports (e_l1 k) = a_lamports (e_l0 k)) by (eapply e_kept; by vm_compute).
  assert (L2 : forall k, a_lamports (e_l2 k) = a_lamports (e_l1 k)) by (eapply e_kept; by vm_compute).
  assert (L3 : forall k, a_lamports (e_l3 k) = a_lamports (e_l2 k)) by (eapply e_kept; by vm_compute).
  split.
  - change rel_steps with ((((([] ++ [Env []]) ++ [Call (keys e_a ++ []) (e_create e_a) None]) ++
      [Call (keys e_b ++ []) (e_create e_b) None]) ++ [Call (keys e_a ++ []) (op_data (e_order Bid 10 4)) (Some e_sum3)]) ++
      [Call (keys e_a ++ []) (op_data (e_order Ask 3 4)) (Some e_sum4)]).
    apply (e_more _ e_l3); [apply (e_more _ e_l2); [apply (e_more _ e_l1); [apply (e_more _ e_l0); [apply (e_more _ e_genesis); [constructor|..]|..]|..]|..]|..].
    + exact e_first.
    + split; [by intros a p [more [=]]|]. exact e_total0.
    + exact e_step1.
    + split; [|apply e_total; intros k; done]. intros a p [more E]. apply (e_creates e_a) in E as ->.
      split_and!; [apply zeros_0..|]. exists 2%nat, 0%nat, 2%nat, 0%nat. split; unfold slab_room; cbn; lia.
    + exact e_step2.
    + split; [|apply e_total; exact L1]. intros a p [more E]. apply (e_creates e_b) in E as ->.
      split_and!; [by vm_compute; repeat constructor..|]. exists 2%nat, 0%nat, 2%nat, 0%nat. split; unfold slab_room; vm_compute; lia.
    + exact e_step3.
    + split; [by intros a p [more [=]]|]. apply e_total. intros k. by rewrite L2, L1.
    + exact e_step4.
    + split; [by intros a p [more [=]]|]. apply e_total. intros k. by rewrite L3, L2, L1.
  - split; [|split]; [|done|split; [by vm_compute|exact e_opens_a]]. intros k. cbn. split; [constructor|done].
Qed.

(** The builds do differ on accounts that are not those of a market: here the bids account
    recorded by the market is too short, and its first byte is not the tag of a bids
    account. *)
Definition short_l : ledger := fun k => if k =? 3 then mk_account 9 30 [0] else e_l4 k.
Example C84_example_differ :
  let i := build_cancel_order e_a 5 7 in
  fst (execute e_cs e_same e_rent e_pid (i_metas i) (i_data i) short_l) = Panic POverflow /\
  fst (execute_r e_cs e_same e_rent e_pid (i_metas i) (i_data i) short_l) = Err AccountTagMismatch.
Proof. by vm_compute. Qed.

Print Assumptions C84_same.
Print Assumptions C84_market.
Print Assumptions C84_history.
Print Assumptions C84_open.
Print Assumptions C84_create.
Print Assumptions C84_transaction.
Print Assumptions C84_ledger.
Print Assumptions C84_world.
Print Assumptions C84_safe.
