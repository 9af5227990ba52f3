(** * PropsPreview.v: what a client sees decides what it gets (C78) *)
From Verif Require Import Machine Bytes Critbit EventQueue OrderBook Market Spec ExchangeSpec ExchangeProofs
  MachineProofs MarketProofs Layout LayoutProofs Borsh BorshProofs Ledger LedgerSpec LedgerProofs WorldProofs FollowProofs
  LedgerFacts LedgerFacts2 LedgerExample PropsLayout PropsLedger PropsExchange JsClient ClientSpec JsProofs JsQueueProofs
  PropsClient JsLoad PropsLoad PreviewSpec.
From Coq Require Import ZifyBool ZifyNat ZifyN.

Lemma seen_order_eq sd (o : order bytes) : seen_order sd o = xorder_of sd o.
Proof.
  destruct o as [lf cb]. unfold seen_order, xorder_of, js_get_price, id_price, id_seq, o_id, o_qty, o_cb. cbn [fst snd].
  rewrite N.shiftr_div_pow2. done.
Qed.
Lemma seen_notice_eq ev : seen_notice (js_event_of ev) = notice_of ev.
Proof. by destruct ev. Qed.
Lemma seen_events_eq jq (es : list (event_ref bytes)) :
  (forall i ev, es !! i = Some ev -> js_peek_at jq (N.of_nat i) = Ok (js_event_of ev)) ->
  forall k i, (i + k = length es)%nat ->
  seen_events jq (N.of_nat i) k = Ok (map js_event_of (drop i es)).
Proof.
  intros H. induction k as [|k IH]; intros i Hi.
  - cbn. rewrite drop_ge by lia. done.
  - destruct (lookup_lt_is_Some_2 es i) as [ev Hev]; [lia|].
    cbn [seen_events]. rewrite (rbind_ok _ _ _ (H _ _ Hev)).
    replace (N.of_nat i + 1) with (N.of_nat (S i)) by lia.
    rewrite (rbind_ok _ _ _ (IH (S i) ltac:(lia))). by rewrite (drop_S _ _ _ Hev).
Qed.
Lemma rule_run_snoc {C} (same_id : C -> C -> bool) r os o x :
  snd (rule_run same_id r (os ++ [o]) x) = snd (rule same_id r o (snd (rule_run same_id r os x))).
Proof.
  revert x. induction os as [|o' os IH]; intros x; cbn.
  - by destruct (rule same_id r o x).
  - destruct (rule same_id r o' x) as [a1 x1]. specialize (IH x1).
    destruct (rule_run same_id r (os ++ [o]) x1), (rule_run same_id r os x1). done.
Qed.

Section Preview.
Context (cs : nat) (same_id : bytes -> bytes -> bool) (rent_exempt : N -> nat -> bool) (pid : N).
Notation instr := (process_instruction cs same_id rent_exempt pid).
Notation world := (world cs same_id rent_exempt pid).
Notation step := (ledger_step cs same_id rent_exempt pid).
Notation trace := (trace cs same_id rent_exempt pid).
Notation rent_ok := (forall n, rent_exempt 0 n = false).

Lemma view_loaded : rent_ok -> forall l0 a p more l1 tr l2 nb na ne,
  cs <> 0%nat -> world l0 -> create_typed p ->
  step l0 (Call (keys a ++ more) (ix_create_market :: wr_create p) None) l1 ->
  zeroed l0 (ac_queue a) -> zeroed l0 (ac_bids a) -> zeroed l0 (ac_asks a) ->
  length (a_data (l0 (ac_queue a))) = queue_allocation_size cs ne ->
  slab_allocation_size cs nb = Ok (length (a_data (l0 (ac_bids a)))) ->
  slab_allocation_size cs na = Ok (length (a_data (l0 (ac_asks a)))) ->
  trace l1 tr l2 -> Forall (fun lb => ~ closes (ac_market a) lb) tr ->
  N.of_nat (length (market_calls cs (ac_market a) tr)) < p63 ->
  let c := mk_config (cp_min p) (cp_tick p) (replicate cs 0) nb na ne 0 0 in
  exists m, opens cs pid l2 a m /\ wf_ledger cs pid l2 /\ reachable same_id c m /\
    view m = snd (rule_run same_id (rules_of c) (map fst (market_calls cs (ac_market a) tr)) opening) /\
    client_view l2 (ac_market a) (N.of_nat cs) =
      Ok (mk_market_state (ac_queue a) (ac_bids a) (ac_asks a) (cp_min p) (cp_tick p), view m).
Proof.
  intros Hrent l0 a p more l1 tr l2 nb na ne H1 H2 H3 H4 H5 H6 H7 H8 H9 H10 H11 H12 H13 c.
  destruct (loads cs same_id rent_exempt pid Hrent l0 a p more l1 tr l2 [] l2 nb na ne) as
    (m&log&jm&jb&ja&jq&Hh&Ho&Hmap&Ejm&Est&Ejb&Eb&Eja&Ea&Ejq&Ecnt&Epk&Eseq&Hcfg&Hr&W&_);
    try done; [apply trace_nil|by rewrite app_nil_r|by rewrite app_nil_r|].
  rewrite app_nil_r in Hmap. exists m. split_and!; try done.
  - assert (Hl : N.of_nat (length log) < p63).
    { apply (f_equal length) in Hmap. rewrite !map_length in Hmap. by rewrite Hmap. }
    destruct (C72_history bytes same_id c log m Hcfg Hh Hl) as (answers&Hrun&_).
    assert (E1 : map en_op log = map fst (market_calls cs (ac_market a) tr)).
    { apply (f_equal (map fst)) in Hmap. by rewrite !map_map in Hmap. }
    rewrite E1 in Hrun. by rewrite Hrun.
  - unfold client_view. rewrite (rbind_ok _ _ _ Ejm), (rbind_ok _ _ _ Ejb), (rbind_ok _ _ _ (Eb true)),
      (rbind_ok _ _ _ Eja), (rbind_ok _ _ _ (Ea false)).
    rewrite Est. cbn [ms_event_queue]. rewrite Est in Ejq. cbn [ms_event_queue] in Ejq.
    rewrite (rbind_ok _ _ _ Ejq). rewrite Ecnt.
    assert (Hlt : N.of_nat (length (pending m)) < 9007199254740992).
    { destruct (reachable_minv _ _ _ Hr) as (L&pend&Hm&_).
      rewrite (minv_pending _ _ _ _ Hm). destruct (mi_q _ _ _ _ Hm) as [Q1 Q2 Q3 Q4 Q5 Q6].
      lia. }
    unfold js_number. destruct (N.ltb_spec (N.of_nat (length (pending m))) 9007199254740992); [|lia].
    rewrite (rbind_ok (Ok _) _ _ eq_refl), Nat2N.id.
    rewrite (rbind_ok _ _ _ (seen_events_eq jq (pending m) Epk (length (pending m)) 0 ltac:(lia))).
    rewrite drop_0. do 2 f_equal. unfold view. f_equal.
    + rewrite <- map_rev. apply map_ext. intros o. apply seen_order_eq.
    + apply map_ext. intros o. apply seen_order_eq.
    + rewrite map_map. apply map_ext. apply seen_notice_eq.
    + done.
Qed.

(** A market was created in zeroed accounts of the sizes computed for [nb] and [na] orders
    and [ne] events, and anything may have happened on the ledger since, short of closing
    it.  A client that looks at it gets its parameters and an exchange.  Running the rules
    of the exchange on what the client sees, for any request, tells the answer that the
    program gives to the request, when nothing happens in between, and what the client
    sees afterwards. *)
Theorem C78_preview : rent_ok -> forall l0 a p more l1 tr l2 nb na ne,
  cs <> 0%nat -> world l0 -> create_typed p ->
  step l0 (Call (keys a ++ more) (ix_create_market :: wr_create p) None) l1 ->
  zeroed l0 (ac_queue a) -> zeroed l0 (ac_bids a) -> zeroed l0 (ac_asks a) ->
  length (a_data (l0 (ac_queue a))) = queue_allocation_size cs ne ->
  slab_allocation_size cs nb = Ok (length (a_data (l0 (ac_bids a)))) ->
  slab_allocation_size cs na = Ok (length (a_data (l0 (ac_asks a)))) ->
  trace l1 tr l2 -> Forall (fun lb => ~ closes (ac_market a) lb) tr ->
  N.of_nat (length (market_calls cs (ac_market a) tr)) + 1 < p63 ->
  exists ms x, client_view l2 (ac_market a) (N.of_nat cs) = Ok (ms, x) /\
    forall o more' r l3, op_bytes_typed cs o -> instr (op_keys a o ++ more') (op_data o) l2 = (r, l3) ->
    exists answer x',
      rule same_id (mk_rules (ms_min ms) (ms_tick ms) nb na ne) o x = (answer, x') /\
      answer_of r = Some answer /\
      forall sm, r = Ok sm -> step l2 (Call (op_keys a o ++ more') (op_data o) sm) l3 ->
        client_view l3 (ac_market a) (N.of_nat cs) = Ok (ms, x').
Proof.
  intros Hrent l0 a p more l1 tr l2 nb na ne H1 H2 H3 H4 H5 H6 H7 H8 H9 H10 H11 H12 H13.
  destruct (view_loaded Hrent l0 a p more l1 tr l2 nb na ne) as (m&Ho&W&Hr&Hrun&Hv); try done; [lia|].
  eexists _, (view m). split; [exact Hv|]. cbn [ms_min ms_tick]. intros o more' r l3 Hot Hi.
  destruct (exec same_id o m) as [r0 m0] eqn:Ex.
  destruct (C51_answer cs same_id rent_exempt pid l2 a m o more' (w_ok _ _ _ W) Ho Hot) as (l'&Hi'&_).
  rewrite Ex in Hi'. cbn [fst] in Hi'. rewrite Hi in Hi'. injection Hi' as -> <-.
  destruct (C72_step bytes same_id _ m o r0 m0 Hr ltac:(by eapply op_bytes_op_typed) Ex) as (ans&Hans&Hrule).
  exists ans, (view m0). split; [exact Hrule|]. split; [done|].
  intros sm -> Hst.
  assert (Hn : ~ closes (ac_market a) (Call (op_keys a o ++ more') (op_data o) sm)).
  { by destruct o; cbn; intros [_ ?]. }
  assert (Hmc : market_calls cs (ac_market a) (tr ++ [Call (op_keys a o ++ more') (op_data o) sm]) =
                market_calls cs (ac_market a) tr ++ [(o, sm)]).
  { unfold market_calls. rewrite omap_app. f_equal. cbn [omap list_omap market_call].
    assert (Hk : exists ks, op_keys a o ++ more' = ac_market a :: ks) by (destruct o; cbn; by eexists).
    destruct Hk as [ks ->]. cbn [market_call]. rewrite N.eqb_refl, op_of_op_data by done. done. }
  destruct (view_loaded Hrent l0 a p more l1 (tr ++ [Call (op_keys a o ++ more') (op_data o) sm]) l3 nb na ne)
    as (m3&Ho3&W3&Hr3&Hrun3&Hv3); try done.
  { by eapply trace_snoc. }
  { apply Forall_app. split; [done|]. by constructor. }
  { rewrite Hmc, app_length. cbn. lia. }
  rewrite Hv3. do 2 f_equal. rewrite Hrun3, Hmc, map_app. cbn [map fst]. rewrite rule_run_snoc, <- Hrun.
  match goal with |- context [rule ?a ?b ?c ?d] =>
    change (rule a b c d) with (rule same_id (mk_rules (cp_min p) (cp_tick p) nb na ne) o (view m)) end.
  by setoid_rewrite Hrule.
Qed.
End Preview.

(** ** A concrete case
    The first market of LedgerExample.v after a bid of 10 at price 4, of which 3 were sold.
    The client sees the bid and the trade; it wants to sell 10 at 4: the rules say that 7
    will be sold and 3 posted, and so it happens. *)
Definition v_x : exchange bytes :=
  mk_exchange [mk_xorder (e_price 4) 0 7 (e_cb 1)] []
    [Traded Ask (e_price 4 * p64 + p64 - 1) 3 12 (e_cb 1) (e_cb 1)] 1.
Definition v_rules : rules := mk_rules 2 1 2 2 5.
Definition v_answer : ExchangeSpec.answer := Accepted (Some (e_price 4 * p64 + 1)) 10 40 3.
Example C78_example :
  client_view e_l4 1 32 = Ok (mk_market_state 2 3 4 2 1, v_x) /\
  fst (rule e_same v_rules (LedgerExample.e_order Ask 10 4) v_x) = v_answer /\
  answer_of (fst (e_instr (keys e_a) (op_data (LedgerExample.e_order Ask 10 4)) e_l4)) = Some v_answer.
Proof. by vm_compute. Qed.
(** The hypotheses of [C78_preview] are met there. *)
Example C78_hypotheses : exists x, client_view e_l4 1 32 = Ok (mk_market_state 2 3 4 2 1, x) /\
  forall o, op_bytes_typed 32 o -> exists answer,
    fst (rule e_same v_rules o x) = answer /\
    answer_of (fst (e_instr (op_keys e_a o ++ []) (op_data o) e_l4)) = Some answer.
Proof.
  destruct (C78_preview e_cs e_same e_rent e_pid e_rent_0 e_l0 e_a e_p [] e_l1 _ e_l4 2 2 5
    ltac:(done) e_world0 ltac:(by vm_compute) e_step1 (zeros_0 _) (zeros_0 _) (zeros_0 _) eq_refl
    ltac:(by vm_compute) ltac:(by vm_compute) e_trace4) as (ms&x&Hv&H).
  { repeat constructor; intros Hx; cbn in Hx; destruct Hx as [? Hx]; discriminate. }
  { by vm_compute. }
  assert (E : client_view e_l4 (ac_market e_a) (N.of_nat e_cs) = Ok (mk_market_state 2 3 4 2 1, v_x))
    by (vm_compute; reflexivity).
  rewrite E in Hv. apply Ok_inj in Hv. injection Hv as <- <-. exists v_x. split; [vm_compute; reflexivity|].
  intros o Ho. destruct (e_instr (op_keys e_a o ++ []) (op_data o) e_l4) as [r l3] eqn:Hi.
  destruct (H o [] r l3 Ho Hi) as (answer&x'&Hr&Ha&_). exists answer. cbn [ms_min ms_tick] in Hr.
  unfold v_rules. rewrite Hr. split; [reflexivity|exact Ha].
Qed.
(** The preview is for the next instruction: when the bid is cancelled in between, all 10
    are posted. *)
Example C78_stale :
  answer_of (fst (e_instr (keys e_a) (op_data (LedgerExample.e_order Ask 10 4)) torn_1)) =
    Some (Accepted (Some (e_price 4 * p64 + 1)) 10 40 10).
Proof. by vm_compute. Qed.

Print Assumptions C78_preview.
