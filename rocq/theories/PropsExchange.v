(** * PropsExchange.v: the program is the exchange of ExchangeSpec.v (C72) *)
From Verif Require Import Machine Bytes Critbit EventQueue OrderBook Market Spec ExchangeSpec ExchangeProofs ExampleRuns
  Layout LayoutProofs Borsh BorshProofs Ledger LedgerSpec LedgerProofs WorldProofs FollowProofs LedgerExample PropsLedger.
From Coq Require Import ZifyBool ZifyNat ZifyN.

(** Every request to a market is answered as the rules say, and leads to the exchange that
    the rules lead to: the same orders at the same places, the same notices, the same
    clock. *)
Theorem C72_step : forall (C : Type) (same_id : C -> C -> bool) c m o r m',
  reachable same_id c m -> op_typed o -> exec same_id o m = (r, m') ->
  exists a, answer_of r = Some a /\ rule same_id (rules_of c) o (view m) = (a, view m').
Proof. intros C same_id c m o r m'. apply view_step. Qed.

(** So the rules alone, run from an empty exchange on the requests of a history, give all
    its answers and what can be read from the market at the end. *)
Theorem C72_history : forall (C : Type) (same_id : C -> C -> bool) c log m,
  config_ok c -> history same_id c log m -> N.of_nat (length log) < p63 ->
  exists answers, rule_run same_id (rules_of c) (map en_op log) opening = (answers, view m) /\
    map (fun e => answer_of (en_res e)) log = map Some answers.
Proof. intros C same_id c log m. apply view_history. Qed.

(** The same on a ledger, from the market's creation on: the instructions that were
    executed on it, among all others, had the answers of the rules; the bytes in its
    accounts are those of a market that reads as the exchange of the rules. *)
Theorem C72_ledger : forall cs (same_id : bytes -> bytes -> bool) rent_exempt pid,
  (forall n, rent_exempt 0 n = false) ->
  forall l0 a p more l1 tr l2 nb xb na xa ne,
  cs <> 0%nat -> world cs same_id rent_exempt pid l0 -> create_typed p ->
  ledger_step cs same_id rent_exempt pid l0 (Call (keys a ++ more) (ix_create_market :: wr_create p) None) l1 ->
  zeroed l0 (ac_queue a) -> zeroed l0 (ac_bids a) -> zeroed l0 (ac_asks a) ->
  length (a_data (l0 (ac_queue a))) = queue_allocation_size cs ne ->
  slab_room cs (length (a_data (l0 (ac_bids a)))) nb xb ->
  slab_room cs (length (a_data (l0 (ac_asks a)))) na xa ->
  trace cs same_id rent_exempt pid l1 tr l2 -> Forall (fun lb => ~ closes (ac_market a) lb) tr ->
  let calls := market_calls cs (ac_market a) tr in
  N.of_nat (length calls) < p63 ->
  exists m answers, opens cs pid l2 a m /\
    rule_run same_id (mk_rules (cp_min p) (cp_tick p) nb na ne) (map fst calls) opening = (answers, view m) /\
    map (fun x => answer_of (Ok (snd x))) calls = map Some answers.
Proof.
  intros cs same_id rent_exempt pid Hrent l0 a p more l1 tr l2 nb xb na xa ne H1 H2 H3 H4 H5 H6 H7 H8 H9 H10 H11 H12 calls Hlen.
  destruct (C51_history cs same_id rent_exempt pid Hrent l0 a p more l1 tr l2 nb xb na xa ne H1 H2 H3 H4 H5 H6 H7 H8 H9 H10 H11 H12)
    as (m&log&Ho&Hc&Hh&Hl&_). fold calls in Hl.
  assert (Hll : length log = length calls) by (by apply (f_equal length) in Hl; rewrite !map_length in Hl).
  destruct (C72_history bytes same_id _ log m Hc Hh ltac:(rewrite Hll; done)) as (answers&Hr&Ha).
  exists m, answers. split; [done|].
  assert (E1 : map en_op log = map fst calls).
  { apply (f_equal (map fst)) in Hl. by rewrite !map_map in Hl. }
  assert (E2 : map (fun e => answer_of (en_res e)) log = map (fun x => answer_of (Ok (snd x))) calls).
  { apply (f_equal (map (fun x => answer_of (snd x)))) in Hl. by rewrite !map_map in Hl. }
  rewrite E1 in Hr. by rewrite <- E2.
Qed.

(** ** Concrete cases *)
(** Asks at 4 and 4.5 (prices of [ex_new] are in halves); a bid takes both and joins the
    book; two more bids fill the side, the second pushes out the first; an order meets its
    owner and is refused, another removes it and trades with the next; an unknown id, a
    wrong price; two orders join, one is cancelled, and the first notices are consumed. *)
Definition half (n : N) : N := n * 2147483648.
Definition x_bid_id (price time : N) : N := half price * 2 ^ 64 + (2 ^ 64 - 1 - time).
Definition x_ask_id (price time : N) : N := half price * 2 ^ 64 + time.
Definition x_ops : list (op N) :=
  [ex_new Ask 100 100000 8 10 1 false true DecrementTake;
   ex_new Ask 50 100000 9 10 2 false true DecrementTake;
   ex_new Bid 160 100000 9 10 3 false true DecrementTake;
   ex_new Bid 20 100000 8 10 4 false true DecrementTake;
   ex_new Bid 30 100000 10 10 5 false true DecrementTake;
   ex_new Ask 30 100000 10 10 5 false true AbortTransaction;
   ex_new Ask 12 100000 9 10 5 false true CancelProvide;
   CancelOrder (x_bid_id 9 2);
   NewOrder (mk_params 1 1 7 Bid 1 1 false true DecrementTake);
   ex_new Ask 40 100000 12 10 6 false true DecrementTake;
   ex_new Bid 15 100000 3 10 7 false true DecrementTake;
   MassCancelOrders [x_bid_id 3 6];
   ConsumeEvents 5].
Definition x_answers : list ExchangeSpec.answer :=
  [Accepted (Some (x_ask_id 8 0)) 100 400 100; Accepted (Some (x_ask_id 9 1)) 50 225 50;
   Accepted (Some (x_bid_id 9 2)) 160 670 10; Accepted (Some (x_bid_id 8 3)) 20 80 20;
   Accepted (Some (x_bid_id 10 4)) 30 150 30; SelfTrade; Accepted None 10 45 0; NoSuchOrder; BadPrice;
   Accepted (Some (x_ask_id 12 5)) 40 240 40; Accepted (Some (x_bid_id 3 6)) 15 23 15;
   Accepted None 15 22 0; Consumed].
Definition x_end : exchange N :=
  mk_exchange [] [mk_xorder (half 12) 5 40 6]
    [Removed Bid (x_bid_id 10 4) 30 5; Traded Ask (x_bid_id 9 2) 10 45 3 5; Removed Bid (x_bid_id 9 2) 0 3] 7.
Example C72_example :
  config_ok ex_cfg /\ forallb op_typedb x_ops = true /\
  rule_run N.eqb (rules_of ex_cfg) x_ops opening = (x_answers, x_end) /\
  view (after N.eqb ex_cfg x_ops) = x_end /\
  map (fun e => answer_of (en_res e)) (log_of N.eqb ex_cfg x_ops) = map Some x_answers.
Proof. split; [exact ex_cfg_ok|]. by vm_compute. Qed.
(** The first market of LedgerExample.v after a bid and an ask. *)
Example C72_example_ledger : exists m answers, opens e_cs e_pid e_l4 e_a m /\
  rule_run e_same (mk_rules (cp_min e_p) (cp_tick e_p) 2 2 5) [LedgerExample.e_order Bid 10 4; LedgerExample.e_order Ask 3 4] opening = (answers, view m) /\
  map x_size (x_bids (view m)) = [7] /\ length (x_notices (view m)) = 1%nat /\
  answers = [Accepted (posted_order_id e_sum3) 10 40 10; Accepted None 3 12 0].
Proof.
  destruct (C72_ledger e_cs e_same e_rent e_pid e_rent_0 e_l0 e_a e_p [] e_l1 _ e_l4 2 0 2 0 5
    ltac:(done) e_world0 ltac:(by vm_compute) e_step1 (zeros_0 _) (zeros_0 _) (zeros_0 _) eq_refl
    ltac:(unfold slab_room; cbn; lia) ltac:(unfold slab_room; cbn; lia) e_trace4)
    as (m&answers&H1&H2&H3).
  { repeat constructor; intros []; done. }
  { by vm_compute. }
  cbv zeta in H2. clear H3.
  match type of H2 with rule_run _ _ ?x _ = _ =>
    assert (Ex : x = [LedgerExample.e_order Bid 10 4; LedgerExample.e_order Ask 3 4]) by (vm_compute; reflexivity);
    rewrite Ex in H2; clear Ex end.
  set (x := rule_run e_same (mk_rules (cp_min e_p) (cp_tick e_p) 2 2 5)
    [LedgerExample.e_order Bid 10 4; LedgerExample.e_order Ask 3 4] opening).
  exists m, answers. split; [exact H1|]. split; [exact H2|].
  change (view m) with (snd (answers, view m)). rewrite <- H2. change answers with (fst (answers, view m)) at 1.
  rewrite <- H2. by vm_compute.
Qed.

Print Assumptions C72_step.
Print Assumptions C72_history.
Print Assumptions C72_ledger.
