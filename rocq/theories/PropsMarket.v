(** * PropsMarket.v: properties of histories and of the other instructions
    (C11, C12, C19-C21, C29-C32, C39, C40, C46, C48)

    Vocabulary: Spec.v.  [history same_id c log m] says that a market created with
    configuration [c] processed the instructions of [log] (failed ones included) and is
    now [m]; [reachable same_id c m] abstracts from the log (fewer than 2^63
    instructions). *)
From Coq Require Import Sorting.Sorted.
From stdpp Require Import gmap.
From Verif Require Import Machine Critbit EventQueue OrderBook Market Spec DataSpec ExampleRuns.
From Verif Require Import InstrProps HistoryProps LifeProps MarketReads.

(** ** A history used in the examples: posts, a match with dust, an eviction, a
    cancellation, a failed cancellation, a consumption. *)
Definition h_ops : list (op N) := [
  ex_new Ask 100 100000 7 10 1 false true DecrementTake;
  ex_new Ask 50 100000 6 10 2 false true DecrementTake;
  ex_new Ask 60 100000 6 10 3 false true DecrementTake;
  ex_new Bid 40 100000 4 10 4 false true DecrementTake;
  ex_new Bid 45 100000 5 10 5 false true DecrementTake;
  ex_new Bid 43 100000 6 10 9 false true CancelProvide;
  CancelOrder 198070406304107588057569427451;
  CancelOrder 198070406304107588057569427451;
  ex_new Bid 70 100000 6 10 9 false true DecrementTake;
  ConsumeEvents 2].
Definition h_log : list (entry N) := log_of N.eqb ex_cfg h_ops.
Definition h_m : market N := Eval vm_compute in after N.eqb ex_cfg h_ops.
Lemma h_history : history N.eqb ex_cfg h_log h_m.
Proof. change h_m with (after N.eqb ex_cfg h_ops). apply after_history. vm_compute. reflexivity. Qed.
Lemma h_length : N.of_nat (length h_log) < p63.
Proof. vm_compute. reflexivity. Qed.
Lemma h_reachable : reachable N.eqb ex_cfg h_m.
Proof. split; [exact ex_cfg_ok|]. exists h_log. split; [exact h_history|exact h_length]. Qed.
Definition h_id_a1 : N := 237684487542793012780631851009.
Definition h_id_a2 : N := 237684487542793012780631851010.
Definition h_id_a3 : N := 277298568799925181577403826176.
Definition h_id_b1 : N := 158456325046975419260797452284.
Definition h_id_b2 : N := 198070406304107588057569427451.
Definition h_id_b3 : N := 237684487561239756854341402618.
Example h_results : map en_res h_log = [
  Ok (Some (mk_summary (Some h_id_a3) 100 350 100));
  Ok (Some (mk_summary (Some h_id_a1) 50 150 50));
  Ok (Some (mk_summary (Some h_id_a2) 60 180 60));
  Ok (Some (mk_summary (Some h_id_b1) 40 80 40));
  Ok (Some (mk_summary (Some h_id_b2) 45 113 45));
  Ok (Some (mk_summary None 43 129 0));
  Ok (Some (mk_summary None 45 112 0));
  Err OrderNotFound;
  Ok (Some (mk_summary (Some h_id_b3) 70 210 10));
  Ok None].
Proof. vm_compute. reflexivity. Qed.
Example h_state : resting h_m Ask = [(mk_leaf h_id_a3 100, 1)] /\
  resting h_m Bid = [(mk_leaf h_id_b1 40, 4); (mk_leaf h_id_b3 10, 9)] /\
  map event_id (pending h_m) = [h_id_a2; h_id_a2].
Proof. vm_compute. auto. Qed.

(** ** C11 *)
Theorem C11_ids_unique : forall (C : Type) (same_id : C -> C -> bool) c log m,
  config_ok c -> history same_id c log m -> N.of_nat (length log) < p63 -> NoDup (posted_ids log).
Proof. exact @posted_ids_nodup. Qed.
Print Assumptions C11_ids_unique.
(** An id that left the book never comes back. *)
Theorem C11_gone_forever : forall (C : Type) (same_id : C -> C -> bool) c log0 m0 log m id,
  config_ok c -> history same_id c log0 m0 -> steps same_id m0 log m ->
  N.of_nat (length (log0 ++ log)) < p63 ->
  id ∈ posted_ids log0 -> (forall sd, id ∉ map o_id (resting m0 sd)) ->
  forall sd, id ∉ map o_id (resting m sd).
Proof. exact @gone_forever. Qed.
Print Assumptions C11_gone_forever.
(** Every resting order was posted, and has its own id. *)
Theorem C11_resting_posted : forall (C : Type) (same_id : C -> C -> bool) c log m sd,
  config_ok c -> history same_id c log m -> N.of_nat (length log) < p63 ->
  (forall id, id ∈ map o_id (resting m sd) -> id ∈ posted_ids log) /\
  NoDup (map o_id (resting m sd)).
Proof. exact @resting_posted_nodup. Qed.
Print Assumptions C11_resting_posted.
Example C11_example : history N.eqb ex_cfg h_log h_m /\
  posted_ids h_log = [h_id_a3; h_id_a1; h_id_a2; h_id_b1; h_id_b2; h_id_b3].
Proof. split; [exact h_history|]. vm_compute. reflexivity. Qed.

(** ** C12 *)
Theorem C12_id_encodes : forall (C : Type) (same_id : C -> C -> bool) c log0 m0 e m id,
  config_ok c -> history same_id c log0 m0 -> N.of_nat (length log0) < p63 ->
  steps same_id m0 [e] m -> posted_id e = Some id ->
  exists p, en_op e = NewOrder p /\ id_price id = limit_price p /\ side_of_id id = p_side p /\
    id < p128.
Proof. exact @posted_encodes. Qed.
Print Assumptions C12_id_encodes.
Theorem C12_on_its_side : forall (C : Type) (same_id : C -> C -> bool) c m sd o,
  reachable same_id c m -> o ∈ resting m sd -> side_of_id (o_id o) = sd.
Proof. exact @on_its_side. Qed.
Print Assumptions C12_on_its_side.
Example C12_example : id_price h_id_b2 = 5 * 2147483648 /\ side_of_id h_id_b2 = Bid /\
  side_of_id h_id_a2 = Ask /\ id_seq Bid h_id_b2 = 4.
Proof. vm_compute. auto. Qed.

(** ** C19 *)
Theorem C19_never_crossed : forall (C : Type) (same_id : C -> C -> bool) c m b a,
  reachable same_id c m -> b ∈ resting m Bid -> a ∈ resting m Ask ->
  id_price (o_id b) < id_price (o_id a).
Proof. exact @never_crossed. Qed.
Print Assumptions C19_never_crossed.
Example C19_example : reachable N.eqb ex_cfg h_m /\
  map (fun o => id_price (o_id o) / 2147483648) (resting h_m Bid) = [4; 6] /\
  map (fun o => id_price (o_id o) / 2147483648) (resting h_m Ask) = [7].
Proof. split; [exact h_reachable|]. vm_compute. auto. Qed.

(** ** C20, C21 *)
Theorem C20_no_dust : forall (C : Type) (same_id : C -> C -> bool) c m sd o,
  reachable same_id c m -> o ∈ resting m sd -> c_min c <= o_qty o /\ 0 < o_qty o.
Proof. exact @no_dust. Qed.
Print Assumptions C20_no_dust.
Theorem C21_resting_tick : forall (C : Type) (same_id : C -> C -> bool) c m sd o,
  reachable same_id c m -> o ∈ resting m sd ->
  (c_tick c | id_price (o_id o)) /\ 0 < id_price (o_id o) < p64.
Proof. exact @resting_tick. Qed.
Print Assumptions C21_resting_tick.
(** The quote value of every resting order fits in a u64. *)
Theorem C20_order_value : forall (C : Type) (same_id : C -> C -> bool) c m sd o,
  reachable same_id c m -> o ∈ resting m sd -> o_qty o * id_price (o_id o) / p32 < p64.
Proof. exact @order_value. Qed.
Print Assumptions C20_order_value.
Example C20_example : c_min ex_cfg = 10 /\
  map o_qty (resting h_m Bid ++ resting h_m Ask) = [40; 10; 100].
Proof. vm_compute. auto. Qed.

(** ** C29 *)
Theorem C29_cancel : forall (C : Type) (same_id : C -> C -> bool) c m sd o,
  reachable same_id c m -> o ∈ resting m sd ->
  exists m', exec same_id (CancelOrder (o_id o)) m =
      (Ok (Some (mk_summary None (o_qty o) (o_qty o * id_price (o_id o) / p32) 0)), m') /\
    resting m' sd = List.filter (fun x => negb (o_id x =? o_id o)) (resting m sd) /\
    resting m' (opposite sd) = resting m (opposite sd) /\
    evq (m_book m') = evq (m_book m) /\ m_min m' = m_min m /\ m_tick m' = m_tick m.
Proof. exact @cancel_present. Qed.
Print Assumptions C29_cancel.
Example C29_example : fst (exec N.eqb (CancelOrder h_id_a3) h_m) = Ok (Some (mk_summary None 100 350 0)).
Proof. vm_compute. reflexivity. Qed.

(** ** C30 *)
Theorem C30_cancel_absent : forall (C : Type) (same_id : C -> C -> bool) c m id,
  reachable same_id c m -> id ∉ map o_id (resting m (side_of_id id)) ->
  (~ stale_slot (tree (m_book m) (side_of_id id)) id ->
     exec same_id (CancelOrder id) m = (Err OrderNotFound, m)) /\
  (stale_slot (tree (m_book m) (side_of_id id)) id ->
     exec same_id (CancelOrder id) m = (Panic PIndex, m)).
Proof. exact @cancel_absent_cases. Qed.
Print Assumptions C30_cancel_absent.
(** The panic happens in real histories: post A, post B, cancel A, cancel A again. *)
Theorem C30_order_not_found_refuted : exists (c : config N) m id,
  reachable N.eqb c m /\ id < p128 /\ id ∉ map o_id (resting m (side_of_id id)) /\
  fst (exec N.eqb (CancelOrder id) m) = Panic PIndex.
Proof.
  set (ops := [ex_new Ask 100 100000 7 10 1 false true DecrementTake;
               ex_new Ask 100 100000 7 10 1 false true DecrementTake; CancelOrder h_id_a3]).
  exists ex_cfg, (after N.eqb ex_cfg ops), h_id_a3.
  split; [apply after_reachable; [exact ex_cfg_ok|vm_compute; reflexivity..]|].
  split; [vm_compute; reflexivity|]. split; [|vm_compute; reflexivity].
  rewrite <- (bool_decide_spec (_ ∈ _)). vm_compute. auto.
Qed.
Print Assumptions C30_order_not_found_refuted.
Example C30_example : h_id_b2 ∉ map o_id (resting h_m Bid) /\ side_of_id h_id_b2 = Bid /\
  exec N.eqb (CancelOrder h_id_b2) h_m = (Err OrderNotFound, h_m).
Proof.
  split; [rewrite <- (bool_decide_spec (_ ∈ _)); vm_compute; auto|]. vm_compute. auto.
Qed.

(** ** C31 *)
Theorem C31_mass_cancel : forall (C : Type) (same_id : C -> C -> bool) c m ids,
  reachable same_id c m ->
  (NoDup ids /\ (forall id, id ∈ ids -> id ∈ map o_id (resting m (side_of_id id))) /\
   sumN (base_of m) ids < p64 /\ sumN (quote_of_id m) ids < p64 /\
   exists m', exec same_id (MassCancelOrders ids) m =
     (Ok (Some (mk_summary None (sumN (base_of m) ids) (sumN (quote_of_id m) ids) 0)), m') /\
     (forall sd, resting m' sd = delete_ids ids (resting m sd)) /\
     evq (m_book m') = evq (m_book m)) \/
  (~ (NoDup ids /\ (forall id, id ∈ ids -> id ∈ map o_id (resting m (side_of_id id))) /\
      sumN (base_of m) ids < p64 /\ sumN (quote_of_id m) ids < p64) /\
   exists r, exec same_id (MassCancelOrders ids) m = (r, m) /\
     (r = Err OrderNotFound \/ r = Panic PIndex \/ r = Panic PUnwrap)).
Proof. exact @mass_cancel_exact. Qed.
Print Assumptions C31_mass_cancel.
(** It succeeds exactly when the cancellations one after the other succeed (and the
    totals fit), with their sums and the same final state. *)
Theorem C31_mass_cancel_sequence : forall (C : Type) (same_id : C -> C -> bool) m ids r m',
  exec same_id (MassCancelOrders ids) m = (Ok r, m') <->
  exists sms, cancels same_id m ids sms m' /\
    sumN total_base_qty sms < p64 /\ sumN total_quote_qty sms < p64 /\
    r = Some (mk_summary None (sumN total_base_qty sms) (sumN total_quote_qty sms) 0).
Proof. exact @mass_cancel_seq. Qed.
Print Assumptions C31_mass_cancel_sequence.
Example C31_example :
  fst (exec N.eqb (MassCancelOrders [h_id_a3; h_id_b1]) h_m) = Ok (Some (mk_summary None 140 430 0)) /\
  fst (exec N.eqb (MassCancelOrders [h_id_a3; h_id_b1; h_id_b2]) h_m) = Err OrderNotFound.
Proof. vm_compute. auto. Qed.

(** ** C32 *)
Theorem C32_consume : forall (C : Type) (same_id : C -> C -> bool) c m n,
  reachable same_id c m ->
  exists m', exec same_id (ConsumeEvents n) m = (Ok None, m') /\
    pending m' = drop (N.to_nat n) (pending m) /\
    bids (m_book m') = bids (m_book m) /\ asks (m_book m') = asks (m_book m) /\
    q_seq (evq (m_book m')) = q_seq (evq (m_book m)) /\
    q_count (evq (m_book m')) = q_count (evq (m_book m)) - n /\
    m_min m' = m_min m /\ m_tick m' = m_tick m.
Proof. exact @consume_ok. Qed.
Print Assumptions C32_consume.
Example C32_example : length (pending h_m) = 2%nat /\
  length (pending (snd (exec N.eqb (ConsumeEvents 1) h_m))) = 1%nat.
Proof. vm_compute. auto. Qed.

(** ** C39 *)
Theorem C39_replay : forall (C : Type) (same_id : C -> C -> bool) c log m,
  config_ok c -> history same_id c log m -> N.of_nat (length log) < p63 ->
  forall sd o, o ∈ resting m sd <-> o ∈ replay log /\ side_of_id (o_id o) = sd.
Proof. exact @replay_ok. Qed.
Print Assumptions C39_replay.
Example C39_example : replay h_log = [(mk_leaf h_id_a3 100, 1); (mk_leaf h_id_b1 40, 4); (mk_leaf h_id_b3 10, 9)].
Proof. vm_compute. reflexivity. Qed.

(** ** C39, C40: the life of an order
    Its events are fills, each at its own price with its callback info, followed by
    nothing (it rests, or was cancelled once), or by one Out; in the three cases the base
    quantities add up to the quantity posted. *)
Theorem C40_order_life : forall (C : Type) (same_id : C -> C -> bool) c log m log1 e log2 p sm id,
  config_ok c -> history same_id c log m -> N.of_nat (length log) < p63 -> log = log1 ++ e :: log2 ->
  en_op e = NewOrder p -> en_res e = Ok (Some sm) -> posted_order_id sm = Some id ->
  let sd := p_side p in let cb := p_callback p in let q := total_base_qty_posted sm in
  exists fills, Forall (maker_fill sd id cb) fills /\
  ((events_about id log = fills /\ id ∉ cancelled log /\
    exists y, y ∈ resting m sd /\ o_id y = id /\ o_cb y = cb /\
      sumN fill_base fills + o_qty y = q) \/
   (exists left_, events_about id log = fills ++ [maker_out sd id cb left_] /\
      id ∉ cancelled log /\ gone m id /\ sumN fill_base fills + left_ = q) \/
   (exists la e' lb ma, log = la ++ e' :: lb /\ history same_id c la ma /\
      events_about id log = fills /\ id ∈ cancelled_ids e' /\ id ∉ cancelled la /\ id ∉ cancelled lb /\
      gone m id /\
      exists y, y ∈ resting ma sd /\ o_id y = id /\ o_cb y = cb /\
        sumN fill_base fills + o_qty y = q)).
Proof. exact @order_life. Qed.
Print Assumptions C40_order_life.
(** Quote solvency: for a bid, all quote paid by its fills plus the quote value of what
    is left (rounded down, as cancellation returns it) is at most the quote amount
    accounted for at posting; for an ask, the quote received covers the filled base at
    its price. *)
Theorem C40_solvency : forall (C : Type) (same_id : C -> C -> bool) c log m log1 e log2 p sm id,
  config_ok c -> history same_id c log m -> N.of_nat (length log) < p63 -> log = log1 ++ e :: log2 ->
  en_op e = NewOrder p -> en_res e = Ok (Some sm) -> posted_order_id sm = Some id ->
  let fills := List.filter is_fill (events_about id log) in
  let left_ := total_base_qty_posted sm - sumN fill_base fills in
  sumN fill_base fills <= total_base_qty_posted sm /\
  match p_side p with
  | Bid => sumN fill_quote fills + left_ * limit_price p / p32
             <= quote_amount Bid (total_base_qty_posted sm) (limit_price p)
  | Ask => sumN fill_base fills * limit_price p <= sumN fill_quote fills * p32
  end.
Proof. exact @solvency. Qed.
Print Assumptions C40_solvency.
Example C40_example :
  events_about h_id_a2 h_log =
    [EvFill (mk_fill_event tag_fill 0 0 180 h_id_a2 60) 3 9; maker_out Ask h_id_a2 3 0] /\
  events_about h_id_a1 h_log =
    [EvFill (mk_fill_event tag_fill 0 0 129 h_id_a1 43) 2 9; maker_out Ask h_id_a1 2 7] /\
  cancelled h_log = [h_id_b2].
Proof. vm_compute. auto. Qed.

(** ** C46 *)
Theorem C46_spread : forall (C : Type) (same_id : C -> C -> bool) c m,
  reachable same_id c m ->
  exists pb pa, get_spread (m_book m) = Ok (pb, pa) /\ best_price m Bid pb /\ best_price m Ask pa.
Proof. exact @spread_ok. Qed.
Print Assumptions C46_spread.
Example C46_example : get_spread (m_book h_m) = Ok (Some (6 * 2147483648), Some (7 * 2147483648)).
Proof. vm_compute. reflexivity. Qed.

(** ** C48 (on a market; the whole ledger is in PropsLedger.v) *)
Theorem C48_failed_no_effect : forall (C : Type) (same_id : C -> C -> bool) o m r m',
  exec same_id o m = (r, m') -> is_ok r = false -> m' = m.
Proof. exact @exec_failed. Qed.
Print Assumptions C48_failed_no_effect.
