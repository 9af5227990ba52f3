(** * PropsOrder.v: properties of new orders (C13-C18, C21-C28, C38, C47)

    Vocabulary: Spec.v.  [accepted same_id c m p sm m'] says that on a market [m] reached
    by some history, the new order [p] succeeds with summary [sm] and leads to [m'];
    [emitted m m'] are the events it added to the queue. *)
From stdpp Require Import gmap.
From Verif Require Import Machine Critbit EventQueue OrderBook Market Spec ExampleRuns.
From Verif Require Import NewOrderProps NewOrderProps2 SelfTradeProps RoomProps InstrProps HistoryProps.

(** ** The market used in the examples
    Asks: 50 at 3 (owner 2), 60 at 3 (owner 3), 100 at 3.5 (owner 1); bids: 40 at 2
    (owner 4), 45 at 2.5 (owner 5).  The bid side is full. *)
Definition ex_ops : list (op N) := [
  ex_new Ask 100 100000 7 10 1 false true DecrementTake;
  ex_new Ask 50 100000 6 10 2 false true DecrementTake;
  ex_new Ask 60 100000 6 10 3 false true DecrementTake;
  ex_new Bid 40 100000 4 10 4 false true DecrementTake;
  ex_new Bid 45 100000 5 10 5 false true DecrementTake].
Definition ex_m : market N := Eval vm_compute in after N.eqb ex_cfg ex_ops.
Lemma ex_m_reachable : reachable N.eqb ex_cfg ex_m.
Proof.
  change ex_m with (after N.eqb ex_cfg ex_ops).
  apply after_reachable; [exact ex_cfg_ok|vm_compute; reflexivity|vm_compute; reflexivity].
Qed.
Definition id_a1 : N := 237684487542793012780631851009.   (* 50 at 3 *)
Definition id_a2 : N := 237684487542793012780631851010.   (* 60 at 3 *)
Definition id_a3 : N := 277298568799925181577403826176.   (* 100 at 3.5 *)
Definition id_b1 : N := 158456325046975419260797452284.   (* 40 at 2 *)
Definition id_b2 : N := 198070406304107588057569427451.   (* 45 at 2.5 *)
Definition ex_params (sd : side) (base quote price ml cb : N) (po pa : bool) (b : self_trade) : params N :=
  mk_params base quote (price * 2147483648) sd ml cb po pa b.
Definition res_of (p : params N) : res (option summary) := fst (exec N.eqb (NewOrder p) ex_m).
Definition next_of (p : params N) : market N := snd (exec N.eqb (NewOrder p) ex_m).
Lemma ex_accepted p sm : op_typedb (NewOrder p) = true -> res_of p = Ok (Some sm) ->
  accepted N.eqb ex_cfg ex_m p sm (next_of p).
Proof.
  intros Hty Hr. split; [exact ex_m_reachable|]. split; [by apply op_typedb_ok|].
  unfold res_of, next_of in *. destruct (exec N.eqb (NewOrder p) ex_m). cbn in *. by subst.
Qed.

(** A bid for 120 at 3 takes both asks at 3 and posts 10, evicting the bid at 2. *)
Definition ex_take := ex_params Bid 120 100000 6 10 1 false true CancelProvide.
Definition ex_take_sum : summary := mk_summary (Some 237684487561239756854341402618) 120 360 10.
Definition fill_ev (sd : side) (id base quote mk tk : N) : event_ref N :=
  EvFill (mk_fill_event tag_fill (side_u8 sd) 0 quote id base) mk tk.
Definition out_ev (sd : side) (id base cb : N) : event_ref N :=
  EvOut (mk_out_event tag_out (side_u8 sd) 0 id base) cb.
Lemma ex_take_accepted : accepted N.eqb ex_cfg ex_m ex_take ex_take_sum (next_of ex_take).
Proof. apply ex_accepted; vm_compute; reflexivity. Qed.
Lemma ex_take_events : emitted ex_m (next_of ex_take) =
  [fill_ev Bid id_a1 50 150 2 1; out_ev Ask id_a1 0 2; fill_ev Bid id_a2 60 180 3 1;
   out_ev Ask id_a2 0 3; out_ev Bid id_b1 40 4].
Proof. vm_compute. reflexivity. Qed.

(** ** C13 *)
(** Every event about an opposite order concerns the order which, after the previous
    events, is ahead of all other opposite orders. *)
Theorem C13_priority : forall (C : Type) (same_id : C -> C -> bool) c m p sm m',
  accepted same_id c m p sm m' ->
  forall E1 ev E2, emitted m m' = E1 ++ ev :: E2 ->
  event_id ev ∈ map o_id (resting m (opposite (p_side p))) ->
  exists o, o ∈ apply_events (resting m (opposite (p_side p))) E1 /\ o_id o = event_id ev /\
    forall o', o' ∈ apply_events (resting m (opposite (p_side p))) E1 -> o' <> o ->
      ahead (opposite (p_side p)) (o_id o) (o_id o').
Proof. exact @priority. Qed.
Print Assumptions C13_priority.
(** Opposite orders left untouched are behind all orders that were matched. *)
Theorem C13_untouched_behind : forall (C : Type) (same_id : C -> C -> bool) c m p sm m',
  accepted same_id c m p sm m' ->
  forall ev o, ev ∈ emitted m m' ->
  event_id ev ∈ map o_id (resting m (opposite (p_side p))) ->
  o ∈ resting m (opposite (p_side p)) -> about (o_id o) (emitted m m') = [] ->
  ahead (opposite (p_side p)) (event_id ev) (o_id o).
Proof. exact @untouched_behind. Qed.
Print Assumptions C13_untouched_behind.
(** All events are about opposite orders or are outs of own-side orders (evictions). *)
Theorem C13_event_sources : forall (C : Type) (same_id : C -> C -> bool) c m p sm m',
  accepted same_id c m p sm m' ->
  forall ev, ev ∈ emitted m m' ->
  event_id ev ∈ map o_id (resting m (opposite (p_side p))) \/
  (is_fill ev = false /\ event_id ev ∈ map o_id (resting m (p_side p))).
Proof. exact @event_sources. Qed.
Print Assumptions C13_event_sources.
(** The "ahead" relation follows posting time: of two orders posted on the same side at
    the same price, the one posted first is ahead. *)
Theorem C13_time : forall (C : Type) (same_id : C -> C -> bool) c log1 e1 log2 e2 log3 m id1 id2,
  config_ok c -> history same_id c (log1 ++ e1 :: log2 ++ e2 :: log3) m ->
  N.of_nat (length (log1 ++ e1 :: log2 ++ e2 :: log3)) < p63 ->
  posted_id e1 = Some id1 -> posted_id e2 = Some id2 -> side_of_id id1 = side_of_id id2 ->
  id_seq (side_of_id id1) id1 < id_seq (side_of_id id2) id2 /\
  (id_price id1 = id_price id2 -> ahead (side_of_id id1) id1 id2).
Proof. exact @posted_time. Qed.
Print Assumptions C13_time.
Example C13_example : ahead Ask id_a1 id_a2 /\ ahead Ask id_a2 id_a3 /\
  accepted N.eqb ex_cfg ex_m ex_take ex_take_sum (next_of ex_take) /\
  map event_id (emitted ex_m (next_of ex_take)) = [id_a1; id_a1; id_a2; id_a2; id_b1] /\
  map o_id (resting ex_m Ask) = [id_a1; id_a2; id_a3].
Proof.
  split; [right; split; vm_compute; reflexivity|]. split; [left; vm_compute; reflexivity|].
  split; [exact ex_take_accepted|]. vm_compute. auto.
Qed.

(** ** C14 *)
Theorem C14_limit_price : forall (C : Type) (same_id : C -> C -> bool) c m p sm m',
  accepted same_id c m p sm m' ->
  forall e mk tk, EvFill e mk tk ∈ emitted m m' ->
  fe_maker_id e ∈ map o_id (resting m (opposite (p_side p))) /\
  crossing (p_side p) (limit_price p) (id_price (fe_maker_id e)).
Proof. exact @fill_limit. Qed.
Print Assumptions C14_limit_price.
Example C14_example : crossing Bid (limit_price ex_take) (id_price id_a1) /\
  ~ crossing Bid (limit_price ex_take) (id_price id_a3).
Proof. vm_compute. split; [discriminate|]. intros H. by destruct H. Qed.

(** ** C15 *)
Theorem C15_quantity_limits : forall (C : Type) (same_id : C -> C -> bool) c m p sm m',
  accepted same_id c m p sm m' ->
  total_base_qty sm <= max_base_qty p /\ total_quote_qty sm <= max_quote_qty p /\
  total_base_qty_posted sm <= total_base_qty sm.
Proof. exact @summary_limits. Qed.
Print Assumptions C15_quantity_limits.
(** A quote limit of 200 stops the same order after 50 + 16 units. *)
Example C15_example :
  let p := ex_params Bid 120 200 6 10 1 false true CancelProvide in
  res_of p = Ok (Some (mk_summary None 66 198 0)).
Proof. vm_compute. reflexivity. Qed.

(** ** C16 *)
Theorem C16_summary : forall (C : Type) (same_id : C -> C -> bool) c m p sm m',
  accepted same_id c m p sm m' ->
  total_base_qty sm = sumN fill_base (emitted m m') + total_base_qty_posted sm /\
  total_quote_qty sm = sumN fill_quote (emitted m m') +
    match posted_order_id sm with
    | Some _ => quote_amount (p_side p) (total_base_qty_posted sm) (limit_price p)
    | None => 0
    end /\
  (posted_order_id sm = None -> total_base_qty_posted sm = 0).
Proof. exact @summary_sums. Qed.
Print Assumptions C16_summary.
Example C16_example : sumN fill_base (emitted ex_m (next_of ex_take)) = 110 /\
  sumN fill_quote (emitted ex_m (next_of ex_take)) = 330 /\
  quote_amount Bid 10 (limit_price ex_take) = 30.
Proof. vm_compute. auto. Qed.

(** ** C17 *)
Theorem C17_fill_amounts : forall (C : Type) (same_id : C -> C -> bool) c m p sm m',
  accepted same_id c m p sm m' ->
  forall e mk tk, EvFill e mk tk ∈ emitted m m' ->
  0 < fe_base e /\ 0 < fe_quote e /\
  fe_quote e = quote_amount (p_side p) (fe_base e) (id_price (fe_maker_id e)) /\
  match p_side p with
  | Bid => fe_base e * id_price (fe_maker_id e) <= fe_quote e * p32
             < fe_base e * id_price (fe_maker_id e) + p32
  | Ask => fe_quote e * p32 <= fe_base e * id_price (fe_maker_id e) < fe_quote e * p32 + p32
  end.
Proof. exact @fill_amounts. Qed.
Print Assumptions C17_fill_amounts.
Theorem C17_fill_parties : forall (C : Type) (same_id : C -> C -> bool) c m p sm m',
  accepted same_id c m p sm m' ->
  forall e mk tk, EvFill e mk tk ∈ emitted m m' ->
  fe_taker_side e = side_u8 (p_side p) /\ tk = p_callback p /\
  exists o, o ∈ resting m (opposite (p_side p)) /\ o_id o = fe_maker_id e /\ o_cb o = mk.
Proof. exact @fill_parties. Qed.
Print Assumptions C17_fill_parties.
(** An ask for 11 units takes 11 at 2.5 for 27; the exact value is 27.5. *)
Example C17_example :
  let p := ex_params Ask 11 100000 5 10 9 false true CancelProvide in
  res_of p = Ok (Some (mk_summary None 11 27 0)) /\
  emitted ex_m (next_of p) = [fill_ev Ask id_b2 11 27 5 9].
Proof. vm_compute. auto. Qed.

(** ** C18 *)
Theorem C18_conservation : forall (C : Type) (same_id : C -> C -> bool) c m p sm m',
  accepted same_id c m p sm m' ->
  forall o, o ∈ resting m (opposite (p_side p)) ->
  o_qty o = qty_in (resting m' (opposite (p_side p))) (o_id o)
            + sumN fill_base (about (o_id o) (emitted m m'))
            + sumN out_base (about (o_id o) (emitted m m')).
Proof. exact @maker_conservation. Qed.
Print Assumptions C18_conservation.
Theorem C18_opposite_replay : forall (C : Type) (same_id : C -> C -> bool) c m p sm m',
  accepted same_id c m p sm m' ->
  resting m' (opposite (p_side p)) = apply_events (resting m (opposite (p_side p))) (emitted m m').
Proof. exact @opposite_replay. Qed.
Print Assumptions C18_opposite_replay.
Theorem C18_untouched : forall (C : Type) (same_id : C -> C -> bool) c m p sm m',
  accepted same_id c m p sm m' ->
  forall o, o ∈ resting m (opposite (p_side p)) -> about (o_id o) (emitted m m') = [] ->
  o ∈ resting m' (opposite (p_side p)).
Proof. exact @maker_untouched. Qed.
Print Assumptions C18_untouched.
Theorem C18_no_new_opposite : forall (C : Type) (same_id : C -> C -> bool) c m p sm m',
  accepted same_id c m p sm m' ->
  forall o', o' ∈ resting m' (opposite (p_side p)) ->
  exists o, o ∈ resting m (opposite (p_side p)) /\ o_id o' = o_id o /\ o_cb o' = o_cb o /\
    o_qty o' <= o_qty o.
Proof. exact @maker_identity. Qed.
Print Assumptions C18_no_new_opposite.
Theorem C18_leaves_iff_out : forall (C : Type) (same_id : C -> C -> bool) c m p sm m',
  accepted same_id c m p sm m' ->
  forall o, o ∈ resting m (opposite (p_side p)) ->
  o_id o ∉ map o_id (resting m' (opposite (p_side p))) <->
  exists e cb, EvOut e cb ∈ emitted m m' /\ oe_id e = o_id o.
Proof. exact @maker_leaves. Qed.
Print Assumptions C18_leaves_iff_out.
(** Taking 43 of the 50 units leaves 7 < 10, reported in the Out. *)
Example C18_example :
  let p := ex_params Bid 43 100000 6 10 9 false false CancelProvide in
  emitted ex_m (next_of p) = [fill_ev Bid id_a1 43 129 2 9; out_ev Ask id_a1 7 2] /\
  resting (next_of p) Ask = [(mk_leaf id_a2 60, 3); (mk_leaf id_a3 100, 1)].
Proof. vm_compute. auto. Qed.

(** ** C21 (the request part) *)
Theorem C21_price_check : forall (C : Type) (same_id : C -> C -> bool) c m p r m',
  reachable same_id c m -> op_typed (NewOrder p) -> exec same_id (NewOrder p) m = (r, m') ->
  r = Err InvalidLimitPrice <->
  (~ (c_tick c | limit_price p) \/ (post_allowed p = true /\ limit_price p < c_tick c)).
Proof. exact @new_order_price. Qed.
Print Assumptions C21_price_check.
Example C21_price_example :
  res_of (mk_params 100 100 (2147483648 * 3 + 1) Bid 10 1 false false DecrementTake) = Err InvalidLimitPrice /\
  res_of (mk_params 100 100 0 Bid 10 1 false true DecrementTake) = Err InvalidLimitPrice /\
  res_of (mk_params 100 100 0 Bid 10 1 false false DecrementTake) = Ok (Some (mk_summary None 0 0 0)).
Proof. vm_compute. auto. Qed.

(** ** C22 *)
Theorem C22_post_only : forall (C : Type) (same_id : C -> C -> bool) c m p sm m',
  accepted same_id c m p sm m' -> post_only p = true ->
  resting m' (opposite (p_side p)) = resting m (opposite (p_side p)) /\
  (forall ev, ev ∈ emitted m m' -> event_id ev ∉ map o_id (resting m (opposite (p_side p)))) /\
  (posted_order_id sm <> None ->
   forall o, o ∈ resting m (opposite (p_side p)) ->
     ~ crossing (p_side p) (limit_price p) (id_price (o_id o))).
Proof. exact @post_only_facts. Qed.
Print Assumptions C22_post_only.
(** A crossing post_only order succeeds without any effect. *)
Theorem C22_post_only_crossing : forall (C : Type) (same_id : C -> C -> bool) c m p sm m',
  accepted same_id c m p sm m' -> post_only p = true ->
  (exists o, o ∈ resting m (opposite (p_side p)) /\
     crossing (p_side p) (limit_price p) (id_price (o_id o))) ->
  posted_order_id sm = None /\ total_base_qty sm = 0 /\ total_quote_qty sm = 0 /\
  emitted m m' = [] /\ forall sd, resting m' sd = resting m sd.
Proof. exact @post_only_crossing. Qed.
Print Assumptions C22_post_only_crossing.
(** "A crossing post_only order fails" (documentation of the parameter) is false. *)
Theorem C22_crossing_fails_refuted : exists (p : params N) sm m',
  accepted N.eqb ex_cfg ex_m p sm m' /\ post_only p = true /\
  exists o, o ∈ resting ex_m (opposite (p_side p)) /\
    crossing (p_side p) (limit_price p) (id_price (o_id o)).
Proof.
  exists (ex_params Bid 120 100000 6 10 1 true true CancelProvide), (mk_summary None 0 0 0).
  eexists. split; [apply ex_accepted; vm_compute; reflexivity|]. split; [reflexivity|].
  exists (mk_leaf id_a1 50, 2). split; [vm_compute; left|]. vm_compute. discriminate.
Qed.
Print Assumptions C22_crossing_fails_refuted.
Example C22_example : exists id,
  res_of (ex_params Bid 120 100000 5 10 1 true true CancelProvide)
    = Ok (Some (mk_summary (Some id) 120 300 120)).
Proof. eexists. vm_compute. reflexivity. Qed.

(** ** C23 *)
Theorem C23_post_not_allowed : forall (C : Type) (same_id : C -> C -> bool) c m p sm m',
  accepted same_id c m p sm m' -> post_allowed p = false ->
  resting m' (p_side p) = resting m (p_side p) /\ posted_order_id sm = None /\
  total_base_qty_posted sm = 0 /\
  (forall ev, ev ∈ emitted m m' -> event_id ev ∉ map o_id (resting m (p_side p))).
Proof. exact @post_forbidden. Qed.
Print Assumptions C23_post_not_allowed.
Example C23_example :
  res_of (ex_params Bid 120 100000 6 10 1 false false CancelProvide)
    = Ok (Some (mk_summary None 110 330 0)).
Proof. vm_compute. reflexivity. Qed.

(** ** C24 *)
Theorem C24_match_limit : forall (C : Type) (same_id : C -> C -> bool) c m p sm m',
  accepted same_id c m p sm m' ->
  N.of_nat (length (List.filter is_fill (emitted m m'))) <= match_limit p /\
  (forall ids, NoDup ids ->
     (forall id, id ∈ ids -> id ∈ map o_id (resting m (opposite (p_side p))) /\
                  about id (emitted m m') <> []) ->
     N.of_nat (length ids) <= match_limit p) /\
  N.of_nat (length (emitted m m')) <= 2 * match_limit p + 1.
Proof. exact @match_limit_bounds. Qed.
Print Assumptions C24_match_limit.
Theorem C24_match_limit_zero : forall (C : Type) (same_id : C -> C -> bool) c m p sm m',
  accepted same_id c m p sm m' -> match_limit p = 0 ->
  emitted m m' = [] /\ posted_order_id sm = None /\ total_base_qty sm = 0 /\
  total_quote_qty sm = 0 /\ forall sd, resting m' sd = resting m sd.
Proof. exact @match_limit_zero. Qed.
Print Assumptions C24_match_limit_zero.
Example C24_example :
  res_of (ex_params Bid 120 100000 6 1 1 false true CancelProvide) = Ok (Some (mk_summary None 50 150 0)) /\
  res_of (ex_params Bid 120 100000 1 0 1 false true CancelProvide) = Ok (Some (mk_summary None 0 0 0)).
Proof. vm_compute. auto. Qed.

(** ** C25 *)
Theorem C25_no_self_fill : forall (C : Type) (same_id : C -> C -> bool) c m p sm m',
  accepted same_id c m p sm m' -> stb p <> DecrementTake ->
  forall e mk tk, EvFill e mk tk ∈ emitted m m' -> same_id tk mk = false.
Proof. exact @no_self_fill. Qed.
Print Assumptions C25_no_self_fill.
(** AbortTransaction: fails with WouldSelfTrade exactly when ignoring identities would
    have produced a self fill; otherwise it behaves as if identities were ignored. *)
Theorem C25_abort_transaction : forall (C : Type) (same_id : C -> C -> bool) c m p sm m',
  reachable same_id c m -> op_typed (NewOrder p) ->
  exec same_id (NewOrder (with_stb p DecrementTake)) m = (Ok (Some sm), m') ->
  exec same_id (NewOrder (with_stb p AbortTransaction)) m =
    if existsb (self_fill same_id) (emitted m m') then (Err WouldSelfTrade, m) else (Ok (Some sm), m').
Proof. exact @abort_transaction. Qed.
Print Assumptions C25_abort_transaction.
Theorem C25_abort_failure : forall (C : Type) (same_id : C -> C -> bool) c m p e m',
  reachable same_id c m -> op_typed (NewOrder p) ->
  exec same_id (NewOrder (with_stb p DecrementTake)) m = (Err e, m') ->
  exec same_id (NewOrder (with_stb p AbortTransaction)) m = (Err e, m) \/
  exec same_id (NewOrder (with_stb p AbortTransaction)) m = (Err WouldSelfTrade, m).
Proof. exact @abort_failure. Qed.
Print Assumptions C25_abort_failure.
(** CancelProvide: an own opposite order is either left alone or removed with a single
    Out event carrying its full quantity... *)
Theorem C25_cancel_provide : forall (C : Type) (same_id : C -> C -> bool) c m p sm m',
  accepted same_id c m p sm m' -> stb p = CancelProvide ->
  forall o, o ∈ resting m (opposite (p_side p)) -> same_id (p_callback p) (o_cb o) = true ->
  (about (o_id o) (emitted m m') = [] /\ o ∈ resting m' (opposite (p_side p))) \/
  (about (o_id o) (emitted m m') =
     [EvOut (mk_out_event tag_out (side_u8 (opposite (p_side p))) 0 (o_id o) (o_qty o)) (o_cb o)] /\
   o_id o ∉ map o_id (resting m' (opposite (p_side p)))).
Proof. exact @cancel_provide. Qed.
Print Assumptions C25_cancel_provide.
(** ...and removed whenever an order not ahead of it was matched or cancelled. *)
Theorem C25_cancel_provide_removed : forall (C : Type) (same_id : C -> C -> bool) c m p sm m',
  accepted same_id c m p sm m' -> stb p = CancelProvide ->
  forall o ev, o ∈ resting m (opposite (p_side p)) -> same_id (p_callback p) (o_cb o) = true ->
  ev ∈ emitted m m' -> event_id ev ∈ map o_id (resting m (opposite (p_side p))) ->
  ~ ahead (opposite (p_side p)) (event_id ev) (o_id o) ->
  about (o_id o) (emitted m m') =
    [EvOut (mk_out_event tag_out (side_u8 (opposite (p_side p))) 0 (o_id o) (o_qty o)) (o_cb o)].
Proof. exact @cancel_provide_ahead. Qed.
Print Assumptions C25_cancel_provide_removed.
(** DecrementTake: the result does not depend on identities, and is never WouldSelfTrade. *)
Theorem C25_decrement_take : forall (C : Type) (same_id same_id' : C -> C -> bool) p m,
  stb p = DecrementTake -> exec same_id (NewOrder p) m = exec same_id' (NewOrder p) m.
Proof. exact @decrement_take_blind. Qed.
Print Assumptions C25_decrement_take.
Theorem C25_decrement_never_aborts : forall (C : Type) (same_id : C -> C -> bool) c m p m',
  reachable same_id c m -> op_typed (NewOrder p) -> stb p = DecrementTake ->
  exec same_id (NewOrder p) m <> (Err WouldSelfTrade, m').
Proof. exact @decrement_never_self. Qed.
Print Assumptions C25_decrement_never_aborts.
(** Owner 3 bids 70 at 3: 50 from owner 2, then their own order. *)
Example C25_example :
  let p b := ex_params Bid 70 100000 6 10 3 false false b in
  emitted ex_m (next_of (p CancelProvide)) =
    [fill_ev Bid id_a1 50 150 2 3; out_ev Ask id_a1 0 2; out_ev Ask id_a2 60 3] /\
  emitted ex_m (next_of (p DecrementTake)) =
    [fill_ev Bid id_a1 50 150 2 3; out_ev Ask id_a1 0 2; fill_ev Bid id_a2 20 60 3 3] /\
  res_of (p AbortTransaction) = Err WouldSelfTrade.
Proof. vm_compute. auto. Qed.

(** Why an Out event is emitted: self-trade cancellation, dust after a fill, eviction. *)
Theorem C25_out_reasons : forall (C : Type) (same_id : C -> C -> bool) c m p sm m',
  accepted same_id c m p sm m' ->
  forall F1 e cb F2, emitted m m' = F1 ++ EvOut e cb :: F2 ->
  (stb p = CancelProvide /\ same_id (p_callback p) cb = true /\
   oe_id e ∈ map o_id (resting m (opposite (p_side p)))) \/
  (exists F0 e0 mk tk, F1 = F0 ++ [EvFill e0 mk tk] /\ fe_maker_id e0 = oe_id e /\
     oe_base e < c_min c) \/
  (F2 = [] /\ posted_order_id sm <> None /\ oe_id e ∈ map o_id (resting m (p_side p))).
Proof. exact @out_reason. Qed.
Print Assumptions C25_out_reasons.

(** ** C26 *)
Theorem C26_eviction : forall (C : Type) (same_id : C -> C -> bool) c m p sm m',
  accepted same_id c m p sm m' ->
  let own := resting m (p_side p) in
  (forall ev, ev ∈ emitted m m' -> event_id ev ∈ map o_id own ->
     length own = capacity c (p_side p) /\ posted_order_id sm <> None) /\
  (length own = capacity c (p_side p) -> posted_order_id sm <> None ->
   exists w E, w ∈ own /\ (forall o, o ∈ own -> o <> w -> ahead (p_side p) (o_id o) (o_id w)) /\
     better_price (p_side p) (limit_price p) (id_price (o_id w)) /\
     emitted m m' =
       E ++ [EvOut (mk_out_event tag_out (side_u8 (p_side p)) 0 (o_id w) (o_qty w)) (o_cb w)] /\
     (forall ev, ev ∈ E -> event_id ev ∉ map o_id own) /\
     o_id w ∉ map o_id (resting m' (p_side p))).
Proof. exact @eviction. Qed.
Print Assumptions C26_eviction.
(** Exactly when, and how much, a new order posts. *)
Theorem C26_posting_condition : forall (C : Type) (same_id : C -> C -> bool) c m p sm m',
  accepted same_id c m p sm m' ->
  let rem_base := max_base_qty p - sumN fill_base (emitted m m') in
  let rem_quote := max_quote_qty p - sumN fill_quote (emitted m m') in
  let size := N.min (rem_quote * p32 / limit_price p) rem_base in
  (posted_order_id sm <> None <->
   post_allowed p = true /\
   interactions same_id p (emitted m m') < match_limit p /\
   (forall o, o ∈ resting m' (opposite (p_side p)) ->
      ~ crossing (p_side p) (limit_price p) (id_price (o_id o))) /\
   c_min c <= size /\
   ((length (resting m (p_side p)) < capacity c (p_side p))%nat \/
    exists w, w ∈ resting m (p_side p) /\
      better_price (p_side p) (limit_price p) (id_price (o_id w)))) /\
  (posted_order_id sm <> None -> total_base_qty_posted sm = size).
Proof. exact @posting_condition. Qed.
Print Assumptions C26_posting_condition.
(** A full side does not keep out an order that has traded: it evicts whenever it may
    post. *)
Theorem C26_traded : forall (C : Type) (same_id : C -> C -> bool) c m p sm m',
  accepted same_id c m p sm m' -> (exists ev, ev ∈ emitted m m' /\ is_fill ev = true) ->
  let rem_base := max_base_qty p - sumN fill_base (emitted m m') in
  let rem_quote := max_quote_qty p - sumN fill_quote (emitted m m') in
  posted_order_id sm <> None <->
  post_allowed p = true /\ interactions same_id p (emitted m m') < match_limit p /\
  (forall o, o ∈ resting m' (opposite (p_side p)) -> ~ crossing (p_side p) (limit_price p) (id_price (o_id o))) /\
  c_min c <= N.min (rem_quote * p32 / limit_price p) rem_base.
Proof.
  intros C same_id c m p sm m' H (ev&Hev&Hf). destruct (C26_posting_condition _ _ _ _ _ _ _ H) as [P _]. cbn zeta in *. rewrite P.
  destruct ev as [e mk tk|]; [|done]. destruct (C14_limit_price _ _ _ _ _ _ _ H _ _ _ Hev) as [Hin Hx].
  split; [by intros (?&?&?&?&_)|]. intros (?&?&?&?). split_and!; try done.
  destruct (decide (length (resting m (p_side p)) < capacity c (p_side p))%nat) as [|Hfull]; [by left|]. right.
  apply elem_of_list_fmap in Hin as (o&Ho&Hin). rewrite Ho in Hx. destruct H as (Hr&_).
  destruct (resting m (p_side p)) as [|w ws] eqn:Ew.
  { exfalso. apply Hfull. destruct Hr as ((_&_&B1&_&B2&_)&_). cbn [length]. destruct (p_side p); cbn; lia. }
  exists w. split; [left|]. assert (Hw : w ∈ resting m (p_side p)) by (rewrite Ew; left).
  destruct (p_side p); cbn [opposite crossing better_price] in *.
  - pose proof (never_crossed _ _ _ _ _ Hr Hw Hin). lia.
  - pose proof (never_crossed _ _ _ _ _ Hr Hin Hw). lia.
Qed.
Print Assumptions C26_traded.
(** On the full bid side a bid of 70 at 3 buys 50 at 3, withdraws its own order there and
    evicts the bid at 2 to post the remaining 20. *)
Example C26_traded_example :
  let p := ex_params Bid 70 100000 6 10 3 false true CancelProvide in
  res_of p = Ok (Some (mk_summary (Some 237684487561239756854341402618) 70 210 20)) /\
  length (resting ex_m Bid) = capacity ex_cfg Bid /\
  emitted ex_m (next_of p) = [fill_ev Bid id_a1 50 150 2 3; out_ev Ask id_a1 0 2; out_ev Ask id_a2 60 3; out_ev Bid id_b1 40 4].
Proof. vm_compute. auto. Qed.
(** A bid at 2 does not evict the bid at 2; a bid at 2.5 does. *)
Example C26_example :
  length (resting ex_m Bid) = capacity ex_cfg Bid /\
  res_of (ex_params Bid 20 100000 4 10 9 false true CancelProvide) = Ok (Some (mk_summary None 0 0 0)) /\
  emitted ex_m (next_of (ex_params Bid 20 100000 5 10 9 false true CancelProvide)) = [out_ev Bid id_b1 40 4].
Proof. vm_compute. auto. Qed.

(** ** C27 *)
Theorem C27_outcomes : forall (C : Type) (same_id : C -> C -> bool) c m p r m',
  reachable same_id c m -> op_typed (NewOrder p) -> exec same_id (NewOrder p) m = (r, m') ->
  (exists sm, r = Ok (Some sm)) \/
  (m' = m /\ (r = Err InvalidLimitPrice \/ r = Err WouldSelfTrade \/ r = Err EventQueueFull)).
Proof. exact @new_order_outcomes. Qed.
Print Assumptions C27_outcomes.
(** All parameters at their maximum (the price being the largest multiple of the tick). *)
Example C27_example :
  let u := 18446744073709551615 in
  let p sd price := mk_params u u price sd u 7 false true CancelProvide in
  res_of (p Bid (2147483648 * (p64 / 2147483648 - 1))) =
    Ok (Some (mk_summary (Some 340282366881324382224689182708705787898)
                4294967506 18446744071562068648 4294967296)) /\
  res_of (p Ask 2147483648) =
    Ok (Some (mk_summary (Some 39614081257132168796771975173)
                18446744073709551615 9223372036854775957 18446744073709551530)).
Proof. vm_compute. auto. Qed.

(** ** C28 *)
Theorem C28_queue_room : forall (C : Type) (same_id : C -> C -> bool) c m p r m',
  reachable same_id c m -> op_typed (NewOrder p) -> exec same_id (NewOrder p) m = (r, m') ->
  N.of_nat (length (pending m)) + 2 * match_limit p + 1 <= N.of_nat (c_events c) ->
  r <> Err EventQueueFull.
Proof. exact @queue_room. Qed.
Print Assumptions C28_queue_room.
Theorem C28_queue_room_book : forall (C : Type) (same_id : C -> C -> bool) c m p r m',
  reachable same_id c m -> op_typed (NewOrder p) -> exec same_id (NewOrder p) m = (r, m') ->
  (length (pending m) + 3 * length (resting m (opposite (p_side p))) + 1 <= c_events c)%nat ->
  r <> Err EventQueueFull.
Proof. exact @queue_room_book. Qed.
Print Assumptions C28_queue_room_book.
Theorem C28_event_count : forall (C : Type) (same_id : C -> C -> bool) c m p sm m',
  accepted same_id c m p sm m' ->
  (length (emitted m m') <= 3 * length (resting m (opposite (p_side p))) + 1)%nat.
Proof. exact @event_count. Qed.
Print Assumptions C28_event_count.
(** Room for two events per opposite order plus one is not enough: an ask can fill the
    same bid twice (the remaining quote, after rounding down, buys again).  One bid
    (11 at 1.75) rests, three slots are free, and an ask limited to 3 quote units needs
    four: two fills, the out of the bid, and the eviction of an ask. *)
Definition ex_cfg2 : config N := mk_config 10 268435456 0 2 1 5 0 0.
Definition ex_new2 (sd : side) (base quote price cb : N) (pa : bool) : op N :=
  NewOrder (mk_params base quote (price * 268435456) sd 10 cb false pa DecrementTake).
Definition ex_ops2 : list (op N) :=
  [ex_new2 Ask 20 100 32 1 true; ex_new2 Bid 20 100 32 2 false; ex_new2 Bid 11 100 28 2 true;
   ex_new2 Ask 20 100 32 1 true].
Theorem C28_two_events_per_order_refuted : exists (c : config N) m p m',
  reachable N.eqb c m /\ op_typed (NewOrder p) /\
  (length (pending m) + 2 * length (resting m (opposite (p_side p))) + 1 <= c_events c)%nat /\
  exec N.eqb (NewOrder p) m = (Err EventQueueFull, m').
Proof.
  exists ex_cfg2, (after N.eqb ex_cfg2 ex_ops2),
    (mk_params 100 3 268435456 Ask 10 3 false true DecrementTake), (after N.eqb ex_cfg2 ex_ops2).
  split; [apply after_reachable; [unfold config_ok; cbn; lia|vm_compute; reflexivity..]|].
  split; [apply op_typedb_ok; vm_compute; reflexivity|].
  split; [apply Nat.leb_le; vm_compute; reflexivity|]. vm_compute. reflexivity.
Qed.
Print Assumptions C28_two_events_per_order_refuted.
Example C28_example : length (pending ex_m) = 0%nat /\
  N.of_nat (length (pending ex_m)) + 2 * 5 + 1 <= N.of_nat (c_events ex_cfg) /\
  res_of (ex_params Bid 1000 100000 100 5 9 false true DecrementTake) =
    Ok (Some (mk_summary (Some 3961408125731663623750907068410) 1000 40180 790)).
Proof. vm_compute. split; [reflexivity|]. split; [discriminate|reflexivity]. Qed.

(** ** C38 *)
Theorem C38_posted_visible : forall (C : Type) (same_id : C -> C -> bool) c m p sm m',
  accepted same_id c m p sm m' ->
  match posted_order_id sm with
  | Some id =>
      resting m' (p_side p) ≡ₚ
        (mk_leaf id (total_base_qty_posted sm), p_callback p)
        :: apply_events (resting m (p_side p)) (emitted m m') /\
      (forall sd, id ∉ map o_id (resting m sd)) /\
      c_min c <= total_base_qty_posted sm
  | None => resting m' (p_side p) = resting m (p_side p)
  end.
Proof. exact @posted_visible. Qed.
Print Assumptions C38_posted_visible.
Example C38_example : resting (next_of ex_take) Bid =
  [(mk_leaf id_b2 45, 5); (mk_leaf 237684487561239756854341402618 10, 1)].
Proof. vm_compute. reflexivity. Qed.

(** ** C47 *)
Theorem C47_matching_is_maximal : forall (C : Type) (same_id : C -> C -> bool) c m p sm m',
  accepted same_id c m p sm m' ->
  post_only p = false -> interactions same_id p (emitted m m') < match_limit p ->
  let rem_base := max_base_qty p - sumN fill_base (emitted m m') in
  let rem_quote := max_quote_qty p - sumN fill_quote (emitted m m') in
  forall o, o ∈ resting m' (opposite (p_side p)) ->
  crossing (p_side p) (limit_price p) (id_price (o_id o)) ->
  (forall o', o' ∈ resting m' (opposite (p_side p)) -> o' <> o ->
     ahead (opposite (p_side p)) (o_id o) (o_id o')) ->
  rem_base = 0 \/
  rem_quote * p32 < id_price (o_id o) \/
  (p_side p = Ask /\
   N.min (N.min (o_qty o) rem_base) (rem_quote * p32 / id_price (o_id o)) * id_price (o_id o) < p32).
Proof. exact @matching_maximal. Qed.
Print Assumptions C47_matching_is_maximal.
Example C47_example :
  let p := ex_params Bid 120 200 6 10 1 false true CancelProvide in
  interactions N.eqb p (emitted ex_m (next_of p)) < match_limit p /\
  resting (next_of p) Ask = [(mk_leaf id_a2 44, 3); (mk_leaf id_a3 100, 1)] /\
  max_quote_qty p - sumN fill_quote (emitted ex_m (next_of p)) = 2.
Proof. vm_compute. auto. Qed.
