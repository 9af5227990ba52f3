(** * PropsCompare.v: C61 (comparing two requests), C62 (posting then cancelling),
    C63 (the order of cancellations)

    Vocabulary: CompareSpec.v, MoreSpec.v, Spec.v. *)
From Verif Require Import Machine Critbit EventQueue OrderBook Market Spec MoreSpec CompareSpec ExampleRuns.
From Verif Require Import EngineProofs NewOrderProps2 HistoryProps CompareProofs FundsProofs CommuteProofs PropsOrder PropsMarket.

(** ** C61: what changing one field of a request changes *)
(** Stricter limit price, fewer matches: what the stricter request does to the orders it
    meets is the beginning of what the other one does, event for event. *)
Theorem C61_tighter_prefix : forall (C : Type) (same_id : C -> C -> bool) c m p q smp mp smq mq,
  accepted same_id c m p smp mp -> accepted same_id c m q smq mq -> tighter p q ->
  exists rest, matched (p_side q) m mq = matched (p_side p) m mp ++ rest.
Proof. exact @tighter_prefix. Qed.
Print Assumptions C61_tighter_prefix.
(** And the stricter request, when it does not post, is accepted whenever the other one is. *)
Theorem C61_tighter_accepted : forall (C : Type) (same_id : C -> C -> bool) c m p q smq mq,
  accepted same_id c m q smq mq -> tighter p q ->
  op_typed (NewOrder p) -> (c_tick c | limit_price p) -> post_allowed p = false ->
  exists smp mp, exec same_id (NewOrder p) m = (Ok (Some smp), mp).
Proof. exact @tighter_accepted. Qed.
Print Assumptions C61_tighter_accepted.
(** Asking for less base never trades more; and either everything asked for was traded, or
    the trades are the beginning of the other request's trades. *)
Theorem C61_less_base : forall (C : Type) (same_id : C -> C -> bool) c m p q smp mp smq mq,
  accepted same_id c m p smp mp -> accepted same_id c m q smq mq -> less_base p q ->
  sumN fill_base (emitted m mp) <= sumN fill_base (emitted m mq) /\
  ((exists rest, matched (p_side q) m mq = matched (p_side p) m mp ++ rest) \/
   sumN fill_base (emitted m mp) = max_base_qty p).
Proof. exact @less_base_fills. Qed.
Print Assumptions C61_less_base.
(** A buyer who offers less money never gets more. *)
Theorem C61_less_funds_bid : forall (C : Type) (same_id : C -> C -> bool) c m p q smp mp smq mq,
  accepted same_id c m p smp mp -> accepted same_id c m q smq mq -> less_funds p q -> p_side p = Bid ->
  sumN fill_base (emitted m mp) <= sumN fill_base (emitted m mq).
Proof. exact @less_funds_fills. Qed.
Print Assumptions C61_less_funds_bid.
(** The same is false of sellers: raising max_quote_qty can make a sale smaller, here from
    101 base units to 3. (299 is reached by 2 units sold at 100, after which the bid's
    remainder is below the minimum size and removed, and 99 units sold at 1; 300 is reached
    by 3 units at 100.) *)
Definition cm_cfg : config N := mk_config 9 4294967296 0 4 4 16 0 0.
Definition cm_ops : list (op N) :=
  [NewOrder (mk_params 10 100000 (100 * p32) Bid 5 1 false true DecrementTake);
   NewOrder (mk_params 200 100000 (1 * p32) Bid 5 2 false true DecrementTake)].
Definition cm_m : market N := Eval vm_compute in after N.eqb cm_cfg cm_ops.
Definition cm_sell (quote : N) : params N := mk_params 1000 quote (1 * p32) Ask 10 3 false false DecrementTake.
Lemma cm_reachable : reachable N.eqb cm_cfg cm_m.
Proof.
  change cm_m with (after N.eqb cm_cfg cm_ops).
  apply after_reachable; [unfold config_ok; cbn; lia|vm_compute; reflexivity|vm_compute; reflexivity].
Qed.
Lemma cm_accepted quote sm : op_typedb (NewOrder (cm_sell quote)) = true ->
  fst (exec N.eqb (NewOrder (cm_sell quote)) cm_m) = Ok (Some sm) ->
  accepted N.eqb cm_cfg cm_m (cm_sell quote) sm (snd (exec N.eqb (NewOrder (cm_sell quote)) cm_m)).
Proof.
  intros Hty Hr. split; [exact cm_reachable|]. split; [by apply op_typedb_ok|].
  destruct (exec N.eqb (NewOrder (cm_sell quote)) cm_m). cbn in *. by subst.
Qed.
Theorem C61_ask_quote_refuted :
  exists c m p q smp mp smq mq, accepted N.eqb c m p smp mp /\ accepted N.eqb c m q smq mq /\
  less_funds p q /\ p_side p = Ask /\ max_quote_qty p = 299 /\ max_quote_qty q = 300 /\
  sumN fill_base (emitted m mp) = 101 /\ sumN fill_base (emitted m mq) = 3.
Proof.
  exists cm_cfg, cm_m, (cm_sell 299), (cm_sell 300).
  eexists _, _, _, _. split; [eapply cm_accepted; vm_compute; reflexivity|].
  split; [eapply cm_accepted; vm_compute; reflexivity|].
  split; [repeat split; vm_compute; discriminate|]. by vm_compute.
Qed.
Print Assumptions C61_ask_quote_refuted.
(** But what they receive cannot become less: whoever asks for more of everything (base,
    quote, price and matches, all or some of them) never trades for less quote, buyer or
    seller; *)
Theorem C61_quote_traded : forall (C : Type) (same_id : C -> C -> bool) c m p q smp mp smq mq,
  accepted same_id c m p smp mp -> accepted same_id c m q smq mq -> less_of_all p q ->
  sumN fill_quote (emitted m mp) <= sumN fill_quote (emitted m mq).
Proof. intros C same_id c m p q smp mp smq mq Hp Hq Hl. by apply (less_of_all_trades _ _ _ _ _ _ _ _ _ Hp Hq Hl). Qed.
Print Assumptions C61_quote_traded.
(** and never for less base, if a seller's max_quote_qty stays the same. *)
Theorem C61_base_traded : forall (C : Type) (same_id : C -> C -> bool) c m p q smp mp smq mq,
  accepted same_id c m p smp mp -> accepted same_id c m q smq mq -> less_of_all p q ->
  (p_side p = Ask -> max_quote_qty p = max_quote_qty q) ->
  sumN fill_base (emitted m mp) <= sumN fill_base (emitted m mq).
Proof.
  intros C same_id c m p q smp mp smq mq Hp Hq Hl Hs. apply (less_of_all_trades _ _ _ _ _ _ _ _ _ Hp Hq Hl).
  destruct (p_side p); [by left|right; by apply Hs].
Qed.
Print Assumptions C61_base_traded.
(** Four bids on the example market of PropsOrder.v: one that takes two asks, and the same
    with a single match, with less base, with less base and less quote. *)
Definition cm_loose := ex_params Bid 120 100000 6 10 1 false false CancelProvide.
Definition cm_tight := ex_params Bid 120 100000 6 1 1 false false CancelProvide.
Definition cm_small := ex_params Bid 70 100000 6 10 1 false false CancelProvide.
Definition cm_poor := ex_params Bid 70 180 6 10 1 false false CancelProvide.
Example C61_example :
  accepted N.eqb ex_cfg ex_m cm_loose (mk_summary None 110 330 0) (next_of cm_loose) /\
  accepted N.eqb ex_cfg ex_m cm_tight (mk_summary None 50 150 0) (next_of cm_tight) /\
  accepted N.eqb ex_cfg ex_m cm_small (mk_summary None 70 210 0) (next_of cm_small) /\
  accepted N.eqb ex_cfg ex_m cm_poor (mk_summary None 60 180 0) (next_of cm_poor) /\
  tighter cm_tight cm_loose /\ less_base cm_small cm_loose /\ less_funds cm_poor cm_loose /\
  map event_id (matched Bid ex_m (next_of cm_loose)) = [id_a1; id_a1; id_a2; id_a2] /\
  map event_id (matched Bid ex_m (next_of cm_tight)) = [id_a1; id_a1] /\
  (c_tick ex_cfg | limit_price cm_tight).
Proof.
  split; [apply ex_accepted; by vm_compute|]. split; [apply ex_accepted; by vm_compute|].
  split; [apply ex_accepted; by vm_compute|]. split; [apply ex_accepted; by vm_compute|].
  split; [repeat split; vm_compute; discriminate|]. split; [repeat split; vm_compute; discriminate|].
  split; [repeat split; vm_compute; discriminate|].
  split; [by vm_compute|]. split; [by vm_compute|]. exists 6. by vm_compute.
Qed.

(** The seller of C61_ask_quote_refuted sells less, and receives more; a bid with less of
    everything. *)
Definition cm_less := ex_params Bid 70 180 6 1 1 false true CancelProvide.
Example C61_example_all :
  less_of_all (cm_sell 299) (cm_sell 300) /\
  sumN fill_quote (emitted cm_m (snd (exec N.eqb (NewOrder (cm_sell 299)) cm_m))) = 299 /\
  sumN fill_quote (emitted cm_m (snd (exec N.eqb (NewOrder (cm_sell 300)) cm_m))) = 300 /\
  accepted N.eqb ex_cfg ex_m cm_less (mk_summary None 50 150 0) (next_of cm_less) /\ less_of_all cm_less cm_loose /\
  sumN fill_quote (emitted ex_m (next_of cm_less)) = 150 /\ sumN fill_quote (emitted ex_m (next_of cm_loose)) = 330 /\
  sumN fill_base (emitted ex_m (next_of cm_less)) = 50 /\ sumN fill_base (emitted ex_m (next_of cm_loose)) = 110.
Proof.
  split; [repeat split; vm_compute; discriminate|]. split; [by vm_compute|]. split; [by vm_compute|].
  split; [apply ex_accepted; by vm_compute|]. split; [repeat split; vm_compute; discriminate|].
  split_and!; by vm_compute.
Qed.

(** ** C62: posting, then cancelling *)
(** The cancellation returns what was posted and no more, and its quote, rounded down; it
    undoes the posting and nothing else: on the order's side remain the orders that were
    there before, minus an evicted one; the other side and the events are untouched. *)
Theorem C62_post_cancel : forall (C : Type) (same_id : C -> C -> bool) c m p sm m' id,
  accepted same_id c m p sm m' -> reachable same_id c m' -> posted_order_id sm = Some id ->
  exists m'', exec same_id (CancelOrder id) m' =
      (Ok (Some (mk_summary None (total_base_qty_posted sm) (quote_amount Ask (total_base_qty_posted sm) (limit_price p)) 0)), m'') /\
    resting m'' (p_side p) = apply_events (resting m (p_side p)) (emitted m m') /\
    resting m'' (opposite (p_side p)) = resting m' (opposite (p_side p)) /\
    pending m'' = pending m'.
Proof. exact @post_cancel. Qed.
Print Assumptions C62_post_cancel.
(** When the request neither traded nor evicted, the book and the events are those of before
    the request: a quote can be placed and withdrawn without a trace (but for ids: C11). *)
Theorem C62_no_trace : forall (C : Type) (same_id : C -> C -> bool) c m p sm m' id,
  accepted same_id c m p sm m' -> reachable same_id c m' -> posted_order_id sm = Some id ->
  emitted m m' = [] ->
  exists r m'', exec same_id (CancelOrder id) m' = (Ok (Some r), m'') /\
    (forall sd, resting m'' sd = resting m sd) /\ pending m'' = pending m /\
    total_base_qty r = total_base_qty sm /\
    total_quote_qty r <= total_quote_qty sm <= total_quote_qty r + 1 /\
    (p_side p = Ask -> total_quote_qty r = total_quote_qty sm).
Proof. exact @post_cancel_no_trace. Qed.
Print Assumptions C62_no_trace.
Definition cm_post := ex_params Ask 33 100000 7 10 7 true true AbortTransaction.
Definition cm_bid := ex_params Bid 33 100000 5 10 7 true true AbortTransaction.
Definition cm_post_id : N := 277298568799925181577403826182.
Definition cm_bid_id : N := 198070406304107588057569427450.
Example C62_example :
  accepted N.eqb ex_cfg ex_m cm_bid (mk_summary (Some cm_bid_id) 33 83 33) (next_of cm_bid) /\
  emitted ex_m (next_of cm_bid) = [out_ev Bid id_b1 40 4] /\
  fst (exec N.eqb (CancelOrder cm_bid_id) (next_of cm_bid)) = Ok (Some (mk_summary None 33 82 0)) /\
  accepted N.eqb ex_cfg h_m cm_post (mk_summary (Some cm_post_id) 33 115 33) (snd (exec N.eqb (NewOrder cm_post) h_m)) /\
  emitted h_m (snd (exec N.eqb (NewOrder cm_post) h_m)) = [] /\ resting h_m Ask <> [] /\
  reachable N.eqb ex_cfg (next_of cm_bid).
Proof.
  split; [apply ex_accepted; by vm_compute|]. split; [by vm_compute|]. split; [by vm_compute|].
  split; [split; [exact h_reachable|]; split; [apply op_typedb_ok; by vm_compute|by vm_compute]|].
  split; [by vm_compute|]. split; [by vm_compute|].
  change (next_of cm_bid) with (after N.eqb ex_cfg (ex_ops ++ [NewOrder cm_bid])).
  apply after_reachable; [exact ex_cfg_ok|by vm_compute|by vm_compute].
Qed.

(** ** C63: the order in which two orders are cancelled does not matter *)
(** Each of the two cancellations gives the same answer whether it comes first or second
    ([same_answer]: up to the two ways of failing for an absent id, finding 1), and the two
    orders of execution lead to the same resting orders, events and next id. *)
Theorem C63_cancels_commute : forall (C : Type) (same_id : C -> C -> bool) c m a b ra rb ra' rb' ma mb mab mba,
  reachable same_id c m -> a <> b ->
  exec same_id (CancelOrder a) m = (ra, ma) -> exec same_id (CancelOrder b) ma = (rb, mab) ->
  exec same_id (CancelOrder b) m = (rb', mb) -> exec same_id (CancelOrder a) mb = (ra', mba) ->
  same_answer ra ra' /\ same_answer rb rb' /\ same_view mab mba.
Proof. exact @cancels_commute. Qed.
Print Assumptions C63_cancels_commute.
Example C63_example : reachable N.eqb ex_cfg ex_m /\ id_a1 <> id_a3 /\
  fst (exec N.eqb (CancelOrder id_a1) ex_m) = Ok (Some (mk_summary None 50 150 0)) /\
  fst (exec N.eqb (CancelOrder id_a3) ex_m) = Ok (Some (mk_summary None 100 350 0)) /\
  (* the bytes of the two slabs do differ *)
  m_book (snd (exec N.eqb (CancelOrder id_a3) (snd (exec N.eqb (CancelOrder id_a1) ex_m)))) <>
  m_book (snd (exec N.eqb (CancelOrder id_a1) (snd (exec N.eqb (CancelOrder id_a3) ex_m)))).
Proof. split; [exact ex_m_reachable|]. split; [done|]. split; [by vm_compute|]. split; by vm_compute. Qed.
(** The order of the ids in a mass cancellation does not matter either: both requests are
    accepted, with the same summary, or both are refused without effect. *)
Theorem C63_mass_cancel_any_order : forall (C : Type) (same_id : C -> C -> bool) c m ids ids' r r' m1 m1',
  reachable same_id c m -> ids ≡ₚ ids' ->
  exec same_id (MassCancelOrders ids) m = (r, m1) -> exec same_id (MassCancelOrders ids') m = (r', m1') ->
  same_view m1 m1' /\
  ((exists s, r = Ok (Some s) /\ r' = Ok (Some s)) \/ (m1 = m /\ m1' = m /\ (forall a, r <> Ok a) /\ forall a, r' <> Ok a)).
Proof.
  intros C same_id c m ids ids' r r' m1 m1' Hr Hp E E'.
  assert (Hd : forall os : list (order C), delete_ids ids os = delete_ids ids' os).
  { intros os. apply List.filter_ext. intros o. f_equal. apply eq_true_iff_eq. rewrite !existsb_exists.
    split; intros (x&Hx&Ex); exists x; split; try done; apply elem_of_list_In in Hx; apply elem_of_list_In; [by rewrite <- Hp|by rewrite Hp]. }
  destruct (C31_mass_cancel C same_id c m ids Hr) as [(N1&N2&N3&N4&m2&X&Y&Z)|(Hn&x&X&Y)];
  destruct (C31_mass_cancel C same_id c m ids' Hr) as [(N1'&N2'&N3'&N4'&m2'&X'&Y'&Z')|(Hn'&x'&X'&Y')].
  - rewrite E in X. rewrite E' in X'. injection X as -> ->. injection X' as -> ->. split.
    + split; [intros sd; by rewrite Y, Y', Hd|]. unfold pending. by rewrite Z, Z'.
    + left. eexists. split; [reflexivity|]. by rewrite !(sumN_perm _ _ _ Hp).
  - exfalso. apply Hn'. rewrite <- !(sumN_perm _ _ _ Hp), <- Hp. split_and!; try done. intros id Hid. apply N2. by rewrite Hp.
  - exfalso. apply Hn. rewrite !(sumN_perm _ _ _ Hp), Hp. split_and!; try done. intros id Hid. apply N2'. by rewrite <- Hp.
  - rewrite E in X. rewrite E' in X'. injection X as -> ->. injection X' as -> ->. split; [done|]. right.
    split; [done|]. split; [done|]. split; intros a; [by destruct Y as [->|[->| ->]]|by destruct Y' as [->|[->| ->]]].
Qed.
Print Assumptions C63_mass_cancel_any_order.
Example C63_mass_example :
  fst (exec N.eqb (MassCancelOrders [id_a1; id_a3]) ex_m) = Ok (Some (mk_summary None 150 500 0)) /\
  fst (exec N.eqb (MassCancelOrders [id_a3; id_a1]) ex_m) = Ok (Some (mk_summary None 150 500 0)).
Proof. split; by vm_compute. Qed.
