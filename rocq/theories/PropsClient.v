(** * PropsClient.v: the properties about the JavaScript client

    The client's functions are the model's (JsClient.v); [event_sane], [js_event_of] and
    [at_price] are defined in ClientSpec.v, [opens] and [ledger_ok] in LedgerSpec.v. *)
From Verif Require Import Machine Bytes Critbit EventQueue OrderBook Market Spec MachineProofs
  TreeProofs SlabProofs SlabProofs2 QueueProofs IdProofs Engine BookProofs EngineProofs MarketProofs
  MarketFacts InstrProps
  Layout LayoutProofs Borsh BorshProofs Ledger LedgerSpec LedgerProofs PropsLayout WorldProofs
  FollowProofs LedgerFacts LedgerFacts2
  JsClient ClientSpec EventProps JsProofs JsQueueProofs.
From Coq Require Import ZifyBool ZifyNat ZifyN.
From Coq Require Import Sorting.Sorted.

(** The account of one side of the book. *)
Definition slab_key (a : accounts) (sd : side) : N :=
  match sd with Bid => ac_bids a | Ask => ac_asks a end.

(** ** C54: the events of the queue are sane *)
Theorem C54_pending_sane : forall {C} (same_id : C -> C -> bool) c m,
  reachable same_id c m -> Forall (event_sane c) (pending m).
Proof. intros C same_id c m. apply pending_sane. Qed.

(** ** Lemmas on price levels *)
Definition level {C} (o : order C) : N * N := (o_qty o, id_price (o_id o)).
Lemma lsum_level {C} (os : list (order C)) p : lsum (map level os) p = at_price os p.
Proof.
  unfold lsum, at_price. induction os as [|o os IH]; [done|]. cbn [map List.filter level snd].
  destruct (id_price (o_id o) =? p); cbn [sumN fst]; rewrite IH; done.
Qed.
Lemma at_price_rev {C} (os : list (order C)) p : at_price (rev os) p = at_price os p.
Proof.
  unfold at_price. induction os as [|o os IH]; [done|]. cbn [rev].
  rewrite List.filter_app, sumN_app, IH. cbn [List.filter].
  destruct (id_price (o_id o) =? p); cbn [sumN]; lia.
Qed.
Lemma ss_map {A B} (R : B -> B -> Prop) (f : A -> B) l :
  StronglySorted (fun x y => R (f x) (f y)) l -> StronglySorted R (map f l).
Proof.
  induction 1 as [|x l Hl IH Hx]; cbn; constructor; [done|].
  apply Forall_forall. intros y Hy. apply elem_of_list_fmap in Hy as (z&->&Hz).
  by apply (proj1 (Forall_forall _ _) Hx).
Qed.

Lemma in_take {A} (x : A) n l : x ∈ take n l -> x ∈ l.
Proof. intros H. rewrite <- (take_drop n l). apply elem_of_app. by left. Qed.
(** Readers that consume a fixed number of bytes. *)
Definition takes {A} (n : nat) (r : reader A) : Prop :=
  forall b x rest, r b = Some (x, rest) -> length b = (n + length rest)%nat.
Lemma takes_raw n : takes n (rd_raw n).
Proof.
  intros b x rest. unfold rd_raw. destruct (Nat.ltb_spec (length b) n); [done|].
  intros E. injection E as <- <-. rewrite drop_length. lia.
Qed.
Lemma takes_bind {A B} i j (r : reader A) (f : A -> reader B) :
  takes i r -> (forall a, takes j (f a)) -> takes (i + j) (rd_bind r f).
Proof.
  intros Hr Hf b x rest. unfold rd_bind. destruct (r b) as [[a b']|] eqn:E; [|done].
  intros E'. apply Hr in E. apply Hf in E'. lia.
Qed.
Lemma takes_ret {A} (a : A) : takes 0 (rd_ret a).
Proof. intros b x rest E. by injection E as _ <-. Qed.
Lemma takes_uint n : takes n (rd_uint n).
Proof.
  replace n with (n + 0)%nat by lia. rewrite Nat.add_0_r at 2. apply takes_bind; [apply takes_raw|].
  intros; apply takes_ret.
Qed.
Lemma takes_bool : takes 1 rd_bool.
Proof.
  apply (takes_bind 1 0); [apply takes_uint|]. intros v b x rest.
  destruct (v =? 0); [intros E; by injection E as _ <-|].
  destruct (v =? 1); [intros E; by injection E as _ <-|done].
Qed.
Lemma takes_side : takes 1 rd_side.
Proof.
  apply (takes_bind 1 0); [apply takes_uint|]. intros v b x rest.
  destruct (v =? 0); [intros E; by injection E as _ <-|].
  destruct (v =? 1); [intros E; by injection E as _ <-|done].
Qed.
Lemma takes_stb : takes 1 rd_stb.
Proof.
  apply (takes_bind 1 0); [apply takes_uint|]. intros v b x rest.
  destruct (v =? 0); [intros E; by injection E as _ <-|].
  destruct (v =? 1); [intros E; by injection E as _ <-|].
  destruct (v =? 2); [intros E; by injection E as _ <-|done].
Qed.
Lemma takes_new_order cs : takes (8 + (8 + (8 + (1 + (8 + (cs + (1 + (1 + (1 + 0)))))))))
  (rd_new_order cs).
Proof.
  unfold rd_new_order. repeat (apply takes_bind;
    [first [apply takes_uint|apply takes_raw|apply takes_bool|apply takes_side|apply takes_stb]|intros ?]).
  apply takes_ret.
Qed.

Section Props.
Context (cs : nat) (same_id : bytes -> bytes -> bool) (pid : N).
Notation opens := (opens cs pid).

(** The slab account of side [sd] as the client gets it: it has the size computed for [n]
    orders, and its 8 tag bytes are a number that JavaScript can represent (the program
    writes the first and leaves the others as they were, 0). *)
Definition client_slab (l : ledger) (a : accounts) (sd : side) : Prop :=
  (exists n, (1 <= n)%nat /\
     length (a_data (l (slab_key a sd))) = (40 + 24 * n + 32 * (n - 1) + cs * n)%nat) /\
  le_dec (take 8 (a_data (l (slab_key a sd)))) < 9007199254740992.

Lemma client_shows c l a m sd : ledger_ok l -> opens l a m -> reachable same_id c m ->
  client_slab l a sd ->
  exists js es, js_slab_deserialize (a_data (l (slab_key a sd))) (N.of_nat cs) = Ok js /\
    shows_slab js (tree (m_book m) sd) /\ srep (tree (m_book m) sd) es /\
    resting m sd = map e_order es.
Proof.
  intros Hok Ho Hr [(n&Hn&Hl) Htag].
  destruct (Hok (slab_key a sd)) as [Hb _].
  assert (Hf : exists tag, slab_from_buffer cs (a_data (l (slab_key a sd))) tag = Ok (tree (m_book m) sd)).
  { destruct sd; eexists; apply Ho. }
  destruct Hf as [tag Hf].
  destruct (slab_from_ok _ _ _ _ Hb Hf) as (_&Hcs&Hfit&Hty&Hto).
  pose proof (slab_fits_at cs n _ _ Hn Hcs Hl Hfit Hty) as Hat. rewrite Hto in Hat.
  destruct (slab_shown cs n _ _ Hn Hat Hty Htag ltac:(apply Hok)) as (js&Hjs&Hsh&_).
  destruct (reachable_minv _ _ _ Hr) as (L&pend&Hm&Hsq).
  destruct (mi_rep _ _ _ _ Hm sd) as (es&Hs&_).
  exists js, es. split_and!; try done. unfold resting. by rewrite (traverse_ok _ _ Hs).
Qed.

(** ** C49: the client reads the book *)
Section Book.
Context (c : config bytes) (l : ledger) (a : accounts) (m : market bytes) (sd : side).
Context (Hok : ledger_ok l) (Ho : opens l a m) (Hr : reachable same_id c m) (Hc : client_slab l a sd).
Notation data := (a_data (l (slab_key a sd))).
Theorem C49_deserialize : exists js, js_slab_deserialize data (N.of_nat cs) = Ok js.
Proof. destruct (client_shows c l a m sd Hok Ho Hr Hc) as (js&es&H&_). by exists js. Qed.

Context (js : js_slab) (Hjs : js_slab_deserialize data (N.of_nat cs) = Ok js).
Lemma book_shown : exists es, shows_slab js (tree (m_book m) sd) /\ srep (tree (m_book m) sd) es /\
    resting m sd = map e_order es.
Proof.
  destruct (client_shows c l a m sd Hok Ho Hr Hc) as (js'&es&H&?). rewrite H in Hjs.
  apply Ok_inj in Hjs as <-. by exists es.
Qed.
(** Iterating gives every resting order, with its callback info, once, by increasing or
    decreasing id. *)
Theorem C49_items : forall descending,
  js_items js descending = Ok (if descending then rev (resting m sd) else resting m sd) /\
  StronglySorted (fun x y => o_id x < o_id y) (resting m sd).
Proof.
  intros desc. destruct book_shown as (es&H1&H2&->).
  split; [by apply (js_items_ok js _ es H1 H2)|].
  pose proof (book_sorted same_id c m sd Hr) as Hs. destruct book_shown as (es'&_&H2'&E).
  rewrite E in Hs. replace (map e_order es) with (map e_order es'); [done|].
  pose proof (traverse_ok _ _ H2) as T1. pose proof (traverse_ok _ _ H2') as T2.
  rewrite T1 in T2. by apply Ok_inj in T2.
Qed.
(** The [k] lowest or highest orders. *)
Theorem C49_min_max : forall k max,
  js_get_min_max_nodes js (N.of_nat k) max =
  Ok (take k (if max then rev (resting m sd) else resting m sd)).
Proof.
  intros k mx. destruct book_shown as (es&H1&H2&->). by apply (js_min_max_nodes_ok js _ es H1 H2).
Qed.
(** Looking up an id, present or not. *)
Theorem C49_by_key : forall id,
  match js_get_node_by_key js id with
  | Ok (Some lf) => exists o, o ∈ resting m sd /\ o_id o = id /\ fst o = lf
  | Ok None => id ∉ map o_id (resting m sd)
  | _ => False
  end.
Proof.
  intros id. destruct book_shown as (es&H1&H2&->).
  destruct (js_node_by_key_ok js _ es H1 H2 id) as [(e&He&Hk&->)|[Hk ->]].
  - exists (e_order e). split; [|done]. apply elem_of_list_fmap. by exists e.
  - by rewrite map_map.
Qed.
(** The first [depth] price levels, lowest first or highest first, each with the total
    quantity of the orders at that price. *)
Theorem C49_l2_depth : forall depth (increasing : bool), exists prices,
  StronglySorted (if increasing then N.lt else N.gt) prices /\
  (forall p, p ∈ prices <-> exists o, o ∈ resting m sd /\ id_price (o_id o) = p) /\
  js_get_l2_depth js (N.of_nat depth) increasing =
    Ok (take depth (map (fun p => (at_price (resting m sd) p, p)) prices)).
Proof.
  intros d inc. pose proof (book_sorted same_id c m sd Hr) as Hs.
  destruct book_shown as (es&H1&H2&E). rewrite (js_l2_depth_ok js _ es H1 H2 d inc).
  set (os := if inc then resting m sd else rev (resting m sd)).
  assert (El : map lv (if inc then map e_l es else rev (map e_l es)) = map level os).
  { unfold os. rewrite E.
    assert (Hx : map lv (map e_l es) = map level (map e_order es)).
    { rewrite !map_map. apply map_ext. intros e. unfold lv, level, js_get_price, id_price.
      rewrite N.shiftr_div_pow2. done. }
    destruct inc; [done|]. by rewrite !map_rev, Hx. }
  rewrite El.
  assert (Hle : forall x y : order bytes, o_id x < o_id y -> id_price (o_id x) <= id_price (o_id y)).
  { intros x y Hxy. unfold id_price. apply N.div_le_mono; lia. }
  assert (Hsum : forall p : N, lsum (map level os) p = at_price (resting m sd) p).
  { intros p. rewrite lsum_level. unfold os. destruct inc; [done|]. apply at_price_rev. }
  assert (Hso : StronglySorted (fun a b => a = b \/ (if inc then N.lt else N.gt) a b) (map snd (map level os))).
  { rewrite map_map. unfold os. apply ss_map. destruct inc.
    - eapply ss_impl; [|exact Hs]. intros x y Hxy. apply Hle in Hxy. cbn. lia.
    - eapply ss_impl; [|apply ss_rev, Hs]. intros x y Hxy. apply Hle in Hxy. cbn. lia. }
  assert (Hlv : forall R : N -> N -> Prop, (forall a, ~ R a a) -> (forall a b c : N, R a b -> R b c -> R a c) ->
     StronglySorted (fun a b => a = b \/ R a b) (map snd (map level os)) ->
     exists prices, StronglySorted R prices /\
       (forall p, p ∈ prices <-> exists o, o ∈ resting m sd /\ id_price (o_id o) = p) /\
       levels (map level os) = map (fun p => (at_price (resting m sd) p, p)) prices).
  { intros R R1 R2 HR. exists (map snd (levels (map level os))).
    destruct (levels_spec R R1 R2 _ HR) as (S1&S2&_). split_and!; [done| |].
    - intros p. rewrite S2, map_map.
      assert (Hin : forall o, o ∈ os <-> o ∈ resting m sd).
      { intros o. unfold os. destruct inc; [done|]. rewrite !elem_of_list_In. symmetry. apply in_rev. }
      split.
      + intros Hp. apply elem_of_list_fmap in Hp as (o&->&Hp). exists o. split; [by apply Hin|done].
      + intros (o&Hp&<-). apply elem_of_list_fmap. exists o. split; [done|by apply Hin].
    - rewrite (levels_eq R R1 R2 _ HR) at 1. apply map_ext. intros p. by rewrite Hsum. }
  destruct (Hlv (if inc then N.lt else N.gt)) as (prices&P1&P2&P3); [destruct inc; lia..|done|].
  exists prices. split_and!; [done|done|]. by rewrite P3.
Qed.
End Book.
(** Prices and account sizes. *)
Theorem C49_price : forall lf cb, js_get_price lf = id_price (o_id (lf, cb : bytes)).
Proof. intros lf cb. unfold js_get_price, id_price. by rewrite N.shiftr_div_pow2. Qed.
Theorem C49_price_from_key : forall id, js_price_from_key id = id_price id.
Proof. done. Qed.
Theorem C49_allocation_size : forall n len, slab_allocation_size cs n = Ok len ->
  js_slab_allocation_size (Z.of_nat n) (Z.of_nat cs) = Z.of_nat len.
Proof.
  intros n len H. apply C41_allocation_size in H as [Hn ->]. unfold js_slab_allocation_size. lia.
Qed.

(** The field [orderCapacity] of a slab whose account has the size computed for [n] orders
    is not [n] but [n - 1]: one order more fits than the client says. *)
Theorem C49_order_capacity_refuted : forall n data len, slab_allocation_size cs n = Ok len ->
  length data = len -> N.of_nat len <= 10485760 ->
  js_order_capacity data (N.of_nat cs) = (Z.of_nat n - 1)%Z.
Proof.
  intros n data len H Hd Hmax. apply C41_allocation_size in H as [Hn Hlen].
  unfold js_order_capacity. rewrite Hd, Hlen. unfold js_div.
  replace (Z.of_nat _ - 40 - (24 + Z.of_N (N.of_nat cs)))%Z
    with ((Z.of_nat n - 1) * (24 + Z.of_N (N.of_nat cs) + 32))%Z by nia.
  destruct (js_round_int (Z.of_nat n - 1) (24 + Z.of_N (N.of_nat cs) + 32)) as [Hk ->];
    [change (2 ^ 53)%Z with 9007199254740992%Z; nia|lia|].
  apply Z.div_mul. pose proof (Z.pow_pos_nonneg 2 (snd (js_round ((Z.of_nat n - 1) * (24 + Z.of_N (N.of_nat cs) + 32)) (24 + Z.of_N (N.of_nat cs) + 32)))). lia.
Qed.

(** ** C50: the client reads the event queue *)
Lemma queue_client c l a m n : ledger_ok l -> opens l a m -> reachable same_id c m ->
  length (a_data (l (ac_queue a))) = queue_allocation_size cs n ->
  exists jq, js_queue_parse (N.of_nat cs) (a_data (l (ac_queue a))) = Ok jq /\
    shows_queue n jq (evq (m_book m)) /\ qrep (evq (m_book m)) (pending m) /\
    jq_tag (jq_header jq) = 129.
Proof.
  intros Hok Ho Hr Hl. destruct (Hok (ac_queue a)) as [Hb _].
  pose proof (o_queue _ _ _ _ _ Ho) as Hq.
  destruct (queue_from_ok _ _ _ _ _ Hb Hq) as (Ht&Hcs&_&Hfit&Hty&Hto).
  rewrite C42_allocation_size in Hl.
  pose proof (queue_fits_at cs n _ _ Hcs Hl Hfit Hty) as Hat. rewrite Hto in Hat.
  destruct (queue_shown cs n _ _ Hat Hty ltac:(apply Hok)) as (jq&Hjq&Hsh&Htag).
  exists jq. split_and!; try done.
  - destruct (reachable_minv _ _ _ Hr) as (L&pend&Hm&_).
    rewrite (minv_pending _ _ _ _ Hm). apply Hm.
  - rewrite Htag. unfold read_tag in Ht. destruct (_ <? _)%nat; [done|]. by apply Ok_inj in Ht.
Qed.

Section Queue.
Context (c : config bytes) (l : ledger) (a : accounts) (m : market bytes) (n : nat).
Context (Hok : ledger_ok l) (Ho : opens l a m) (Hr : reachable same_id c m).
Context (Hn : length (a_data (l (ac_queue a))) = queue_allocation_size cs n).
Notation data := (a_data (l (ac_queue a))).
Theorem C50_parse : exists jq, js_queue_parse (N.of_nat cs) data = Ok jq /\
  jq_tag (jq_header jq) = 129 /\ jq_count (jq_header jq) = N.of_nat (length (pending m)).
Proof.
  destruct (queue_client c l a m n Hok Ho Hr Hn) as (jq&H&H1&H2&H3). exists jq. split_and!; try done.
  rewrite (sq_count _ _ _ H1). apply H2.
Qed.
Context (jq : js_queue) (Hjq : js_queue_parse (N.of_nat cs) data = Ok jq).
Lemma queue_read : shows_queue n jq (evq (m_book m)) /\ qrep (evq (m_book m)) (pending m).
Proof.
  destruct (queue_client c l a m n Hok Ho Hr Hn) as (jq'&H&H1&H2&_). rewrite H in Hjq.
  apply Ok_inj in Hjq as <-. done.
Qed.
Lemma sane_view ev : ev ∈ pending m -> js_view ev = js_event_of ev.
Proof.
  intros Hev. pose proof (pending_sane same_id c m Hr) as Hs. rewrite Forall_forall in Hs.
  destruct (Hs ev Hev) as (_&_&Hx). destruct ev as [e mk tk|e cb]; [done|]. destruct Hx as [He _].
  cbn. rewrite He. done.
Qed.
(** [peekAt]: the events waiting, oldest first, each with its sides, ids, sizes and
    callback infos. *)
Theorem C50_peek : forall i ev, pending m !! i = Some ev ->
  js_peek_at jq (N.of_nat i) = Ok (js_event_of ev).
Proof.
  intros i ev Hi. destruct queue_read as [Hq Hp]. destruct (Hp) as [Q1 Q2 Q3 Q4 Q5 Q6].
  unfold js_peek_at. rewrite (sq_head _ _ _ Hq). unfold js_number.
  destruct (N.ltb_spec (q_head (evq (m_book m))) 9007199254740992); [|lia].
  rewrite (rbind_ok (Ok _) _ _ eq_refl). rewrite (sq_len _ _ _ Hq).
  rewrite (sq_cap _ _ _ Hq) in *.
  replace (N.of_nat (40 * n) / 40) with (N.of_nat n) by (rewrite Nat2N.inj_mul, N.mul_comm, N.div_mul; lia).
  destruct (N.eqb_spec (N.of_nat n) 0); [lia|].
  rewrite (N.add_comm (N.of_nat i)). rewrite (sq_event _ _ _ Hq _ _ (Q6 _ _ Hi)).
  by rewrite sane_view by (by eapply elem_of_list_lookup_2).
Qed.
(** [parseFill], as long as the oldest event is in the first slot: the fills among the
    first [limit] events. *)
Theorem C50_parse_fill : forall limit, q_head (evq (m_book m)) = 0 ->
  js_parse_fill jq limit =
  Ok (map js_event_of (List.filter is_fill
        (match limit with Some k => if k =? 0 then pending m else take (N.to_nat k) (pending m)
                        | None => pending m end))).
Proof.
  assert (Hfl : forall es : list (event_ref bytes), map js_event_of (List.filter is_fill es) = List.filter js_is_fill (map js_event_of es)).
  { induction es as [|ev es IH]; [done|]. destruct ev; cbn; by rewrite IH. }
  intros limit Hh. rewrite Hfl. destruct queue_read as [Hq Hp]. destruct (Hp) as [Q1 Q2 Q3 Q4 Q5 Q6].
  assert (Hev : forall k i, (i + k <= length (pending m))%nat ->
    js_parse_events jq (N.of_nat i) k = Ok (map js_event_of (take k (drop i (pending m))))).
  { induction k as [|k IH]; intros i Hi; [done|].
    destruct (lookup_lt_is_Some_2 (pending m) i) as [ev Hev]; [lia|].
    rewrite (drop_S _ _ _ Hev). cbn [js_parse_events take map].
    pose proof (Q6 _ _ Hev) as He. rewrite Hh, N.add_0_l, N.mod_small in He by lia.
    rewrite (rbind_ok _ _ _ (sq_event _ _ _ Hq _ _ He)).
    replace (N.of_nat i + 1) with (N.of_nat (S i)) by lia. rewrite (rbind_ok _ _ _ (IH (S i) ltac:(lia))).
    by rewrite sane_view by (by eapply elem_of_list_lookup_2). }
  unfold js_parse_fill. rewrite (sq_count _ _ _ Hq). unfold js_number.
  destruct (N.ltb_spec (q_count (evq (m_book m))) 9007199254740992); [|lia].
  rewrite (rbind_ok (Ok _) _ _ eq_refl). cbv zeta.
  assert (Hall : js_parse_events jq 0 (length (pending m)) = Ok (map js_event_of (pending m))).
  { rewrite (Hev _ 0%nat) by lia. by rewrite drop_0, firstn_all. }
  destruct limit as [k|]; [destruct (N.eqb_spec k 0) as [->|Hk]|].
  - rewrite Q4, Nat2N.id. by rewrite (rbind_ok _ _ _ Hall).
  - rewrite (rbind_ok _ _ _ (Hev (N.to_nat (N.min k (q_count (evq (m_book m))))) 0%nat ltac:(lia))).
    rewrite drop_0. do 3 f_equal. rewrite Q4.
    destruct (N.le_gt_cases k (N.of_nat (length (pending m)))); [by rewrite N.min_l|].
    rewrite N.min_r by lia. rewrite Nat2N.id, firstn_all. symmetry. apply take_ge. lia.
  - rewrite Q4, Nat2N.id. by rewrite (rbind_ok _ _ _ Hall).
Qed.
End Queue.
Theorem C50_allocation_size : forall n,
  js_queue_allocation_size (Z.of_nat n) (Z.of_nat cs) = Z.of_nat (queue_allocation_size cs n).
Proof. intros n. rewrite C42_allocation_size. unfold js_queue_allocation_size. lia. Qed.
(** [parseEventQueueHeader] refuses every event queue account. *)
Theorem C50_header_refuted : forall b, length b <> 32%nat ->
  is_ok (js_parse_queue_header b) = false.
Proof. intros b H. unfold js_parse_queue_header. by destruct (Nat.eqb_spec (length b) 32). Qed.

(** ** C53: the client's market state and instructions *)
(** The market account is read as the program reads it; its tag is 128. *)
Theorem C53_market_state : forall l a m, ledger_ok l -> opens l a m ->
  js_market_deserialize (a_data (l (ac_market a))) =
  Ok (128, mk_market_state (ac_queue a) (ac_bids a) (ac_asks a) (m_min m) (m_tick m)).
Proof.
  intros l a m Hok Ho. pose proof (o_market _ _ _ _ _ Ho) as Hm.
  set (b := a_data (l (ac_market a))) in *. unfold market_from_buffer in Hm.
  destruct (read_tag b) as [t| | |] eqn:Ht; try done. rewrite (rbind_ok (Ok t) _ _ eq_refl) in Hm.
  destruct (N.eqb_spec t tag_market) as [->|]; [|done]. cbn [negb] in Hm. cbv zeta in Hm.
  unfold read_tag in Ht. destruct (Nat.ltb_spec (length b) 8); [done|]. apply Ok_inj in Ht.
  assert (Hw : drop 8 (write_tag tag_market b) = drop 8 b).
  { unfold write_tag. rewrite drop_app_alt; [done|]. by rewrite le_enc_length. }
  rewrite Hw in Hm. destruct (Nat.eqb_spec (length (drop 8 b)) market_state_len) as [Hl|]; [|done].
  cbn [negb] in Hm. apply Ok_inj in Hm. apply pair_inj in Hm as [Hm _].
  rewrite drop_length in Hl. change market_state_len with 112%nat in Hl.
  unfold js_market_deserialize, js_deserialize. destruct (Nat.ltb_spec (length b) 120); [lia|].
  change (slice b 0 8) with (take 8 b). rewrite Ht. unfold market_state_of_bytes in Hm.
  rewrite !slice_drop in Hm. by rewrite <- Hm.
Qed.
(** The client's constants for the tags are not those of the program. *)
Theorem C53_tags_refuted :
  (js_tag_market, js_tag_event_queue, js_tag_bids, js_tag_asks) = (1, 2, 3, 4) /\
  js_tag_market <> tag_market /\ js_tag_event_queue <> tag_event_queue /\
  js_tag_bids <> tag_bids /\ js_tag_asks <> tag_asks.
Proof. done. Qed.

Context (rent_exempt : N -> nat -> bool).
Notation instr := (process_instruction cs same_id rent_exempt pid).
Notation execute := (execute cs same_id rent_exempt pid).
Notation entrypoint := (entrypoint cs same_id rent_exempt pid).
Notation built i := (entrypoint (map mt_key (i_metas i)) (i_data i)).
Notation run i := (execute (i_metas i) (i_data i)).

(** Cancelling, mass cancelling and consuming: the instruction does what it says, and its
    last account (the authority, or the reward target) is used as the register. *)
Theorem C53_cancel : forall a authority id l, id < p128 ->
  built (js_cancel_order a authority id) l =
  answer authority (let! s := cancel_order_l cs pid a id in ret (Some s)) l.
Proof.
  intros a au id l Hp. change (map mt_key (i_metas (js_cancel_order a au id))) with (keys a ++ [au]).
  rewrite entry_answer. apply answer_ext. rewrite <- (app_nil_r (keys a)).
  by apply (op_instr_eq cs same_id rent_exempt pid l a [] (CancelOrder id)).
Qed.
Theorem C53_mass_cancel : forall a authority ids l,
  Forall (fun id => id < p128) ids -> N.of_nat (length ids) < p32 ->
  built (js_mass_cancel a authority ids) l =
  answer authority (let! s := mass_cancel_l cs pid a ids in ret (Some s)) l.
Proof.
  intros a au ids l H1 H2. change (map mt_key (i_metas (js_mass_cancel a au ids))) with (keys a ++ [au]).
  rewrite entry_answer. apply answer_ext. rewrite <- (app_nil_r (keys a)).
  by apply (op_instr_eq cs same_id rent_exempt pid l a [] (MassCancelOrders ids)).
Qed.
Theorem C53_consume : forall a authority reward n l, n < p64 ->
  built (js_consume_events a authority reward n) l =
  answer reward (do! consume_events_l cs pid (ac_market a) (ac_queue a) n in ret None) l.
Proof.
  intros a au rw n l Hn.
  change (map mt_key (i_metas (js_consume_events a au rw n))) with (([ac_market a; ac_queue a] ++ [au]) ++ [rw]).
  rewrite entry_answer. apply answer_ext.
  by apply (op_instr_eq cs same_id rent_exempt pid l a [au] (ConsumeEvents n)).
Qed.
(** The accounts of the third are marked writable as needed: what the program accepts, the
    runtime accepts too, when the reward target is an account of the program. *)
Theorem C53_metas_consume : (forall n, rent_exempt 0 n = false) -> forall a authority reward n l r l',
  world cs same_id rent_exempt pid l -> n < p64 ->
  reward ∉ [ac_market a; ac_queue a; authority] -> a_owner (l reward) = pid ->
  built (js_consume_events a authority reward n) l = (Ok r, l') ->
  run (js_consume_events a authority reward n) l = (Ok r, l').
Proof.
  intros Hrent a au rw n l r l' W Hn Hreg Ho H. apply (world_wf _ _ _ _ Hrent) in W.
  apply (op_accepted_more cs same_id rent_exempt pid a (ConsumeEvents n) [au] rw); try done.
  intros k Hk. cbn [op_keys tail] in Hk. cbn. set_solver.
Qed.
(** But none of them can succeed when that last account is an ordinary wallet, without
    data. *)
Theorem C53_no_register_refuted : forall ks reg data l,
  reg ∉ ks -> a_data (l reg) = [] -> is_ok (fst (entrypoint (ks ++ [reg]) data l)) = false.
Proof.
  intros ks reg data l Hreg Hd. rewrite entry_answer. unfold answer.
  destruct (instr ks data l) as [[r| | |] l1] eqn:E; try done.
  destruct (instr_frame _ _ _ _ _ _ _ _ _ E reg) as [Hf _]. cbv zeta.
  rewrite Hf, Hd.
  - cbn [length]. assert (Hw : exists x w, wr_register r = x :: w) by (by destruct r; eexists _, _).
    destruct Hw as (x&w&->). done.
  - intros Hu. apply Hreg. unfold used in Hu. destruct data as [|t d]; [by apply elem_of_nil in Hu|].
    destruct (t =? ix_consume_events), (t =? ix_close_market);
      eapply in_take; exact Hu.
Qed.
(** Nor can orders be cancelled or placed with any other authority account: it is not
    marked writable, so the runtime refuses the answer, unless the account holds that
    very answer already. *)
Theorem C53_read_only_refuted : forall a authority data l r l',
  authority ∉ keys a -> execute (js_trade_metas a authority) data l = (Ok r, l') ->
  exists rest, a_data (l authority) = wr_register r ++ rest.
Proof.
  intros a au data l r l' Hnk. unfold Ledger.execute.
  destruct (Ledger.entrypoint _ _ _ _ _ _ _) as [[r1| | |] l1] eqn:E; try done.
  destruct (runtime_ok _ _ _ _) eqn:Hrt; [|done]. intros E1. apply pair_inj in E1 as [E1 <-].
  apply Ok_inj in E1 as ->.
  change (map mt_key (js_trade_metas a au)) with (keys a ++ [au]) in E.
  rewrite entry_answer in E. unfold answer in E.
  destruct (instr (keys a) data l) as [[r2| | |] l2] eqn:E2; try done. cbv zeta in E.
  destruct (_ <? _)%nat; [done|]. apply pair_inj in E as [E <-]. apply Ok_inj in E as ->.
  unfold runtime_ok in Hrt. apply andb_prop in Hrt as [Hrt _]. rewrite forallb_forall in Hrt.
  specialize (Hrt au). unfold account_ok in Hrt. rewrite set_account_eq in Hrt.
  assert (Hw : writable (js_trade_metas a au) au = false).
  { unfold writable, keys in *. cbn [js_trade_metas existsb mt_key mt_writable].
    rewrite !not_elem_of_cons in Hnk. destruct Hnk as (?&?&?&?&_).
    rewrite (proj2 (N.eqb_neq (ac_market a) au)), (proj2 (N.eqb_neq (ac_queue a) au)),
      (proj2 (N.eqb_neq (ac_bids a) au)), (proj2 (N.eqb_neq (ac_asks a) au)) by congruence.
    by rewrite andb_false_r. }
  rewrite Hw in Hrt.
  assert (Hin : In au (remove_dups (map mt_key (js_trade_metas a au)))).
  { apply elem_of_list_In, elem_of_remove_dups. cbn. set_solver. }
  specialize (Hrt Hin). cbn [a_data a_owner a_lamports] in Hrt.
  rewrite !andb_true_iff in Hrt. destruct Hrt as [[Hrt _] _]. rewrite andb_false_r, orb_false_r in Hrt.
  apply bool_decide_eq_true_1 in Hrt. rewrite <- Hrt. by eexists.
Qed.
(** Creating a market always fails: one account is missing. *)
Theorem C53_create_refuted : forall a authority info_len id_len min tick reward l,
  run (js_create_market a authority info_len id_len min tick reward) l = (Err PE_NotEnoughAccountKeys, l).
Proof. done. Qed.
(** Placing an order with a callback info of the right size always fails: the data is
    four bytes too long. *)
Theorem C53_new_order_refuted : forall a authority p l,
  length (p_callback p) = cs ->
  run (js_new_order a authority p) l = (Err PE_InvalidInstructionData, l).
Proof.
  intros a au p l Hp. unfold Ledger.execute.
  change (map mt_key (i_metas (js_new_order a au p))) with (keys a ++ [au]).
  rewrite entry_answer. unfold answer.
  assert (E : instr (keys a) (i_data (js_new_order a au p)) l = (Err PE_InvalidInstructionData, l)).
  { cbn [i_data js_new_order]. set (d := le_enc 8 (max_base_qty p) ++ _).
    assert (Hd : try_from_slice (rd_new_order cs) d = None).
    { unfold try_from_slice. destruct (rd_new_order cs d) as [[x rest]|] eqn:E; [|done].
      apply takes_new_order in E. destruct rest; [|done]. exfalso.
      unfold d, wr_bool, wr_stb in E. rewrite !app_length, !le_enc_length in E. cbn [length] in E. lia. }
    clearbody d. unfold process_instruction. cbn [N.eqb ix_create_market ix_new_order].
    unfold decode. rewrite Hd. done. }
  by rewrite E.
Qed.
(** What is wrong with the two instructions, compared with those of the program's own
    builders: creating a market lists no register and surrounds the parameters with fields
    the program does not have; placing an order inserts the length of the callback info
    before it.  The data of the others is the same. *)
Theorem C53_data : forall a authority register,
  (forall key info_len id_len min tick reward,
    let js := js_create_market a key info_len id_len min tick reward in
    let rs := build_create_market a register (mk_create_params min tick) in
    map mt_key (i_metas rs) = map mt_key (i_metas js) ++ [register] /\
    i_data js = take 1 (i_data rs) ++ (key ++ le_enc 8 info_len ++ le_enc 8 id_len) ++ drop 1 (i_data rs) ++ le_enc 8 reward) /\
  (forall p, let js := js_new_order a authority p in let rs := build_new_order a authority p in
    map mt_key (i_metas js) = map mt_key (i_metas rs) /\
    i_data js = take 34 (i_data rs) ++ le_enc 4 (N.of_nat (length (p_callback p))) ++ drop 34 (i_data rs)) /\
  (forall id, i_data (js_cancel_order a authority id) = i_data (build_cancel_order a register id)) /\
  (forall n, i_data (js_consume_events a authority register n) = i_data (build_consume_events (ac_market a) (ac_queue a) register n)) /\
  (forall target, i_data (js_close_market a authority target) = i_data (build_close_market a target register)) /\
  (forall ids, i_data (js_mass_cancel a authority ids) = ix_mass_cancel_orders :: tail (i_data (build_mass_cancel_orders a register ids))).
Proof.
  intros a au rg. split_and!; try done; intros *; cbv zeta.
  split; [done|]. cbn [i_data js_create_market build_create_market take drop]. rewrite ?take_0. unfold wr_create. cbn [cp_min cp_tick].
    cbn [app]. by rewrite <- !app_assoc.
Qed.
(** Closing: the lamports would go to the authority, which is not marked writable, so the
    runtime refuses it. *)
Theorem C53_close_refuted : forall a authority target l, ledger_ok l ->
  authority <> target -> 
  0 < a_lamports (l (ac_market a)) + a_lamports (l (ac_bids a)) + a_lamports (l (ac_asks a)) +
      a_lamports (l (ac_queue a)) ->
  is_ok (fst (run (js_close_market a authority target) l)) = false.
Proof.
  intros a au tg l Hok Hne Hlam. unfold Ledger.execute.
  destruct (Ledger.entrypoint _ _ _ _ _ _ _) as [[r| | |] l1] eqn:E; try done.
  destruct (runtime_ok _ _ _ _) eqn:Hrt; [|done]. exfalso.
  change (map mt_key (i_metas (js_close_market a au tg))) with ((keys a ++ [au]) ++ [tg]) in E.
  rewrite entry_answer in E. unfold answer in E.
  destruct (instr (keys a ++ [au]) (i_data (js_close_market a au tg)) l) as [[r2| | |] l2] eqn:E2; try done.
  apply close_instr in E2 as [_ E2].
  pose proof (close_effect _ _ _ _ _ _ Hok E2) as Hcl.
  destruct (close_inv _ _ _ _ _ _ Hok E2) as (_&_&Hnk&_).
  cbv zeta in E. destruct (_ <? _)%nat; [done|]. injection E as _ <-.
  unfold runtime_ok in Hrt. apply andb_prop in Hrt as [Hrt _]. rewrite forallb_forall in Hrt.
  specialize (Hrt au). unfold account_ok in Hrt.
  rewrite set_account_ne in Hrt by done.
  assert (Hau : a_lamports (l2 au) = a_lamports (l au) + close_total l a).
  { rewrite Hcl. apply not_held in Hnk. by rewrite Hnk, N.eqb_refl. }
  assert (Hw : writable (i_metas (js_close_market a au tg)) au = false).
  { unfold writable, keys in *. cbn [i_metas js_close_market existsb mt_key mt_writable].
    rewrite !not_elem_of_cons in Hnk. destruct Hnk as (?&?&?&?&_).
    rewrite (proj2 (N.eqb_neq (ac_market a) au)), (proj2 (N.eqb_neq (ac_queue a) au)),
      (proj2 (N.eqb_neq (ac_bids a) au)), (proj2 (N.eqb_neq (ac_asks a) au)),
      (proj2 (N.eqb_neq tg au)) by congruence. by rewrite andb_false_r. }
  rewrite Hw, Hau in Hrt. unfold close_total in Hrt.
  assert (Hin : In au (remove_dups (map mt_key (i_metas (js_close_market a au tg))))).
  { apply elem_of_list_In, elem_of_remove_dups. cbn. set_solver. }
  specialize (Hrt Hin). rewrite !andb_true_iff in Hrt. destruct Hrt as [[_ Hrt] _].
  rewrite orb_false_r in Hrt. apply N.eqb_eq in Hrt. lia.
Qed.
End Props.

(** ** Concrete cases *)
From Verif Require Import ExampleRuns LedgerExample.

(** The first market of LedgerExample.v after three more instructions: a bid of 5 at 3, the
    fill consumed, an ask of 2 at 4 filled against the bid at 4.  Two bids, one fill
    waiting, in the second slot of the queue. *)
Definition x_l1 : ledger := snd (e_instr (keys e_a ++ []) (op_data (LedgerExample.e_order Bid 5 3)) e_l4).
Definition x_l2 : ledger := snd (e_instr ([1; 2] ++ []) (op_data (ConsumeEvents 1)) x_l1).
Definition x_l3 : ledger := snd (e_instr (keys e_a ++ []) (op_data (LedgerExample.e_order Ask 2 4)) x_l2).
Definition x_m : market bytes := after e_same e_cfg
  [LedgerExample.e_order Bid 10 4; LedgerExample.e_order Ask 3 4; LedgerExample.e_order Bid 5 3;
   ConsumeEvents 1; LedgerExample.e_order Ask 2 4].
Lemma x_step1 : ledger_step e_cs e_same e_rent e_pid e_l4
  (Call (keys e_a ++ []) (op_data (LedgerExample.e_order Bid 5 3))
     (Some (mk_summary (Some (e_price 3 * p64 + p64 - 2)) 5 15 5))) x_l1.
Proof. apply e_step; by vm_compute. Qed.
Lemma x_step2 : ledger_step e_cs e_same e_rent e_pid x_l1
  (Call ([1; 2] ++ []) (op_data (ConsumeEvents 1)) None) x_l2.
Proof. apply e_step; by vm_compute. Qed.
Lemma x_step3 : ledger_step e_cs e_same e_rent e_pid x_l2
  (Call (keys e_a ++ []) (op_data (LedgerExample.e_order Ask 2 4)) (Some (mk_summary None 2 8 0))) x_l3.
Proof. apply e_step; by vm_compute. Qed.
Lemma x_world : world e_cs e_same e_rent e_pid x_l3.
Proof. exact (world_step _ _ _ (world_step _ _ _ (world_step _ _ _ e_world4 x_step1) x_step2) x_step3). Qed.
Lemma x_ok : ledger_ok x_l3.
Proof. exact (w_ok _ _ _ (world_wf _ _ _ _ e_rent_0 _ x_world)). Qed.
Lemma x_reachable : reachable e_same e_cfg x_m.
Proof. apply after_reachable; [apply e_cfg_ok|by vm_compute|by vm_compute]. Qed.
Lemma x_opens : opens e_cs e_pid x_l3 e_a x_m.
Proof.
  split; [apply (bool_decide_eq_true_1 _); by vm_compute|by apply e_owned_a; vm_compute|
    vm_compute; reflexivity..].
Qed.
Lemma x_client sd : client_slab e_cs x_l3 e_a sd.
Proof.
  split; [exists 2%nat; split; [lia|]|]; destruct sd; by vm_compute.
Qed.
Lemma x_queue : length (a_data (x_l3 (ac_queue e_a))) = queue_allocation_size e_cs 5.
Proof. by vm_compute. Qed.
Definition x_js : js_slab := 
  match js_slab_deserialize (a_data (x_l3 (ac_bids e_a))) 32 with Ok js => js | _ => mk_js_slab (mk_header 0 0 0 0 0 0 0 0) [] [] [] 0 end.
Example C49_example :
  map (fun o => (id_price (o_id o), o_qty o)) (resting x_m Bid) = [(e_price 3, 5); (e_price 4, 5)] /\
  js_get_l2_depth x_js 10 false = Ok [(5, e_price 4); (5, e_price 3)] /\
  js_get_l2_depth x_js 1 true = Ok [(5, e_price 3)].
Proof. by vm_compute. Qed.
Example C50_example : exists jq, js_queue_parse 32 (a_data (x_l3 (ac_queue e_a))) = Ok jq /\
  map js_event_of (pending x_m) = [JsFill 1 8 (e_price 4 * p64 + p64 - 1) 2 (e_cb 1) (e_cb 1)] /\
  js_peek_at jq 0 = Ok (JsFill 1 8 (e_price 4 * p64 + p64 - 1) 2 (e_cb 1) (e_cb 1)).
Proof. eexists. split; [vm_compute; reflexivity|]. by vm_compute. Qed.
(** [parseFill] is wrong once events were consumed: it starts at the first slot whatever
    the head is.  Here it returns a fill of 3 that was consumed long ago instead of the
    fill of 2 that is waiting. *)
Theorem C50_parse_fill_refuted : exists l a m jq,
  ledger_ok l /\ opens e_cs e_pid l a m /\ reachable e_same e_cfg m /\
  js_queue_parse 32 (a_data (l (ac_queue a))) = Ok jq /\
  js_parse_fill jq None <> Ok (map js_event_of (List.filter is_fill (pending m))) /\
  exists ev, js_parse_fill jq None = Ok [ev] /\ ev ∉ map js_event_of (pending m).
Proof.
  destruct (js_queue_parse 32 (a_data (x_l3 (ac_queue e_a)))) as [jq| | |] eqn:E; [|by vm_compute in E..].
  exists x_l3, e_a, x_m, jq.
  assert (Hf : js_parse_fill jq None = Ok [JsFill 1 12 (e_price 4 * p64 + p64 - 1) 3 (e_cb 1) (e_cb 1)]).
  { vm_compute in E. apply Ok_inj in E. subst jq. by vm_compute. }
  assert (Hp : map js_event_of (pending x_m) = [JsFill 1 8 (e_price 4 * p64 + p64 - 1) 2 (e_cb 1) (e_cb 1)]).
  { by vm_compute. }
  split; [exact x_ok|]. split; [exact x_opens|]. split; [exact x_reachable|]. split; [done|].
  assert (Hq : map js_event_of (List.filter is_fill (pending x_m)) = [JsFill 1 8 (e_price 4 * p64 + p64 - 1) 2 (e_cb 1) (e_cb 1)]).
  { by vm_compute. }
  rewrite Hf, Hp, Hq. split; [done|]. eexists. split; [done|].
  intros Hin. apply elem_of_list_singleton in Hin. done.
Qed.
(** A limit of 0 is no limit, also at the start of a queue: one fill is returned although
    none was asked for. *)
Theorem C50_limit_zero_refuted : exists l a m jq ev,
  ledger_ok l /\ opens e_cs e_pid l a m /\ reachable e_same e_cfg m /\
  js_queue_parse 32 (a_data (l (ac_queue a))) = Ok jq /\ js_parse_fill jq (Some 0) = Ok [ev].
Proof.
  destruct (js_queue_parse 32 (a_data (x_l3 (ac_queue e_a)))) as [jq| | |] eqn:E; [|by vm_compute in E..].
  exists x_l3, e_a, x_m, jq. eexists.
  split; [exact x_ok|]. split; [exact x_opens|]. split; [exact x_reachable|]. split; [done|].
  vm_compute in E. apply Ok_inj in E. subst jq. vm_compute. reflexivity.
Qed.
(** [peekAt] does not look at the number of events: beyond the last one it returns what
    the slot holds, here an event that was consumed. *)
Theorem C50_peek_beyond_refuted : exists l a m jq i ev,
  ledger_ok l /\ opens e_cs e_pid l a m /\ reachable e_same e_cfg m /\
  js_queue_parse 32 (a_data (l (ac_queue a))) = Ok jq /\
  pending m !! i = None /\ js_peek_at jq (N.of_nat i) = Ok ev /\ ev ∉ map js_event_of (pending m).
Proof.
  destruct (js_queue_parse 32 (a_data (x_l3 (ac_queue e_a)))) as [jq| | |] eqn:E; [|by vm_compute in E..].
  exists x_l3, e_a, x_m, jq, 4%nat. eexists.
  assert (Hf : js_peek_at jq (N.of_nat 4) = Ok (JsFill 1 12 (e_price 4 * p64 + p64 - 1) 3 (e_cb 1) (e_cb 1))).
  { vm_compute in E. apply Ok_inj in E. subst jq. by vm_compute. }
  assert (Hp : map js_event_of (pending x_m) = [JsFill 1 8 (e_price 4 * p64 + p64 - 1) 2 (e_cb 1) (e_cb 1)]).
  { by vm_compute. }
  split; [exact x_ok|]. split; [exact x_opens|]. split; [exact x_reachable|]. split; [done|].
  split; [by vm_compute|]. split; [exact Hf|]. rewrite Hp.
  intros Hin. apply elem_of_list_singleton in Hin. done.
Qed.

(** A slab account with some bytes too many.  The program rounds the number of orders
    down and accepts it; the client does not round and looks for the nodes in the wrong
    place.  Here two orders in an account of 144 bytes (136 are enough). *)
Definition x_buf0 : bytes := tag_bids :: replicate 143 0.
Definition x_slab : res (slab bytes) :=
  let? s := slab_from_buffer 8 x_buf0 tag_bids in
  let '(_, s) := insert_leaf (mk_leaf (e_price 3 * p64) 5) s in
  let '(_, s) := insert_leaf (mk_leaf (e_price 4 * p64) 6) s in Ok s.
Definition x_buf : bytes := match x_slab with Ok s => slab_to_buffer s x_buf0 | _ => [] end.
Theorem C49_extra_bytes_refuted : exists buf s js o1 o2,
  slab_from_buffer 8 buf tag_bids = Ok s /\ traverse s = Ok [o1; o2] /\
  js_slab_deserialize buf 8 = Ok js /\
  js_items js false <> Ok [o1; o2] /\ js_get_l2_depth js 5 true <> Ok [level o1; level o2].
Proof.
  exists x_buf.
  destruct (slab_from_buffer 8 x_buf tag_bids) as [s| | |] eqn:E1; [|by vm_compute in E1..].
  destruct (js_slab_deserialize x_buf 8) as [js| | |] eqn:E2; [|by vm_compute in E2..].
  exists s, js. vm_compute in E1, E2. apply Ok_inj in E1, E2. subst s js. eexists _, _.
  split; [reflexivity|]. split; [vm_compute; reflexivity|]. split; [reflexivity|].
  split; intros H; by vm_compute in H.
Qed.

(** C53: the hypotheses are met by the cancellation of the bid at 3, sent with an account
    of 42 bytes as authority; the bid is gone afterwards. *)
Example C53_example :
  let i := js_cancel_order e_a 5 (e_price 3 * p64 + p64 - 2) in
  let r := execute e_cs e_same e_rent e_pid (i_metas i) (i_data i) x_l3 in
  js_market_deserialize (a_data (x_l3 1)) = Ok (128, mk_market_state 2 3 4 2 1) /\
  is_ok (fst (entrypoint e_cs e_same e_rent e_pid (map mt_key (i_metas i)) (i_data i) x_l3)) = true /\
  is_ok (fst r) = false.
Proof. by vm_compute. Qed.
(** Consuming the waiting fill with the program's account 5 as reward target works. *)
Example C53_example_consume :
  let i := js_consume_events e_a 7 5 1 in
  let r := execute e_cs e_same e_rent e_pid (i_metas i) (i_data i) x_l3 in
  world e_cs e_same e_rent e_pid x_l3 /\ a_owner (x_l3 5) = e_pid /\ fst r = Ok None /\
  bool_decide (a_data (snd r (ac_queue e_a)) = a_data (x_l3 (ac_queue e_a))) = false.
Proof. split; [exact x_world|]. by vm_compute. Qed.
(** C54: one fill waits in the queue of the market above. *)
Example C54_example : reachable e_same e_cfg x_m /\ length (pending x_m) = 1%nat.
Proof. split; [exact x_reachable|by vm_compute]. Qed.

Print Assumptions C54_pending_sane.
Print Assumptions C49_deserialize.
Print Assumptions C49_items.
Print Assumptions C49_min_max.
Print Assumptions C49_by_key.
Print Assumptions C49_l2_depth.
Print Assumptions C49_price.
Print Assumptions C49_price_from_key.
Print Assumptions C49_allocation_size.
Print Assumptions C50_parse.
Print Assumptions C50_peek.
Print Assumptions C50_parse_fill.
Print Assumptions C50_allocation_size.
Print Assumptions C50_header_refuted.
Print Assumptions C53_market_state.
Print Assumptions C53_tags_refuted.
Print Assumptions C53_cancel.
Print Assumptions C53_mass_cancel.
Print Assumptions C53_consume.
Print Assumptions C53_metas_consume.
Print Assumptions C53_no_register_refuted.
Print Assumptions C53_read_only_refuted.
Print Assumptions C53_create_refuted.
Print Assumptions C53_data.
Print Assumptions C53_new_order_refuted.
Print Assumptions C53_close_refuted.
Print Assumptions C50_parse_fill_refuted.
Print Assumptions C50_limit_zero_refuted.
Print Assumptions C50_peek_beyond_refuted.
Print Assumptions C49_extra_bytes_refuted.
Example C49_order_capacity_example : slab_allocation_size 32 2 = Ok 184%nat /\
  js_order_capacity (a_data (x_l3 (ac_bids e_a))) 32 = 1%Z /\ c_bids e_cfg = 2%nat.
Proof. by vm_compute. Qed.
Print Assumptions C49_order_capacity_refuted.
