(** * PropsLoad.v: C69, the client loads a market *)
From Verif Require Import Machine Bytes Critbit EventQueue OrderBook Market Spec MachineProofs
  MarketProofs MarketFacts InstrProps QueueProofs
  Layout LayoutProofs Borsh BorshProofs Ledger LedgerSpec LedgerProofs PropsLayout WorldProofs
  FollowProofs LedgerFacts LedgerFacts2 LedgerExample PropsLedger
  JsClient ClientSpec JsProofs JsQueueProofs PropsClient JsLoad.
From Coq Require Import ZifyBool ZifyNat ZifyN.

Section Load.
Context (cs : nat) (same_id : bytes -> bytes -> bool) (rent_exempt : N -> nat -> bool) (pid : N).
Notation instr := (process_instruction cs same_id rent_exempt pid).
Notation opens := (opens cs pid).
Notation records := (records pid).
Notation world := (world cs same_id rent_exempt pid).
Notation step := (ledger_step cs same_id rent_exempt pid).
Notation trace := (trace cs same_id rent_exempt pid).
Notation rent_ok := (forall n, rent_exempt 0 n = false).

(** Loading the slab of one side. *)
Definition load_side (sd : side) (l : ledger) (jm : js_market) : res js_slab :=
  match sd with Bid => js_load_bids l jm | Ask => js_load_asks l jm end.

(** ** Sizes and tag bytes of the accounts of a live market never change *)
Lemma step_keeps l lb l' a m k : rent_ok ->
  wf_ledger cs pid l -> step l lb l' -> opens l a m -> ~ closes (ac_market a) lb -> k ∈ keys a ->
  length (a_data (l' k)) = length (a_data (l k)) /\ take 8 (a_data (l' k)) = take 8 (a_data (l k)).
Proof.
  intros Hrent W Hs Ho Hncl Hk. pose proof (opens_records cs pid _ _ _ Ho) as Hr.
  destruct Hs as [l ks data r l' Hc Hrt Hks Hd|l k0 l' Hsm Hk0 Hm Hok|l gone l' He Hok _].
  - destruct (call_effect _ _ _ _ _ _ _ _ _ W Hd Hc)
      as [a' p more -> -> Hp -> Hcr Hl'|a' o more -> -> Ht Hr' Hta|a' t more d m' -> -> -> Hr' _ _ _ _ _ _ Hl'].
    + rewrite (created_other cs rent_exempt pid _ _ _ _ _ Hl'); [done|].
      intros Hk'. apply (creatable_fresh cs rent_exempt pid l a' p k W Hcr Hk'). by exists a.
    + destruct (Hta k) as (_&_&_&E1&E2&_). done.
    + assert (Hnk : k ∉ keys a').
      { intros Hk'. apply Hncl. cbn. split; [|done]. by rewrite (w_disjoint _ _ _ W a' a k Hr' Hr Hk' Hk). }
      destruct (closed_other cs rent_exempt _ _ _ _ _ Hl' Hnk) as (_ & -> & _). done.
  - rewrite Hsm; [done|]. intros ->. apply Hk0. by exists a.
  - pose proof (w_market _ _ _ W a Hr) as Wa.
    pose proof (wf_owned _ _ _ _ Wa k Hk). pose proof (wf_lamports _ _ _ _ Wa k Hk).
    destruct (He k) as [(E1 & E2 & E3 & E4)|[(E1 & E2)|(E1 & _)]]; [by rewrite E3| |done].
    specialize (E2 ltac:(done)). lia.
Qed.
Lemma trace_keeps l1 tr l2 a m k : rent_ok -> cs <> 0%nat ->
  wf_ledger cs pid l1 -> opens l1 a m -> trace l1 tr l2 ->
  Forall (fun lb => ~ closes (ac_market a) lb) tr -> k ∈ keys a ->
  wf_ledger cs pid l2 /\ (exists m', opens l2 a m') /\
  length (a_data (l2 k)) = length (a_data (l1 k)) /\ take 8 (a_data (l2 k)) = take 8 (a_data (l1 k)).
Proof.
  intros Hrent Hcs W Ho Ht. induction Ht as [|tr l lb l' Ht IH Hs]; intros Hn Hk.
  - split_and!; try done. by exists m.
  - apply Forall_app in Hn as [Hn Hlb]. apply Forall_cons in Hlb as [Hlb _].
    destruct (IH Hn Hk) as (W' & (m' & Ho') & E1 & E2).
    destruct (step_keeps _ _ _ _ _ _ Hrent W' Hs Ho' Hlb Hk) as [E3 E4].
    split_and!; [by eapply step_wf| |congruence..].
    pose proof (step_follow cs same_id rent_exempt pid Hcs Hrent _ _ _ _ _ W' Hs Ho' Hlb) as Hst.
    destruct (market_call cs (ac_market a) lb) as [[o r]|]; [|by exists m'].
    destruct Hst as (m2 & _ & _ & Ho2). by exists m2.
Qed.
Lemma trace_app l1 tr1 l2 tr2 l3 : trace l1 tr1 l2 -> trace l2 tr2 l3 -> trace l1 (tr1 ++ tr2) l3.
Proof.
  intros H1 H2. induction H2 as [|tr l lb l' Ht IH Hs]; [by rewrite app_nil_r|].
  rewrite app_assoc. by eapply trace_snoc.
Qed.

Lemma loads : rent_ok -> forall l0 a p more l1 tr1 l2 tr2 l3 nb na ne,
  cs <> 0%nat -> world l0 -> create_typed p ->
  step l0 (Call (keys a ++ more) (ix_create_market :: wr_create p) None) l1 ->
  zeroed l0 (ac_queue a) -> zeroed l0 (ac_bids a) -> zeroed l0 (ac_asks a) ->
  length (a_data (l0 (ac_queue a))) = queue_allocation_size cs ne ->
  slab_allocation_size cs nb = Ok (length (a_data (l0 (ac_bids a)))) ->
  slab_allocation_size cs na = Ok (length (a_data (l0 (ac_asks a)))) ->
  trace l1 tr1 l2 -> trace l2 tr2 l3 ->
  Forall (fun lb => ~ closes (ac_market a) lb) (tr1 ++ tr2) ->
  N.of_nat (length (market_calls cs (ac_market a) (tr1 ++ tr2))) < p63 ->
  let c := mk_config (cp_min p) (cp_tick p) (replicate cs 0) nb na ne 0 0 in
  exists m log jm jb ja jq,
    history same_id c log m /\ opens l3 a m /\
    map (fun e => (en_op e, en_res e)) log =
      map (fun x => (fst x, Ok (snd x))) (market_calls cs (ac_market a) (tr1 ++ tr2)) /\
    js_retrieve l2 (ac_market a) (N.of_nat cs) = Ok jm /\
    jm_state jm = mk_market_state (ac_queue a) (ac_bids a) (ac_asks a) (cp_min p) (cp_tick p) /\
    js_load_bids l3 jm = Ok jb /\ (forall d : bool, js_items jb d = Ok (if d then rev (resting m Bid) else resting m Bid)) /\
    js_load_asks l3 jm = Ok ja /\ (forall d : bool, js_items ja d = Ok (if d then rev (resting m Ask) else resting m Ask)) /\
    js_load_queue l3 (ms_event_queue (jm_state jm)) (N.of_nat cs) = Ok jq /\
    jq_count (jq_header jq) = N.of_nat (length (pending m)) /\
    (forall i ev, pending m !! i = Some ev -> js_peek_at jq (N.of_nat i) = Ok (js_event_of ev)) /\
    jq_seq (jq_header jq) = q_seq (evq (m_book m)) /\ config_ok c /\ reachable same_id c m /\ wf_ledger cs pid l3 /\
    forall b k, b ∈ resting m Bid -> k ∈ resting m Ask -> id_price (o_id b) < id_price (o_id k).
Proof.
  intros Hrent l0 a p more l1 tr1 l2 tr2 l3 nb na ne Hcs W Hp Hs Z1 Z2 Z3 L1 L2 L3 T1 T2 Hncl Hlen c.
  apply C41_allocation_size in L2 as [Hnb L2], L3 as [Hna L3].
  assert (R2 : slab_room cs (length (a_data (l0 (ac_bids a)))) nb 0).
  { split_and!; [done| |lia]. rewrite L2. lia. }
  assert (R3 : slab_room cs (length (a_data (l0 (ac_asks a)))) na 0).
  { split_and!; [done| |lia]. rewrite L3. lia. }
  apply Forall_app in Hncl as [N1 N2].
  destruct (C51_history cs same_id rent_exempt pid Hrent l0 a p more l1 tr1 l2 nb 0 na 0 ne) as
    (m2 & log2 & O2 & _ & H2 & _ & Hr2); try done.
  pose proof (trace_app _ _ _ _ _ T1 T2) as T3.
  destruct (C51_history cs same_id rent_exempt pid Hrent l0 a p more l1 (tr1 ++ tr2) l3 nb 0 na 0 ne) as
    (m & log & O3 & Hcfg & H3 & Hmap & Hr); try done; [by apply Forall_app|].
  specialize (Hr Hlen). fold c in H2, H3, Hr.
  destruct (C51_history cs same_id rent_exempt pid Hrent l0 a p more l1 [] l1 nb 0 na 0 ne) as
    (m1 & log1 & O1 & _ & _ & _ & _); try done; [apply trace_nil|].
  assert (W1 : wf_ledger cs pid l1).
  { apply (world_wf _ _ _ _ Hrent) in W. by eapply step_wf. }
  assert (K2 : forall k, k ∈ keys a -> wf_ledger cs pid l2).
  { intros k Hk. by destruct (trace_keeps l1 tr1 l2 a m1 k Hrent Hcs W1 O1 T1 N1 Hk). }
  assert (W2 : wf_ledger cs pid l2) by (eapply (K2 (ac_market a)), elem_keys; by left). clear K2.
  assert (K3 : forall k, k ∈ keys a -> wf_ledger cs pid l3 /\
    length (a_data (l3 k)) = length (a_data (l1 k)) /\ take 8 (a_data (l3 k)) = take 8 (a_data (l1 k))).
  { intros k Hk.
    destruct (trace_keeps l1 (tr1 ++ tr2) l3 a m1 k Hrent Hcs W1 O1 T3) as (? & _ & ? & ?); try done.
    by apply Forall_app. }
  assert (W3 : wf_ledger cs pid l3) by (eapply (K3 (ac_market a)), elem_keys; by left).
  assert (Hlam2 : forall k, k ∈ keys a -> a_lamports (l2 k) =? 0 = false).
  { intros k Hk. apply N.eqb_neq.
    pose proof (wf_lamports _ _ _ _ (w_market _ _ _ W2 a (opens_records _ _ _ _ _ O2)) k Hk). lia. }
  assert (Hlam3 : forall k, k ∈ keys a -> a_lamports (l3 k) =? 0 = false).
  { intros k Hk. apply N.eqb_neq.
    pose proof (wf_lamports _ _ _ _ (w_market _ _ _ W3 a (opens_records _ _ _ _ _ O3)) k Hk). lia. }
  assert (I1 : ac_market a ∈ keys a) by (apply elem_keys; by left).
  assert (I2 : ac_queue a ∈ keys a) by (apply elem_keys; by right; left).
  assert (I3 : ac_bids a ∈ keys a) by (apply elem_keys; by right; right; left).
  assert (I4 : ac_asks a ∈ keys a) by (apply elem_keys; by right; right; right).
  (* the accounts right after creation *)
  inversion Hs as [? ? ? ? ? Hc Hrt Hks Hd| |]; subst.
  apply create_instr in Hc as (_ & Hcr & Hl'); [|done].
  destruct (keys_distinct _ (o_distinct _ _ _ _ _ O1)) as (D1&D2&D3&D4&D5&D6).
  assert (Hslab : forall k t, (k = ac_bids a /\ t = tag_bids) \/ (k = ac_asks a /\ t = tag_asks) ->
    (64 <= length (a_data (l0 k)))%nat -> zeroed l0 k ->
    length (a_data (l1 k)) = length (a_data (l0 k)) /\ le_dec (take 8 (a_data (l1 k))) = t).
  { intros k t Hkt Hge Hz.
    assert (E : a_data (l1 k) = t :: tail (a_data (l0 k))).
    { rewrite Hl'. destruct Hkt as [[-> ->]|[-> ->]]; eqbs; done. }
    rewrite E. unfold zeroed in Hz. destruct (a_data (l0 k)) as [|b d]; [cbn in Hge; lia|].
    apply Forall_cons in Hz as [_ Hz]. apply zeros_replicate in Hz. cbn [tail length] in *.
    split; [done|]. rewrite Hz. change (take 8 (t :: replicate (length d) 0)) with
      (t :: take 7 (replicate (length d) 0)). rewrite take_replicate.
    change (t + 256 * le_dec (replicate (7 `min` length d) 0) = t). rewrite le_dec_zeros. lia. }
  assert (Hcl : forall sd, client_slab cs l3 a sd).
  { assert (Hok3 : forall k, (k = ac_bids a \/ k = ac_asks a) -> k ∈ keys a).
    { intros k [->| ->]; done. }
    intros [|]; unfold client_slab, slab_key.
    - destruct (K3 _ I3) as (_ & E1 & E2).
      destruct (Hslab (ac_bids a) tag_bids) as [E3 E4]; [by left|lia|done|].
      split; [exists nb; split; [done|]; congruence|]. rewrite E2, E4. done.
    - destruct (K3 _ I4) as (_ & E1 & E2).
      destruct (Hslab (ac_asks a) tag_asks) as [E3 E4]; [by right|lia|done|].
      split; [exists na; split; [done|]; congruence|]. rewrite E2, E4. done. }
  assert (Hq3 : length (a_data (l3 (ac_queue a))) = queue_allocation_size cs ne).
  { destruct (K3 _ I2) as (_ & -> & _). rewrite <- L1. rewrite Hl'. eqbs. cbn [a_data with_data].
    rewrite write_tag_length; [done|]. rewrite L1, C42_allocation_size. lia. }
  pose proof (w_ok _ _ _ W3) as Ok3. pose proof (w_ok _ _ _ W2) as Ok2.
  destruct (C49_deserialize cs same_id pid c l3 a m Bid Ok3 O3 Hr (Hcl Bid)) as [jb Hjb].
  destruct (C49_deserialize cs same_id pid c l3 a m Ask Ok3 O3 Hr (Hcl Ask)) as [ja Hja].
  destruct (C50_parse cs same_id pid c l3 a m ne Ok3 O3 Hr Hq3) as (jq & Hjq & _ & Hcnt).
  pose proof (C53_market_state cs same_id pid l2 a m2 Ok2 O2) as Hms.
  assert (Hmin : m_min m2 = cp_min p /\ m_tick m2 = cp_tick p).
  { assert (Hr2' : reachable same_id c m2).
    { apply Hr2. unfold market_calls in *. rewrite omap_app, app_length in Hlen. lia. }
    destruct (reachable_minv _ _ _ Hr2') as (L & pend & Hm2 & _). by split; apply Hm2. }
  destruct Hmin as [Emin Etick]. rewrite Emin, Etick in Hms.
  exists m, log, (mk_js_market 128 (mk_market_state (ac_queue a) (ac_bids a) (ac_asks a) (cp_min p) (cp_tick p)) (N.of_nat cs)),
    jb, ja, jq.
  split_and!; try done.
  - unfold js_retrieve, js_account_info. rewrite (Hlam2 _ I1). by rewrite (rbind_ok _ _ _ Hms).
  - unfold js_load_bids, js_account_info. cbn [jm_state ms_bids jm_cs]. by rewrite (Hlam3 _ I3).
  - intros d. by destruct (C49_items cs same_id pid c l3 a m Bid Ok3 O3 Hr (Hcl Bid) jb Hjb d).
  - unfold js_load_asks, js_account_info. cbn [jm_state ms_asks jm_cs]. by rewrite (Hlam3 _ I4).
  - intros d. by destruct (C49_items cs same_id pid c l3 a m Ask Ok3 O3 Hr (Hcl Ask) ja Hja d).
  - unfold js_load_queue, js_account_info. cbn [jm_state ms_event_queue]. by rewrite (Hlam3 _ I2).
  - intros i ev. by apply (C50_peek cs same_id pid c l3 a m ne Ok3 O3 Hr Hq3 jq Hjq).
  - destruct (queue_client cs same_id pid c l3 a m ne Ok3 O3 Hr Hq3) as (jq'&H'&Hsh&_).
    rewrite Hjq in H'. apply Ok_inj in H' as <-. apply Hsh.
  - intros b k. by apply (never_crossed same_id c m).
Qed.

(** ** C69: loading a live market

    A market is created in zeroed accounts of the sizes computed for [nb] and [na] orders
    and [ne] events.  Some time later (ledger [l2]) the client retrieves it, and again
    later ([l3]) it loads one side of the book, or the event queue.  Unless the market was
    closed in between, what it gets is the state that the instructions on this market up
    to [l3] lead to, whatever else happened on the ledger: the resting orders of that
    side, with their callback infos, in order, and the waiting events, oldest first.  Both
    sides loaded from one ledger do not cross. *)
Theorem C69_load : rent_ok -> forall l0 a p more l1 tr1 l2 tr2 l3 nb na ne,
  cs <> 0%nat -> world l0 -> create_typed p ->
  step l0 (Call (keys a ++ more) (ix_create_market :: wr_create p) None) l1 ->
  zeroed l0 (ac_queue a) -> zeroed l0 (ac_bids a) -> zeroed l0 (ac_asks a) ->
  length (a_data (l0 (ac_queue a))) = queue_allocation_size cs ne ->
  slab_allocation_size cs nb = Ok (length (a_data (l0 (ac_bids a)))) ->
  slab_allocation_size cs na = Ok (length (a_data (l0 (ac_asks a)))) ->
  trace l1 tr1 l2 -> trace l2 tr2 l3 ->
  Forall (fun lb => ~ closes (ac_market a) lb) (tr1 ++ tr2) ->
  N.of_nat (length (market_calls cs (ac_market a) (tr1 ++ tr2))) < p63 ->
  let c := mk_config (cp_min p) (cp_tick p) (replicate cs 0) nb na ne 0 0 in
  exists m log jm jb ja jq,
    history same_id c log m /\ opens l3 a m /\
    map (fun e => (en_op e, en_res e)) log =
      map (fun x => (fst x, Ok (snd x))) (market_calls cs (ac_market a) (tr1 ++ tr2)) /\
    js_retrieve l2 (ac_market a) (N.of_nat cs) = Ok jm /\
    jm_state jm = mk_market_state (ac_queue a) (ac_bids a) (ac_asks a) (cp_min p) (cp_tick p) /\
    js_load_bids l3 jm = Ok jb /\ js_items jb false = Ok (resting m Bid) /\
    js_load_asks l3 jm = Ok ja /\ js_items ja false = Ok (resting m Ask) /\
    js_load_queue l3 (ms_event_queue (jm_state jm)) (N.of_nat cs) = Ok jq /\
    jq_count (jq_header jq) = N.of_nat (length (pending m)) /\
    (forall i ev, pending m !! i = Some ev -> js_peek_at jq (N.of_nat i) = Ok (js_event_of ev)) /\
    forall b k, b ∈ resting m Bid -> k ∈ resting m Ask -> id_price (o_id b) < id_price (o_id k).
Proof.
  intros Hrent l0 a p more l1 tr1 l2 tr2 l3 nb na ne H1 H2 H3 H4 H5 H6 H7 H8 H9 H10 H11 H12 H13 H14 c.
  destruct (loads Hrent l0 a p more l1 tr1 l2 tr2 l3 nb na ne) as
    (m&log&jm&jb&ja&jq&E1&E2&E3&E4&E5&E6&E7&E8&E9&E10&E11&E12&_&_&_&_&E13); try done.
  exists m, log, jm, jb, ja, jq. split_and!; try done; [apply (E7 false)|apply (E9 false)].
Qed.

(** Once the market is closed its accounts are gone: retrieving it, and loading through a
    market retrieved earlier, throw. *)
Theorem C69_closed : forall l a t more d r l' jm,
  ledger_ok l -> instr (keys a ++ t :: more) (ix_close_market :: d) l = (Ok r, l') ->
  jm_state jm = mk_market_state (ac_queue a) (ac_bids a) (ac_asks a)
                  (ms_min (jm_state jm)) (ms_tick (jm_state jm)) ->
  is_ok (js_retrieve l' (ac_market a) (N.of_nat cs)) = false /\
  is_ok (js_load_bids l' jm) = false /\ is_ok (js_load_asks l' jm) = false /\
  is_ok (js_load_queue l' (ms_event_queue (jm_state jm)) (N.of_nat cs)) = false.
Proof.
  intros l a t more d r l' jm Hok H Hjm.
  destruct (C34_close _ _ _ _ _ _ _ _ _ _ _ Hok H) as (_ & Hz & _).
  unfold js_retrieve, js_load_bids, js_load_asks, js_load_queue, js_account_info. rewrite Hjm.
  cbn [ms_bids ms_asks ms_event_queue].
  rewrite !Hz by (apply elem_keys; tauto). done.
Qed.
(** The tag of a market is not checked: every account of 120 bytes or more is retrieved as
    a market. *)
Theorem C69_unchecked_refuted : forall l k size, a_lamports (l k) <> 0 ->
  (js_market_len <= length (a_data (l k)))%nat -> exists jm, js_retrieve l k size = Ok jm.
Proof.
  intros l k size Hl Hd. unfold js_retrieve, js_account_info. apply N.eqb_neq in Hl as ->.
  unfold js_market_deserialize, js_deserialize, js_market_len in *.
  destruct (Nat.ltb_spec (length (a_data (l k))) 120); [lia|].
  rewrite (rbind_ok (Ok _) _ _ eq_refl). by eexists.
Qed.
End Load.

(** ** Two fetches at different times
    The bids are loaded, then the bid is cancelled and somebody places an ask below it,
    then the asks are loaded: the client sees a crossed book, although no book is. *)
Definition torn_id : N := e_price 4 * p64 + p64 - 1.
Definition torn_1 : ledger := snd (e_instr (keys e_a ++ []) (op_data (CancelOrder torn_id)) e_l4).
Definition torn_2 : ledger := snd (e_instr (keys e_a ++ []) (op_data (e_order Ask 3 3)) torn_1).
Definition torn_tr : list label :=
  ([] ++ [Call (keys e_a ++ []) (op_data (CancelOrder torn_id)) (Some (mk_summary None 7 28 0))]) ++
  [Call (keys e_a ++ []) (op_data (e_order Ask 3 3)) (Some (mk_summary (Some (e_price 3 * p64 + 1)) 3 9 3))].
Lemma torn_trace : trace e_cs e_same e_rent e_pid e_l4 torn_tr torn_2.
Proof.
  eapply trace_snoc; [eapply trace_snoc; [apply trace_nil|]|]; apply e_step; by vm_compute.
Qed.
(** The orders a client sees on one side: price and size. *)
Definition seen (l : ledger) (sd : side) : res (list (N * N)) :=
  let? jm := js_retrieve l 1 32 in
  let? js := load_side sd l jm in
  let? os := js_items js false in
  Ok (map (fun o => (id_price (o_id o) / p32, o_qty o)) os).
Theorem C69_torn_refuted :
  world e_cs e_same e_rent e_pid e_l4 /\ trace e_cs e_same e_rent e_pid e_l4 torn_tr torn_2 /\
  Forall (fun lb => ~ closes (ac_market e_a) lb) torn_tr /\
  seen e_l4 Bid = Ok [(4, 7)] /\ seen torn_2 Ask = Ok [(3, 3)].
Proof.
  split_and!; [exact e_world4|exact torn_trace| |by vm_compute|by vm_compute].
  repeat constructor; intros [_ H]; discriminate H.
Qed.
(** Loaded at one moment, the same accounts show no crossing. *)
Example C69_example :
  seen e_l4 Bid = Ok [(4, 7)] /\ seen e_l4 Ask = Ok [] /\
  seen torn_2 Bid = Ok [] /\ seen torn_2 Ask = Ok [(3, 3)].
Proof. by vm_compute. Qed.
(** The hypotheses of [C69_load] are met by the market of accounts 1 to 4. *)
Example C69_hypotheses : exists tr1 tr2,
  world e_cs e_same e_rent e_pid e_l0 /\
  ledger_step e_cs e_same e_rent e_pid e_l0 (Call (keys e_a ++ []) (ix_create_market :: wr_create e_p) None) e_l1 /\
  zeroed e_l0 (ac_queue e_a) /\ zeroed e_l0 (ac_bids e_a) /\ zeroed e_l0 (ac_asks e_a) /\
  length (a_data (e_l0 (ac_queue e_a))) = queue_allocation_size e_cs 5 /\
  slab_allocation_size e_cs 2 = Ok (length (a_data (e_l0 (ac_bids e_a)))) /\
  slab_allocation_size e_cs 2 = Ok (length (a_data (e_l0 (ac_asks e_a)))) /\
  trace e_cs e_same e_rent e_pid e_l1 tr1 e_l4 /\ trace e_cs e_same e_rent e_pid e_l4 tr2 torn_2 /\
  Forall (fun lb => ~ closes (ac_market e_a) lb) (tr1 ++ tr2) /\
  length (market_calls e_cs (ac_market e_a) (tr1 ++ tr2)) = 4%nat.
Proof.
  eexists _, torn_tr. split_and!; [exact e_world0|exact e_step1|apply zeros_0|apply zeros_0|apply zeros_0|
    by vm_compute|by vm_compute|by vm_compute|exact e_trace4|exact torn_trace| |by vm_compute].
  repeat constructor; intros H; cbn in H; destruct H as [? H]; discriminate.
Qed.

Print Assumptions C69_load.
Print Assumptions C69_closed.
Print Assumptions C69_unchecked_refuted.
Print Assumptions C69_torn_refuted.
