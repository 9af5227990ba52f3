(** * PropsCustody.v: delivery of the events, solvency of the caller (C66, C67)

    Vocabulary: Spec.v and CustodySpec.v ([delivery], [custody], what an event pays,
    which amounts are rounded). *)
From Verif Require Import Machine Critbit EventQueue OrderBook Market Spec CustodySpec ExampleRuns.
From Verif Require Import InstrProps HistoryProps LifeProps MarketReads EventProps CustodyProofs
  PropsMarket.
From Coq Require Import ZifyBool ZifyNat ZifyN.

(** ** C66: every event is handled once, in order *)
(** The events handled so far followed by those waiting are exactly the events produced
    so far, in the order of their production. *)
Theorem C66_exactly_once : forall (C : Type) (same_id : C -> C -> bool) c log D m,
  config_ok c -> delivery same_id (init_market c) log D m -> N.of_nat (length log) < p63 ->
  D ++ pending m = flat_map en_events log.
Proof. exact @delivered_once. Qed.
Print Assumptions C66_exactly_once.
(** Every history is a delivery. *)
Theorem C66_every_history : forall (C : Type) (same_id : C -> C -> bool) c log m,
  history same_id c log m <-> exists D, delivery same_id (init_market c) log D m.
Proof.
  intros C same_id c log m. split; [apply delivery_total|]. intros (D&H). by eapply delivery_steps.
Qed.
Print Assumptions C66_every_history.
(** Whatever happened, one request for enough events hands over all that was produced. *)
Theorem C66_drain : forall (C : Type) (same_id : C -> C -> bool) c log D m n,
  config_ok c -> delivery same_id (init_market c) log D m -> N.of_nat (length log) < p63 ->
  (length (pending m) <= N.to_nat n)%nat ->
  exists m', exec same_id (ConsumeEvents n) m = (Ok None, m') /\ pending m' = [] /\
    D ++ handled m (ConsumeEvents n) (Ok None) = flat_map en_events log.
Proof.
  intros C same_id c log D m n Hc Hd Hl Hn.
  assert (Hr : reachable same_id c m).
  { split; [done|]. exists log. split; [by eapply delivery_steps|done]. }
  destruct (consume_ok same_id c m n Hr) as (m'&Hex&Hp&_). exists m'. split; [done|].
  split; [rewrite Hp; by apply drop_ge|]. unfold handled. rewrite take_ge by done.
  by eapply delivered_once.
Qed.
Print Assumptions C66_drain.
Example C66_example : exists D, delivery N.eqb (init_market ex_cfg) h_log D h_m /\
  map event_id D = [h_id_a1; h_id_a1] /\ map event_id (pending h_m) = [h_id_a2; h_id_a2].
Proof.
  destruct (delivery_total N.eqb _ _ _ h_history) as [D HD]. exists D. split; [done|].
  pose proof (delivered_once _ _ _ _ _ ex_cfg_ok HD h_length) as H.
  apply (f_equal (map event_id)) in H. rewrite map_app in H.
  assert (Hp : map event_id (pending h_m) = [h_id_a2; h_id_a2]) by (vm_compute; reflexivity).
  split; [|done]. rewrite Hp in H.
  assert (Hf : map event_id (flat_map en_events h_log) = [h_id_a1; h_id_a1] ++ [h_id_a2; h_id_a2])
    by (vm_compute; reflexivity).
  rewrite Hf in H. by apply app_inv_tail in H.
Qed.

(** ** C67: the caller can always pay *)
(** Base units: at any time the caller holds exactly the sizes of the resting asks and
    what the waiting events pay. *)
Theorem C67_base : forall (C : Type) (same_id : C -> C -> bool) c log b q m,
  config_ok c -> custody same_id (init_market c) log b q m -> N.of_nat (length log) < p63 ->
  b = Z.of_N (sumN o_qty (resting m Ask) + sumN base_payout (pending m)).
Proof.
  intros C same_id c log b q m Hc Hs Hl. destruct (custody_ok _ _ _ _ _ _ Hc Hs Hl) as [-> _]. lia.
Qed.
Print Assumptions C67_base.
(** Quote units, in units of 2^-32: the caller holds the exact value of the resting bids
    and what the waiting events pay, plus a surplus of less than one unit per rounded
    amount.  The error of one rounding is at most 1 - gcd(tick, 2^32) / 2^32. *)
Theorem C67_quote : forall (C : Type) (same_id : C -> C -> bool) c log b q m,
  config_ok c -> custody same_id (init_market c) log b q m -> N.of_nat (length log) < p63 ->
  let owed := Z.of_N (sumN (fun o => id_price (o_id o) * o_qty o) (resting m Bid)
                      + p32 * sumN quote_payout (pending m)) in
  (owed <= Z.of_N p32 * q <=
   owed + Z.of_N ((p32 - N.gcd (c_tick c) p32) * sumN roundings log))%Z.
Proof.
  intros C same_id c log b q m Hc Hs Hl. destruct (custody_ok _ _ _ _ _ _ Hc Hs Hl) as [_ H].
  cbn zeta in *. unfold weight, slack in H. lia.
Qed.
Print Assumptions C67_quote.
(** Hence the caller can pay for all waiting events and for the cancellation of all
    resting orders, at once. *)
Theorem C67_solvent : forall (C : Type) (same_id : C -> C -> bool) c log b q m,
  config_ok c -> custody same_id (init_market c) log b q m -> N.of_nat (length log) < p63 ->
  (0 <= b)%Z /\ (0 <= q)%Z /\
  (Z.of_N (sumN quote_payout (pending m) +
           sumN (fun o => o_qty o * id_price (o_id o) / p32)%N (resting m Bid)) <= q)%Z.
Proof.
  intros C same_id c log b q m Hc Hs Hl. destruct (custody_ok _ _ _ _ _ _ Hc Hs Hl) as [Hb [H _]].
  assert (Hfl : p32 * sumN (fun o => o_qty o * id_price (o_id o) / p32) (resting m Bid) <=
    weight id_price (resting m Bid)).
  { rewrite <- sumN_scale. unfold weight. apply sumN_le. intros o _.
    rewrite (N.mul_comm (id_price _)). apply N.mul_div_le. lia. }
  cbn zeta in H. lia.
Qed.
Print Assumptions C67_solvent.
(** When prices are whole numbers of quote units nothing is rounded. *)
Theorem C67_no_dust : forall (C : Type) (same_id : C -> C -> bool) c log b q m,
  config_ok c -> custody same_id (init_market c) log b q m -> N.of_nat (length log) < p63 ->
  (p32 | c_tick c) ->
  (Z.of_N p32 * q = Z.of_N (sumN (fun o => id_price (o_id o) * o_qty o)%N (resting m Bid)
                            + p32 * sumN quote_payout (pending m)))%Z.
Proof.
  intros C same_id c log b q m Hc Hs Hl Ht. pose proof (C67_quote _ _ _ _ _ _ _ Hc Hs Hl) as H.
  cbn zeta in H. assert (Hg : N.gcd (c_tick c) p32 = p32).
  { rewrite N.gcd_comm. by apply N.divide_gcd_iff'. }
  rewrite Hg in H. replace (p32 - p32) with 0 in H by lia. lia.
Qed.
Print Assumptions C67_no_dust.
(** When the book and the queue are empty the caller has paid everything back, except
    for the rounded quote units. *)
Theorem C67_settled : forall (C : Type) (same_id : C -> C -> bool) c log b q m,
  config_ok c -> custody same_id (init_market c) log b q m -> N.of_nat (length log) < p63 ->
  resting m Bid = [] -> resting m Ask = [] -> pending m = [] ->
  b = 0%Z /\ (0 <= q <= Z.of_N (sumN roundings log))%Z.
Proof.
  intros C same_id c log b q m Hc Hs Hl HB HA HP.
  destruct (custody_ok _ _ _ _ _ _ Hc Hs Hl) as [Hb Hq]. rewrite HB, HA, HP in *.
  change (weight id_price []) with 0 in Hq. cbn [sumN] in *. unfold slack in Hq. split; [lia|].
  set (k := sumN roundings log) in *. set (g := N.gcd (c_tick c) p32) in *. clearbody k g.
  assert ((p32 - g) * k <= p32 * k) by (apply N.mul_le_mono_r; lia). lia.
Qed.
Print Assumptions C67_settled.
(** Every history can be followed so. *)
Theorem C67_every_history : forall (C : Type) (same_id : C -> C -> bool) c log m,
  history same_id c log m <-> exists b q, custody same_id (init_market c) log b q m.
Proof.
  intros C same_id c log m. split; [apply custody_total|]. intros (b&q&H). by eapply custody_steps.
Qed.
Print Assumptions C67_every_history.
(** When all ids of a mass cancellation are on one side, the caller needs only its
    summary. *)
Theorem C67_mass_cancel_summary : forall (C : Type) (same_id : C -> C -> bool) c m ids sm m' sd,
  reachable same_id c m -> exec same_id (MassCancelOrders ids) m = (Ok (Some sm), m') ->
  (forall id, id ∈ ids -> side_of_id id = sd) ->
  base_flow m (MassCancelOrders ids) (Ok (Some sm)) =
    match sd with Bid => 0%Z | Ask => (- Z.of_N (total_base_qty sm))%Z end /\
  quote_flow m (MassCancelOrders ids) (Ok (Some sm)) =
    match sd with Bid => (- Z.of_N (total_quote_qty sm))%Z | Ask => 0%Z end.
Proof.
  intros C same_id c m ids sm m' sd Hr He Hsd.
  destruct (mass_cancel_exact same_id c m ids Hr) as [(_&_&_&_&m1&Hex&_&_)|(_&r1&Hex&Hr1)].
  2:{ rewrite Hex in He. destruct Hr1 as [->|[->| ->]]; done. }
  rewrite Hex in He. injection He as <- <-. cbn [total_base_qty total_quote_qty].
  assert (Hon : forall sd', ids_on sd' ids = if side_u8 sd' =? side_u8 sd then ids else []).
  { intros sd'. unfold ids_on. clear Hex. induction ids as [|id ids IH]; cbn [List.filter].
    - by destruct (_ =? _).
    - rewrite IH by (intros i Hi; apply Hsd; by right). rewrite (Hsd id) by left.
      by destruct sd, sd'. }
  unfold base_flow, quote_flow. rewrite !Hon. by destruct sd.
Qed.
Print Assumptions C67_mass_cancel_summary.
(** The history of PropsMarket.v: the caller holds 100 base units for the ask; of its
    quote units 110 are for the bids, 180 for the event that waits, 1 comes from rounding. *)
Fixpoint custody_run (os : list (op N)) (b q : Z) (m : market N) : Z * Z * market N :=
  match os with
  | [] => (b, q, m)
  | o :: os => let '(r, m') := exec N.eqb o m in
               custody_run os (b + base_flow m o r)%Z (q + quote_flow m o r)%Z m'
  end.
Lemma custody_run_ok m0 os : forall log b q m, forallb (op_typedb (C := N)) os = true ->
  custody N.eqb m0 log b q m ->
  custody N.eqb m0 (fst (run_log N.eqb os log m)) (fst (fst (custody_run os b q m)))
    (snd (fst (custody_run os b q m))) (snd (run_log N.eqb os log m)).
Proof.
  induction os as [|o os IH]; intros log b q m Hty H; [done|]. cbn [forallb] in Hty.
  apply andb_true_iff in Hty as [Ho Hos]. cbn [run_log custody_run].
  destruct (exec N.eqb o m) as [r m'] eqn:He. apply IH; [done|]. econstructor; [done| |done].
  by apply op_typedb_ok.
Qed.
Example C67_example : custody N.eqb (init_market ex_cfg) h_log 100 291 h_m /\
  sumN (fun o => id_price (o_id o) * o_qty o) (resting h_m Bid) = 110 * p32 /\
  sumN base_payout (pending h_m) = 0 /\ sumN quote_payout (pending h_m) = 180 /\
  sumN roundings h_log = 4.
Proof.
  split; [|vm_compute; auto].
  pose proof (custody_run_ok _ h_ops [] 0 0 _ ltac:(vm_compute; reflexivity)
    (custody_nil N.eqb (init_market ex_cfg))) as H.
  assert (Hr : fst (custody_run h_ops 0 0 (init_market ex_cfg)) = (100%Z, 291%Z)) by (vm_compute; reflexivity).
  rewrite Hr in H. exact H.
Qed.
