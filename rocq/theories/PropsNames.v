(** * PropsNames.v: arrival numbers are only names (C79) *)
From Verif Require Import Machine Critbit EventQueue OrderBook Market Spec MarketProofs MarketFacts HistoryProps
  ExchangeSpec ExchangeProofs NamesSpec NamesProofs ExampleRuns PropsExchange.
From Coq Require Import ZifyBool ZifyNat ZifyN.

Lemma view_past (C : Type) (same_id : C -> C -> bool) c log m :
  config_ok c -> history same_id c log m -> N.of_nat (length log) < p63 ->
  past (view m) /\ x_clock (view m) <= N.of_nat (length log).
Proof.
  intros Hc Hh Hl. split.
  - destruct (view_history _ _ _ _ Hc Hh Hl) as (answers&Hr&_).
    pose proof (run_past same_id (rules_of c) (map en_op log) opening) as Hp. rewrite Hr in Hp. apply Hp.
    split_and!; constructor.
  - destruct (history_minv _ _ _ _ Hc Hh Hl) as (L&pend&_&Hs). exact Hs.
Qed.
Lemma past_times_ok (C : Type) (x : exchange C) : past x -> x_clock x < p63 -> times_ok x.
Proof. intros (H1&H2&_) Hc. by split_and!. Qed.
Lemma rename_typed (C : Type) t clock (o : op C) : renames clock t -> clock <= 2 ^ 63 -> op_typed o -> op_typed (rename_op t o).
Proof.
  intros Hr Hc. destruct o as [p|id|ids|n]; try done; cbn [op_typed rename_op].
  - by apply (rename_id_bound t clock).
  - intros H. induction H as [|id ids Hid Hids IH]; [constructor|]. cbn. constructor; [|done]. by apply (rename_id_bound t clock).
Qed.

(** Take two markets with the same configuration that differ, at most, in the arrival
    numbers of their orders: [view] shows the same orders at the same places, and the same
    waiting events.  The same requests (with the ids of orders renamed) are then answered
    with the same amounts and new ids or the same refusals, and the markets still differ
    at most in those numbers.  So an order's place among the others of its side is all that
    counts, how it came there is not. *)
Theorem C79_names : forall (C : Type) (same_id : C -> C -> bool) (t : N -> N) c log m log' n log1 m',
  config_ok c -> history same_id c log m -> history same_id c log' n ->
  renames (x_clock (view m)) t -> view n = rename_exchange t (view m) ->
  steps same_id m log1 m' ->
  N.of_nat (length (log ++ log1)) < p63 -> N.of_nat (length (log' ++ log1)) < p63 ->
  exists log2 n', steps same_id n log2 n' /\
    map en_op log2 = map (rename_op t) (map en_op log1) /\
    map (fun e => answer_of (en_res e)) log2 = map (fun e => answer_of (en_res e)) log1 /\
    view n' = rename_exchange t (view m').
Proof.
  intros C same_id t c log m log' n log1 m' Hc Hm Hn Hr Hv Hs.
  induction Hs as [|log1 m1 o r m2 Hs IH Hty He]; intros L1 L2.
  { exists [], n. split_and!; [constructor|done..]. }
  rewrite !app_length in L1, L2. cbn [length] in L1, L2.
  destruct IH as (log2&n1&Hs2&Hop&Hans&Hv1); [rewrite app_length; lia..|].
  assert (Hl2 : length log2 = length log1).
  { apply (f_equal length) in Hop. by rewrite !map_length in Hop. }
  assert (Hm1 : history same_id c (log ++ log1) m1) by by eapply steps_app.
  assert (Hn1 : history same_id c (log' ++ log2) n1) by by eapply steps_app.
  assert (Rm : reachable same_id c m1) by (split; [done|]; exists (log ++ log1); split; [done|rewrite app_length; lia]).
  assert (Rn : reachable same_id c n1) by (split; [done|]; exists (log' ++ log2); split; [done|rewrite app_length; lia]).
  destruct (view_past _ _ _ _ _ Hc Hm1 ltac:(rewrite app_length; lia)) as [Hp Hclk]. rewrite app_length in Hclk.
  assert (Hcl : x_clock (view m) <= x_clock (view m1)).
  { clear - Hs Hc Hm L1. assert (Hl : N.of_nat (length (log ++ log1)) < p63) by (rewrite app_length; lia). clear L1.
    induction Hs as [|l m1 o r m2 Hs IH Hty He]; [done|]. rewrite app_assoc, app_length in Hl. cbn [length] in Hl.
    assert (reachable same_id c m1) by (split; [done|]; exists (log ++ l); split; [by eapply steps_app|lia]).
    pose proof (seq_mono _ _ _ _ _ _ H Hty He) as Hg. specialize (IH ltac:(lia)).
    unfold seq_of in Hg. unfold view in *. cbn [x_clock] in *. lia. }
  assert (Hr1 : renames (x_clock (view m1)) t) by (by eapply renames_le).
  assert (Hty' : op_typed (rename_op t o)) by (eapply rename_typed; [exact Hr1|lia|done]).
  destruct (exec same_id (rename_op t o) n1) as [r' n2] eqn:He'.
  destruct (view_step _ _ _ _ _ _ Rm Hty He) as (a&Ha&Hrule).
  destruct (view_step _ _ _ _ _ _ Rn Hty' He') as (a'&Ha'&Hrule').
  rewrite Hv1, rule_rename, Hrule in Hrule'; [|by apply past_times_ok; [|lia]|done].
  apply (f_equal fst) in Hrule' as Ea. apply (f_equal snd) in Hrule' as Hv2. cbn [fst snd] in Ea, Hv2. subst a'.
  exists (log2 ++ [mk_entry (rename_op t o) r' (emitted n1 n2)]), n2. split_and!.
  - by econstructor.
  - by rewrite !map_app, Hop.
  - rewrite !map_app, Hans. cbn [map en_res]. by rewrite Ha, Ha'.
  - by symmetry.
Qed.

Lemma answer_posted (r : res (option summary)) id b q s : answer_of r = Some (Accepted (Some id) b q s) ->
  exists sm, r = Ok (Some sm) /\ posted_order_id sm = Some id /\ total_base_qty sm = b /\ total_quote_qty sm = q /\
    total_base_qty_posted sm = s.
Proof.
  destruct r as [[sm|]|[]|[]|]; cbn; intros E; try done. injection E as E1 E2 E3 E4. by exists sm.
Qed.

(** Two orders that join the book one after the other, without a trade and without pushing
    anybody out, and not at the same price of the same side, could have come in the other
    order: both are accepted again, with the same amounts; only their two arrival numbers
    are exchanged. *)
Theorem C79_order : forall (C : Type) (same_id : C -> C -> bool) c log m p q s1 m1 s2 m2,
  config_ok c -> history same_id c log m -> N.of_nat (length log) + 2 < p63 ->
  op_typed (NewOrder p) -> op_typed (NewOrder q) ->
  exec same_id (NewOrder p) m = (Ok (Some s1), m1) -> exec same_id (NewOrder q) m1 = (Ok (Some s2), m2) ->
  posted_order_id s1 <> None -> posted_order_id s2 <> None -> pending m2 = pending m ->
  (p_side p <> p_side q \/ limit_price p <> limit_price q) ->
  exists s1' s2' n1 n2,
    exec same_id (NewOrder q) m = (Ok (Some s2'), n1) /\ exec same_id (NewOrder p) n1 = (Ok (Some s1'), n2) /\
    same_amounts s1 s1' /\ same_amounts s2 s2' /\
    let t := swap (x_clock (view m)) (x_clock (view m) + 1) in
    posted_order_id s1' = option_map (rename_id t) (posted_order_id s1) /\
    posted_order_id s2' = option_map (rename_id t) (posted_order_id s2) /\
    view n2 = rename_exchange t (view m2).
Proof.
  intros C same_id c log m p q s1 m1 s2 m2 Hc Hh Hl Typ Tyq He1 He2 Hp1 Hp2 Hpe Hd.
  assert (Rm : reachable same_id c m) by (split; [done|]; exists log; split; [done|lia]).
  assert (Hh1 : history same_id c (log ++ [mk_entry (NewOrder p) (Ok (Some s1)) (emitted m m1)]) m1) by by econstructor.
  assert (Rm1 : reachable same_id c m1).
  { split; [done|]. eexists. split; [exact Hh1|]. rewrite app_length. cbn. lia. }
  destruct (view_past _ _ _ _ _ Hc Hh ltac:(lia)) as [Hpast Hclk].
  destruct (view_step _ _ _ _ _ _ Rm Typ He1) as (a1&Ha1&Hr1). cbn [answer_of] in Ha1. injection Ha1 as <-.
  destruct (view_step _ _ _ _ _ _ Rm1 Tyq He2) as (a2&Ha2&Hr2). cbn [answer_of] in Ha2. injection Ha2 as <-.
  cbn [rule] in Hr1, Hr2.
  destruct (posted_order_id s1) as [id1|] eqn:E1; [|done]. destruct (posted_order_id s2) as [id2|] eqn:E2; [|done].
  assert (Hmono : forall p x, (length (x_notices x) <= length (x_notices (snd (new_order_rule same_id (rules_of c) p x))))%nat).
  { intros p0 x. unfold new_order_rule. destruct (negb _ || _); [done|].
    destruct (trade same_id _ _ _ _ _ _) as [n1 [[[[b q0] makers] free]|]]; [|by destruct (_ <=? _)%nat].
    destruct (if free then _ else _) as [[[n2 posted] own] clock]. destruct (_ <=? _)%nat; [|done].
    cbn [snd]. unfold with_sides. destruct (p_side p0); cbn [x_notices]; rewrite app_length; lia. }
  pose proof (Hmono p (view m)) as M1. rewrite Hr1 in M1. cbn [snd] in M1.
  pose proof (Hmono q (view m1)) as M2. rewrite Hr2 in M2. cbn [snd] in M2. clear Hmono.
  assert (M3 : length (x_notices (view m2)) = length (x_notices (view m))) by (unfold view; cbn; by rewrite Hpe).
  pose proof (quiet_inv _ _ _ _ _ _ _ _ _ Hr1 ltac:(lia)) as Q1.
  pose proof (quiet_inv _ _ _ _ _ _ _ _ _ Hr2 ltac:(lia)) as Q2.
  rewrite (quiet_rule _ _ _ _ Q1) in Hr1. rewrite (quiet_rule _ _ _ _ Q2) in Hr2.
  injection Hr1 as I1 B1 C1 D1 V1. injection Hr2 as I2 B2 C2 D2 V2. rewrite <- V1 in Q2.
  destruct (quiet_other _ _ _ _ Q1 Q2) as [Q3 Q4].
  destruct (exec same_id (NewOrder q) m) as [r3 n1] eqn:He3.
  destruct (view_step _ _ _ _ _ _ Rm Tyq He3) as (a3&Ha3&Hr3). cbn [rule] in Hr3. rewrite (quiet_rule _ _ _ _ Q3) in Hr3.
  injection Hr3 as <- V3. apply answer_posted in Ha3 as (s2'&->&I3&B3&C3&D3).
  assert (Rn1 : reachable same_id c n1).
  { split; [done|]. exists (log ++ [mk_entry (NewOrder q) (Ok (Some s2')) (emitted m n1)]).
    split; [by econstructor|]. rewrite app_length. cbn. lia. }
  rewrite V3 in Q4. destruct (exec same_id (NewOrder p) n1) as [r4 n2] eqn:He4.
  destruct (view_step _ _ _ _ _ _ Rn1 Typ He4) as (a4&Ha4&Hr4). cbn [rule] in Hr4. rewrite (quiet_rule _ _ _ _ Q4) in Hr4.
  injection Hr4 as <- V4. apply answer_posted in Ha4 as (s1'&->&I4&B4&C4&D4).
  exists s1', s2', n1, n2. split; [done|]. split; [exact He4|].
  split. { unfold same_amounts. by rewrite B4, C4, D4, <- B1, <- C1, <- D1. }
  split. { unfold same_amounts. by rewrite B3, C3, D3, <- B2, <- C2, <- D2. } cbv zeta.
  change (q_seq (evq (m_book m))) with (x_clock (view m)) in I1.
  change (q_seq (evq (m_book m1))) with (x_clock (view m1)) in I2.
  assert (Hcm : x_clock (view m1) = x_clock (view m) + 1) by (rewrite <- V1; unfold joined, with_sides; by destruct (p_side p)).
  assert (Hcn : x_clock (view n1) = x_clock (view m) + 1) by (rewrite <- V3; unfold joined, with_sides; by destruct (p_side q)).
  set (k := x_clock (view m)) in *. pose proof (renames_swap k) as Hren.
  assert (K0 : swap k (k + 1) k = k + 1) by (unfold swap; by rewrite N.eqb_refl).
  assert (K1 : swap k (k + 1) (k + 1) = k).
  { unfold swap. destruct (N.eqb_spec (k + 1) k); [lia|]. by rewrite N.eqb_refl. }
  split_and!.
  - rewrite I4, Hcn. cbn [option_map]. rewrite <- I1.
    rewrite (rename_x_id _ (k + 2)); [|done|lia|cbn [x_time resting_of]; lia]. unfold rename_order, resting_of. cbn [x_price x_time x_size x_owner]. by rewrite K0.
  - rewrite I3. cbn [option_map]. rewrite <- I2, Hcm.
    rewrite (rename_x_id _ (k + 2)); [|done|lia|cbn [x_time resting_of]; lia]. unfold rename_order, resting_of. cbn [x_price x_time x_size x_owner]. by rewrite K1.
  - rewrite <- V4, <- V2, <- V1, <- V3. apply joined_other; [done| |done]. fold k. lia.
Qed.

(** And nobody will ever notice: whatever is requested afterwards has the same answers. *)
Theorem C79_arrival : forall (C : Type) (same_id : C -> C -> bool) c log m p q s1 m1 s2 m2 log1 m',
  config_ok c -> history same_id c log m ->
  op_typed (NewOrder p) -> op_typed (NewOrder q) ->
  exec same_id (NewOrder p) m = (Ok (Some s1), m1) -> exec same_id (NewOrder q) m1 = (Ok (Some s2), m2) ->
  posted_order_id s1 <> None -> posted_order_id s2 <> None -> pending m2 = pending m ->
  (p_side p <> p_side q \/ limit_price p <> limit_price q) ->
  steps same_id m2 log1 m' -> N.of_nat (length (log ++ log1)) + 2 < p63 ->
  let t := swap (x_clock (view m)) (x_clock (view m) + 1) in
  exists n2 log2 n',
    run same_id m [NewOrder q; NewOrder p] = n2 /\ view n2 = rename_exchange t (view m2) /\
    steps same_id n2 log2 n' /\
    map en_op log2 = map (rename_op t) (map en_op log1) /\
    map (fun e => answer_of (en_res e)) log2 = map (fun e => answer_of (en_res e)) log1 /\
    view n' = rename_exchange t (view m').
Proof.
  intros C same_id c log m p q s1 m1 s2 m2 log1 m' Hc Hh Typ Tyq He1 He2 Hp1 Hp2 Hpe Hd Hs Hl t.
  rewrite app_length in Hl.
  destruct (C79_order C same_id c log m p q s1 m1 s2 m2 Hc Hh ltac:(lia) Typ Tyq He1 He2 Hp1 Hp2 Hpe Hd)
    as (s1'&s2'&n1&n2&He3&He4&_&_&_&_&Hv). fold t in Hv.
  assert (Hm2 : history same_id c ((log ++ [mk_entry (NewOrder p) (Ok (Some s1)) (emitted m m1)]) ++
    [mk_entry (NewOrder q) (Ok (Some s2)) (emitted m1 m2)]) m2)
    by (eapply steps_snoc; [eapply steps_snoc; [exact Hh|done|done]|done|done]).
  assert (Hn2 : history same_id c ((log ++ [mk_entry (NewOrder q) (Ok (Some s2')) (emitted m n1)]) ++
    [mk_entry (NewOrder p) (Ok (Some s1')) (emitted n1 n2)]) n2)
    by (eapply steps_snoc; [eapply steps_snoc; [exact Hh|done|done]|done|done]).
  assert (Hclk : x_clock (view m2) = x_clock (view m) + 2).
  { apply (f_equal x_clock) in Hv as Hv'.
    assert (Rm : reachable same_id c m) by (split; [done|]; exists log; split; [done|lia]).
    assert (Rm1 : reachable same_id c m1).
    { split; [done|]. exists (log ++ [mk_entry (NewOrder p) (Ok (Some s1)) (emitted m m1)]). split; [by econstructor|].
      rewrite app_length. cbn. lia. }
    assert (G : forall m p s m', reachable same_id c m -> op_typed (NewOrder p) ->
      exec same_id (NewOrder p) m = (Ok (Some s), m') -> posted_order_id s <> None ->
      x_clock (view m') = x_clock (view m) + 1).
    { intros m0 p0 s m0' R0 T0 E0 P0. destruct (view_step _ _ _ _ _ _ R0 T0 E0) as (a&Ha&Hr).
      cbn [answer_of] in Ha. injection Ha as <-. cbn [rule] in Hr. revert Hr. unfold new_order_rule.
      destruct (negb _ || _); [done|].
      destruct (trade same_id _ _ _ _ _ _) as [k1 [[[[b q0] makers] free]|]]; [|by destruct (_ <=? _)%nat].
      destruct (if free then _ else _) as [[[k2 posted] own] clock] eqn:Ep. destruct (_ <=? _)%nat; [|done].
      intros E. injection E as E1 _ _ _ <-.
      assert (Hclock : clock = x_clock (view m0) + 1).
      { destruct posted as [[i o]|]; [|cbn in E1; congruence]. destruct free; [|done]. revert Ep. unfold post_rest.
        destruct (negb _ || _); [done|]. destruct (_ <? _)%nat; [intros Ep; by injection Ep as _ _ _ _ <-|].
        destruct (last _); [|done]. destruct (not_worse _ _ _); [done|]. intros Ep; by injection Ep as _ _ _ _ <-. }
      rewrite Hclock. unfold with_sides. by destruct (p_side p0). }
    rewrite (G m1 q s2 m2), (G m p s1 m1) by done. lia. }
  destruct (C79_names C same_id t c _ m2 _ n2 log1 m' Hc Hm2 Hn2) as (log2&n'&H1&H2&H3&H4).
  - rewrite Hclk. apply renames_swap.
  - done.
  - done.
  - rewrite !app_length. cbn. lia.
  - rewrite !app_length. cbn. lia.
  - exists n2, log2, n'. split_and!; try done. cbn [run]. rewrite He3. cbn [snd]. by rewrite He4.
Qed.

(** ** Concrete cases *)
(** A bid at 2 and an ask at 6 rest; then a bid at 3 and an ask at 5 come, or the ask first.
    Afterwards an ask at 3 meets the bid, which is then cancelled. *)
Definition nm_ops : list (op N) :=
  [ex_new Bid 50 100000 4 10 1 false true DecrementTake; ex_new Ask 60 100000 12 10 2 false true DecrementTake].
Definition nm_order (sd : side) (price owner : N) : params N :=
  mk_params 40 100000 (half price) sd 10 owner false true DecrementTake.
Definition nm_p : params N := nm_order Bid 6 3.
Definition nm_q : params N := nm_order Ask 10 4.
Definition nm_m : market N := Eval vm_compute in after N.eqb ex_cfg nm_ops.
Definition nm_m2 : market N := Eval vm_compute in run N.eqb nm_m [NewOrder nm_p; NewOrder nm_q].
Definition nm_n2 : market N := Eval vm_compute in run N.eqb nm_m [NewOrder nm_q; NewOrder nm_p].
Definition nm_later : list (op N) :=
  [ex_new Ask 15 100000 6 10 5 false true DecrementTake; CancelOrder (x_bid_id 6 2)].
Example C79_example :
  history N.eqb ex_cfg (log_of N.eqb ex_cfg nm_ops) nm_m /\
  (exists s1 m1 s2, exec N.eqb (NewOrder nm_p) nm_m = (Ok (Some s1), m1) /\
    exec N.eqb (NewOrder nm_q) m1 = (Ok (Some s2), nm_m2) /\
    posted_order_id s1 = Some (x_bid_id 6 2) /\ posted_order_id s2 = Some (x_ask_id 10 3)) /\
  pending nm_m2 = pending nm_m /\ p_side nm_p <> p_side nm_q /\
  swap 2 3 2 = 3 /\ view nm_n2 = rename_exchange (swap 2 3) (view nm_m2) /\ view nm_n2 <> view nm_m2 /\
  map (rename_op (swap 2 3)) nm_later = [ex_new Ask 15 100000 6 10 5 false true DecrementTake; CancelOrder (x_bid_id 6 3)] /\
  map (fun e => answer_of (en_res e)) (fst (run_log N.eqb nm_later [] nm_m2)) =
    [Some (Accepted None 15 45 0); Some (Accepted None 25 75 0)] /\
  map (fun e => answer_of (en_res e)) (fst (run_log N.eqb (map (rename_op (swap 2 3)) nm_later) [] nm_n2)) =
    [Some (Accepted None 15 45 0); Some (Accepted None 25 75 0)].
Proof.
  split. { change nm_m with (after N.eqb ex_cfg nm_ops). by apply after_history. }
  split. { eexists _, _, _. split; [by vm_compute|]. by vm_compute. }
  split_and!; by vm_compute.
Qed.
(** At the same price the order of arrival counts: whoever came first is served first. *)
Definition nm_makers (ps : list (params N)) : list (option N) :=
  map (fun n => match n with Traded _ _ _ _ maker _ => Some maker | Removed _ _ _ _ => None end)
    (x_notices (view (after N.eqb ex_cfg (map NewOrder ps ++ [ex_new Ask 30 100000 8 10 5 false true DecrementTake])))).
Example C79_same_price :
  nm_makers [nm_order Bid 8 3; nm_order Bid 8 4] = [Some 3] /\ nm_makers [nm_order Bid 8 4; nm_order Bid 8 3] = [Some 4].
Proof. by vm_compute. Qed.

Print Assumptions C79_names.
Print Assumptions C79_order.
Print Assumptions C79_arrival.
