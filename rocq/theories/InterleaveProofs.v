(** * InterleaveProofs.v: orders that only take, in any order (C95) *)
From Verif Require Import Machine Critbit EventQueue OrderBook Market Spec BookProofs MarketProofs MarketFacts
  ClientSpec HistoryProps NewOrderProps2 ExchangeSpec ExchangeProofs PartsProofs EventProps ProvideProofs InterleaveSpec.
From Coq Require Import ZifyBool ZifyNat ZifyN.

Section Rules.
Context {C : Type} (same_id : C -> C -> bool) (r : rules).
Notation trade := (trade same_id).
Notation new_order_rule := (new_order_rule same_id r).

(** An order that does not post reads and changes the other side only. *)
Lemma taker_rule (p : params C) x : post_allowed p = false ->
  new_order_rule p x =
    if negb (limit_price p mod r_tick r =? 0) then (BadPrice, x)
    else match trade r p (N.to_nat (match_limit p)) (max_base_qty p) (max_quote_qty p) (x_side x (opposite (p_side p))) with
    | (n, None) => (if (length (x_notices x) + length n <=? r_room r)%nat then SelfTrade else NoRoom, x)
    | (n, Some (b, q, ms, _)) =>
        if (length (x_notices x) + length n <=? r_room r)%nat
        then (Accepted None (max_base_qty p - b) (max_quote_qty p - q) 0,
              with_sides (p_side p) (x_side x (p_side p)) ms (x_notices x ++ n) (x_clock x))
        else (NoRoom, x)
    end.
Proof.
  intros Hp. unfold ExchangeSpec.new_order_rule. rewrite Hp. cbn [andb]. rewrite orb_false_r.
  destruct (negb _); [done|]. destruct (trade _ _ _ _ _ _) as [n [[[[b q] ms] f]|]]; [|done].
  replace (if f then post_rest r p (x_clock x) b q (x_side x (p_side p)) else ([], None, x_side x (p_side p), x_clock x))
    with (([], None, x_side x (p_side p), x_clock x) : list (notice C) * option (N * xorder C) * list (xorder C) * N)
    by (destruct f; [unfold post_rest; by rewrite Hp|done]).
  rewrite !app_nil_r. cbn [option_map]. assert (E : cost (p_side p) 0 (limit_price p) = 0) by (by destruct (p_side p)).
  rewrite E, !N.add_0_r. done.
Qed.

(** The orders of one side, one after the other. *)
Fixpoint srun (os : list (op C)) (ms : list (xorder C)) : option (list (option answer * list (notice C)) * list (xorder C)) :=
  match os with
  | [] => Some ([], ms)
  | NewOrder p :: os =>
      if negb (limit_price p mod r_tick r =? 0) then None
      else match trade r p (N.to_nat (match_limit p)) (max_base_qty p) (max_quote_qty p) ms with
      | (n, Some (b, q, ms1, _)) =>
          match srun os ms1 with
          | Some (l, ms2) => Some ((Some (Accepted None (max_base_qty p - b) (max_quote_qty p - q) 0), n) :: l, ms2)
          | None => None
          end
      | _ => None
      end
  | _ => None
  end.
Lemma srun_app os1 : forall os2 ms,
  srun (os1 ++ os2) ms =
    match srun os1 ms with
    | Some (l1, ms1) => match srun os2 ms1 with Some (l2, ms2) => Some (l1 ++ l2, ms2) | None => None end
    | None => None
    end.
Proof.
  induction os1 as [|o os1 IH]; intros os2 ms. { cbn. by destruct (srun os2 ms) as [[]|]. }
  destruct o as [p| | |]; try done. cbn [app srun]. destruct (negb _); [done|].
  destruct (trade _ _ _ _ _ _) as [n [[[[b q] ms1] f]|]]; [|done]. rewrite IH.
  destruct (srun os1 ms1) as [[l1 ms2]|]; [|done]. by destruct (srun os2 ms2) as [[l2 ms3]|].
Qed.
End Rules.

Section Logs.
Context {C : Type} (same_id : C -> C -> bool).
Notation entry := (entry C).
Notation steps := (steps same_id).

Definition out (e : entry) : option answer * list (notice C) := (answer_of (en_res e), map notice_of (en_events e)).
Definition total (l : list (option answer * list (notice C))) : nat := list_sum (map (fun x => length (snd x)) l).
Lemma total_app l1 l2 : total (l1 ++ l2) = (total l1 + total l2)%nat.
Proof. unfold total. by rewrite map_app, list_sum_app. Qed.
Lemma part_app sd (l1 l2 : list entry) : part sd (l1 ++ l2) = part sd l1 ++ part sd l2.
Proof. apply List.filter_app. Qed.
Lemma part_new p rr evs : part (p_side p) [mk_entry (NewOrder p) rr evs : entry] = [mk_entry (NewOrder p) rr evs].
Proof. unfold part. cbn. by destruct (p_side p). Qed.
Lemma part_other p rr evs : part (opposite (p_side p)) [mk_entry (NewOrder p) rr evs : entry] = [].
Proof. unfold part. cbn. by destruct (p_side p). Qed.
Lemma side_cases (sd sd' : side) : sd = sd' \/ sd = opposite sd'.
Proof. destruct sd, sd'; auto. Qed.

Lemma reach_steps c log (m : market C) log1 m1 : config_ok c -> history same_id c log m -> N.of_nat (length (log ++ log1)) < p63 ->
  steps m log1 m1 -> reachable same_id c m1.
Proof. intros Hc Hh Hl Hs. split; [done|]. exists (log ++ log1). split; [by eapply steps_app|done]. Qed.

Section Run.
Context (c : config C) (log : list entry) (m : market C) (Hc : config_ok c) (Hh : history same_id c log m).
Let R := rules_of c.

Lemma taken_run log1 m1 : steps m log1 m1 -> N.of_nat (length (log ++ log1)) < p63 ->
  Forall (fun e => only_takes (en_op e)) log1 -> Forall granted log1 ->
  (forall sd, srun same_id R (map en_op (part sd log1)) (x_side (view m) (opposite sd)) =
     Some (map out (part sd log1), x_side (view m1) (opposite sd))) /\
  (length (x_notices (view m1)) = length (x_notices (view m)) + total (map out (part Bid log1)) + total (map out (part Ask log1)))%nat.
Proof.
  induction 1 as [|log1 m1 o rr m2 Hs IH Hty He]; intros Hl Ht Hg.
  { split; [by intros []|]. cbn. lia. }
  apply Forall_app in Ht as [Ht1 Ht2]. apply Forall_app in Hg as [Hg1 Hg2].
  assert (Hl1 : N.of_nat (length (log ++ log1)) < p63) by (rewrite !app_length in *; cbn in Hl; lia).
  destruct (IH Hl1 Ht1 Hg1) as [IHs IHn]. inversion Ht2 as [|? ? Hta _]; subst. inversion Hg2 as [|? ? Hga _]; subst.
  destruct Hga as (s&Hga). cbn in Hga. subst rr. destruct o as [p| | |]; cbn in Hta; try done.
  assert (Hr : reachable same_id c m1) by (by eapply reach_steps).
  destruct (view_new_order _ _ _ _ _ _ Hr Hty He) as (a&Ha&Hx). cbn in Ha. injection Ha as <-. fold R in Hx.
  rewrite taker_rule in Hx by done. destruct (negb _) eqn:Eb; [done|].
  destruct (trade _ _ _ _ _ _ _) as [n [[[[b q] ms] f]|]] eqn:Et; [|destruct (_ <=? _)%nat; done].
  destruct (_ <=? _)%nat; [|done]. pose proof (f_equal snd Hx) as Hv. pose proof (f_equal fst Hx) as Ha. cbn [fst snd] in Hv, Ha.
  assert (En : map notice_of (emitted m1 m2) = n).
  { assert (E : x_notices (view m2) = x_notices (view m1) ++ n) by (rewrite <- Hv; by destruct (p_side p)).
    cbn [view x_notices] in E. unfold emitted. rewrite <- skipn_map, E. apply drop_app_alt. by rewrite map_length. }
  assert (Eo : out (mk_entry (NewOrder p) (Ok (Some s)) (emitted m1 m2)) = (Some (Accepted None (max_base_qty p - b) (max_quote_qty p - q) 0), n)).
  { unfold out. cbn [en_res en_events answer_of]. rewrite En, Ha. done. }
  split.
  - intros sd. rewrite part_app, map_app, srun_app, IHs. destruct (side_cases sd (p_side p)) as [->| ->].
    + rewrite part_new. cbn [map srun en_op]. rewrite Eb, Et, map_app. cbn [map]. rewrite Eo. rewrite <- Hv. by destruct (p_side p).
    + rewrite part_other. cbn [map srun]. rewrite !app_nil_r. rewrite <- Hv. by destruct (p_side p).
  - assert (El : length (x_notices (view m2)) = (length (x_notices (view m1)) + length n)%nat).
    { rewrite <- Hv, <- app_length. by destruct (p_side p). }
    rewrite El, IHn, !part_app, !map_app, !total_app.
    assert (total (map out (part Bid [mk_entry (NewOrder p) (Ok (Some s)) (emitted m1 m2)])) +
            total (map out (part Ask [mk_entry (NewOrder p) (Ok (Some s)) (emitted m1 m2)])) = length n)%nat; [|lia].
    destruct (p_side p) eqn:Es.
    + pose proof (part_new p (Ok (Some s)) (emitted m1 m2)) as E1. pose proof (part_other p (Ok (Some s)) (emitted m1 m2)) as E2.
      rewrite Es in E1, E2. cbn [opposite] in E2. rewrite E1, E2. cbn [map]. rewrite Eo. cbn. lia.
    + pose proof (part_new p (Ok (Some s)) (emitted m1 m2)) as E1. pose proof (part_other p (Ok (Some s)) (emitted m1 m2)) as E2.
      rewrite Es in E1, E2. cbn [opposite] in E2. rewrite E1, E2. cbn [map]. rewrite Eo. cbn. lia.
Qed.

Lemma run_taken log1 m1 : steps m log1 m1 -> N.of_nat (length (log ++ log1)) < p63 ->
  Forall (fun e => only_takes (en_op e)) log1 ->
  forall outs mss,
  (forall sd, srun same_id R (map en_op (part sd log1)) (x_side (view m) (opposite sd)) = Some (outs sd, mss sd)) ->
  (length (x_notices (view m)) + total (outs Bid) + total (outs Ask) <= r_room R)%nat ->
  Forall granted log1.
Proof.
  induction 1 as [|log1 m1 o rr m2 Hs IH Hty He]; intros Hl Ht outs mss Hrun Hroom; [done|].
  apply Forall_app in Ht as [Ht1 Ht2].
  assert (Hl1 : N.of_nat (length (log ++ log1)) < p63) by (rewrite !app_length in *; cbn in Hl; lia).
  inversion Ht2 as [|? ? Hta _]; subst. cbn in Hta. destruct o as [p| | |]; try done. cbn in Hta.
  assert (Hpre : forall sd, exists o1 o2 s1, srun same_id R (map en_op (part sd log1)) (x_side (view m) (opposite sd)) = Some (o1, s1) /\ outs sd = o1 ++ o2 /\
     srun same_id R (map en_op (part sd [mk_entry (NewOrder p) rr (emitted m1 m2)])) s1 = Some (o2, mss sd)).
  { intros sd. specialize (Hrun sd). rewrite part_app, map_app, srun_app in Hrun.
    destruct (srun _ _ _ (x_side _ _)) as [[o1 s1]|] eqn:E1; [|done]. destruct (srun _ _ _ s1) as [[o2 s2]|] eqn:E2; [|done].
    injection Hrun as <- <-. by exists o1, o2, s1. }
  destruct (Hpre Bid) as (bo1&bo2&bs&Hb1&Hb2&Hb3). destruct (Hpre Ask) as (ao1&ao2&as_&Ha1&Ha2&Ha3).
  set (outs1 := fun sd : side => match sd with Bid => bo1 | Ask => ao1 end).
  set (mss1 := fun sd : side => match sd with Bid => bs | Ask => as_ end).
  assert (Hrun1 : forall sd, srun same_id R (map en_op (part sd log1)) (x_side (view m) (opposite sd)) = Some (outs1 sd, mss1 sd)) by (by intros []).
  rewrite Hb2, Ha2, !total_app in Hroom.
  assert (Hg1 : Forall granted log1) by (eapply (IH Hl1 Ht1 outs1 mss1); [done|change (outs1 Bid) with bo1; change (outs1 Ask) with ao1; lia]).
  apply Forall_app. split; [done|]. constructor; [|done].
  destruct (taken_run _ _ Hs Hl1 Ht1 Hg1) as [Hrun2 Hn].
  assert (Hr : reachable same_id c m1) by (by eapply reach_steps).
  destruct (view_new_order _ _ _ _ _ _ Hr Hty He) as (a&Ha&Hx). fold R in Hx. rewrite taker_rule in Hx by done.
  assert (Hme : exists o2, srun same_id R [NewOrder p] (x_side (view m1) (opposite (p_side p))) = Some (o2, mss (p_side p)) /\
      (total o2 <= total bo2 + total ao2)%nat).
  { destruct (p_side p) eqn:Es.
    - pose proof (part_new p rr (emitted m1 m2)) as E1. rewrite Es in E1. rewrite E1 in Hb3.
      assert (E2 : x_side (view m1) (opposite Bid) = bs) by (pose proof (Hrun2 Bid) as E2; rewrite Hb1 in E2; congruence). rewrite E2. exists bo2. split; [exact Hb3|lia].
    - pose proof (part_new p rr (emitted m1 m2)) as E1. rewrite Es in E1. rewrite E1 in Ha3.
      assert (E2 : x_side (view m1) (opposite Ask) = as_) by (pose proof (Hrun2 Ask) as E2; rewrite Ha1 in E2; congruence). rewrite E2. exists ao2. split; [exact Ha3|lia]. }
  destruct Hme as (o2&Hme&Hle). cbn [srun] in Hme. destruct (negb _); [done|].
  destruct (trade _ _ _ _ _ _ _) as [n [[[[b q] ms] f]|]] eqn:Et; [|done]. injection Hme as <- _.
  assert (Hn2 : (length n <= total bo2 + total ao2)%nat) by (unfold total in Hle at 1; cbn in Hle; lia).
  assert (E1 : map out (part Bid log1) = bo1) by (pose proof (Hrun2 Bid) as E1; rewrite Hb1 in E1; congruence).
  assert (E2 : map out (part Ask log1) = ao1) by (pose proof (Hrun2 Ask) as E2; rewrite Ha1 in E2; congruence).
  rewrite E1, E2 in Hn. destruct (_ <=? _)%nat eqn:Er in Hx; [|apply Nat.leb_gt in Er; lia].
  injection Hx as <- _. cbn. destruct rr as [[s|]|[]|[]|]; try discriminate Ha. by exists s.
Qed.
End Run.

Lemma entry_inj c (e e' : entry) : Forall (event_sane c) (en_events e) -> Forall (event_sane c) (en_events e') ->
  granted e -> granted e' -> en_op e = en_op e' -> out e = out e' -> e = e'.
Proof.
  intros S S' (s&G) (s'&G') Eo E. destruct e as [o rr ev], e' as [o' rr' ev']. cbn in *. subst. unfold out in E. cbn [en_res en_events answer_of] in E.
  destruct s, s'. cbn in E. injection E as -> -> -> -> E.
  f_equal. by eapply notices_inj.
Qed.
Lemma entries_inj c (l : list entry) : forall l', Forall (fun e => Forall (event_sane c) (en_events e)) l -> Forall (fun e => Forall (event_sane c) (en_events e)) l' ->
  Forall granted l -> Forall granted l' -> map en_op l = map en_op l' -> map out l = map out l' -> l = l'.
Proof.
  induction l as [|e l IH]; intros l' S S' G G' Eo E; destruct l' as [|e' l']; try done.
  inversion S; inversion S'; inversion G; inversion G'; subst. cbn [map] in Eo, E.
  assert (Eo1 := f_equal (fun l => List.hd_error l) Eo). assert (Eo2 := f_equal (fun l => List.tl l) Eo).
  assert (E1 := f_equal (fun l => List.hd_error l) E). assert (E2 := f_equal (fun l => List.tl l) E). cbn [List.hd_error List.tl] in *.
  f_equal; [|by apply IH]. eapply entry_inj; try done; congruence.
Qed.
Lemma steps_sane c log (m : market C) log1 m1 : config_ok c -> history same_id c log m -> steps m log1 m1 -> N.of_nat (length (log ++ log1)) < p63 ->
  Forall (fun e => Forall (event_sane c) (en_events e)) log1.
Proof.
  intros Hc Hh. induction 1 as [|log1 m1 o rr m2 Hs IH Hty He]; intros Hl; [done|].
  apply Forall_app. split; [apply IH; rewrite !app_length in *; cbn in Hl; lia|]. constructor; [|done]. cbn [en_events].
  eapply ProvideProofs.emitted_sane. eapply reach_steps; [done|exact Hh|exact Hl|]. by econstructor.
Qed.
Lemma Forall_part (P : entry -> Prop) sd l : Forall P l -> Forall P (part sd l).
Proof. intros H. unfold part. apply Forall_forall. intros e He. apply elem_of_list_In, filter_In in He as [He _]. apply elem_of_list_In in He. by eapply Forall_forall in H. Qed.

Lemma interleaving c log (m : market C) log1 m1 log2 m2 :
  config_ok c -> history same_id c log m -> steps m log1 m1 -> steps m log2 m2 ->
  N.of_nat (length (log ++ log1)) < p63 -> N.of_nat (length (log ++ log2)) < p63 ->
  Forall (fun e => only_takes (en_op e)) log1 -> Forall (fun e => only_takes (en_op e)) log2 -> Forall granted log1 ->
  (forall sd, map en_op (part sd log2) = map en_op (part sd log1)) ->
  forall sd, part sd log2 = part sd log1 /\ resting m2 sd = resting m1 sd.
Proof.
  intros Hc Hh H1 H2 L1 L2 T1 T2 G1 Ho.
  destruct (taken_run c log m Hc Hh _ _ H1 L1 T1 G1) as [R1 N1].
  assert (Hr1 : reachable same_id c m1) by (by eapply (reach_steps c log m log1)).
  assert (Hr2 : reachable same_id c m2) by (by eapply (reach_steps c log m log2)).
  assert (G2 : Forall granted log2).
  { eapply (run_taken c log m Hc Hh _ _ H2 L2 T2 (fun sd => map out (part sd log1)) (fun sd => x_side (view m1) (opposite sd))).
    - intros sd. rewrite Ho. apply R1.
    - rewrite <- N1. cbn [view x_notices rules_of r_room]. rewrite map_length. by eapply queue_fits. }
  destruct (taken_run c log m Hc Hh _ _ H2 L2 T2 G2) as [R2 _].
  assert (E : forall sd, map out (part sd log2) = map out (part sd log1) /\ x_side (view m2) (opposite sd) = x_side (view m1) (opposite sd)).
  { intros sd. specialize (R2 sd). rewrite Ho, R1 in R2. by injection R2. }
  intros sd. split.
  - eapply (entries_inj c); try (apply Forall_part); try done; [by eapply (steps_sane c log m)..|]. by apply E.
  - eapply view_resting; [done|done|]. destruct (E (opposite sd)) as [_ Ev]. by destruct sd.
Qed.

(** ** Posting and taking on the same side *)
Section Post.
Context (r : rules).
Lemma trade_keeps (p : params C) (P : xorder C -> Prop) :
  (forall o o', x_price o = x_price o' -> P o -> P o') ->
  forall n b q ms ns b1 q1 ms1 f, trade same_id r p n b q ms = (ns, Some (b1, q1, ms1, f)) -> Forall P ms -> Forall P ms1.
Proof.
  intros HP. induction n as [|n IH]; intros b q ms ns b1 q1 ms1 f H Hall; [cbn in H; injection H as _ _ _ <- _; done|].
  destruct ms as [|o os]; [cbn in H; injection H as _ _ _ <- _; done|]. cbn [ExchangeSpec.trade] in H.
  destruct (negb _); [by injection H as _ _ _ <- _|]. destruct (_ || _); [by injection H as _ _ _ <- _|].
  inversion Hall as [|? ? Ho Hos]; subst.
  destruct (stb p); destruct (own_order same_id p o); try done; try (destruct (_ <? _));
    match type of H with (_, snd (trade _ r p ?n ?x ?y ?z)) = _ =>
      destruct (trade same_id r p n x y z) as [ns' rr] eqn:Et; cbn [fst snd] in H; injection H as _ -> end;
    (eapply IH; [exact Et|]); try done; (constructor; [|done]); by apply (HP o).
Qed.
Definition out_of_range (q : params C) (o : xorder C) : Prop := acceptable q o = false.
Lemma poster_trade (q : params C) n b k ms : post_only q = true -> Forall (out_of_range q) ms ->
  trade same_id r q (S n) b k ms = ([], Some (b, k, ms, true)).
Proof. intros Hq H. destruct ms as [|o os]; [done|]. inversion H as [|? ? Ho _]; subst. cbn [ExchangeSpec.trade]. by rewrite Ho. Qed.
Lemma poster_rule (q : params C) x id b k pb x1 : post_only q = true -> ranked (p_side q) (x_side x (opposite (p_side q))) ->
  new_order_rule same_id r q x = (Accepted (Some id) b k pb, x1) ->
  exists n own cl, x1 = with_sides (p_side q) own (x_side x (opposite (p_side q))) (x_notices x ++ n) cl /\
    Forall (out_of_range q) (x_side x (opposite (p_side q))) /\
    forall x0, x_side x0 (p_side q) = x_side x (p_side q) -> x_clock x0 = x_clock x ->
      Forall (out_of_range q) (x_side x0 (opposite (p_side q))) -> (length (x_notices x0) + length n <= r_room r)%nat ->
      new_order_rule same_id r q x0 =
        (Accepted (Some id) b k pb, with_sides (p_side q) own (x_side x0 (opposite (p_side q))) (x_notices x0 ++ n) cl).
Proof.
  intros Hq Hrk H. unfold new_order_rule in H. destruct (_ || _) eqn:Eb in H; [done|].
  destruct (N.to_nat (match_limit q)) as [|l] eqn:El.
  { cbn in H. destruct (_ <=? _)%nat in H; [|done]. by injection H. }
  assert (Hfar : Forall (out_of_range q) (x_side x (opposite (p_side q)))).
  { destruct (x_side x (opposite (p_side q))) as [|o os]; [done|]. cbn [ExchangeSpec.trade] in H. rewrite Hq in H.
    destruct (acceptable q o) eqn:Ea; cbn in H.
    - destruct (_ <=? _)%nat in H; [|done]. by injection H.
    - constructor; [done|]. cbn [ranked] in Hrk. destruct Hrk as [Hd _]. eapply Forall_impl; [exact Hd|]. intros o' Ho'. 
      unfold out_of_range, acceptable, dearer in *. destruct (p_side q); lia. }
  rewrite poster_trade in H by done.
  destruct (post_rest r q (x_clock x) (max_base_qty q) (max_quote_qty q) (x_side x (p_side q))) as [[[n po] own] cl] eqn:Ep.
  destruct (_ <=? _)%nat in H; [|done]. pose proof (f_equal snd H) as Hx. pose proof (f_equal fst H) as Ha. cbn [fst snd] in Hx, Ha.
  exists n, own, cl. split; [by rewrite <- Hx|]. split; [done|]. intros x0 E1 E2 E3 E4.
  unfold new_order_rule. rewrite Eb, El, poster_trade, E1, E2, Ep by done. cbn [app].
  replace (length (x_notices x0) + length n <=? r_room r)%nat with true by (symmetry; apply Nat.leb_le; lia). f_equal. exact Ha.
Qed.
Lemma post_take_rule (q p : params C) x id b k pb x1 id2 b2 k2 pb2 x2 :
  post_only q = true -> post_allowed p = false -> p_side p = p_side q -> ranked (p_side q) (x_side x (opposite (p_side q))) ->
  new_order_rule same_id r q x = (Accepted (Some id) b k pb, x1) ->
  new_order_rule same_id r p x1 = (Accepted id2 b2 k2 pb2, x2) ->
  exists n1 n2 y1 y2,
    x_notices x1 = x_notices x ++ n1 /\ x_notices x2 = x_notices x1 ++ n2 /\
    new_order_rule same_id r p x = (Accepted id2 b2 k2 pb2, y1) /\
    new_order_rule same_id r q y1 = (Accepted (Some id) b k pb, y2) /\
    x_notices y1 = x_notices x ++ n2 /\ x_notices y2 = x_notices y1 ++ n1 /\
    (forall sd, x_side y2 sd = x_side x2 sd).
Proof.
  intros Hq Hp Hsd Hrk H1 H2. destruct (poster_rule _ _ _ _ _ _ _ Hq Hrk H1) as (n1&own&cl&Ex1&Hfar&Hpost). subst x1.
  rewrite taker_rule in H2 by done. rewrite Hsd in H2.
  assert (Eo : x_side (with_sides (p_side q) own (x_side x (opposite (p_side q))) (x_notices x ++ n1) cl) (opposite (p_side q)) = x_side x (opposite (p_side q)))
    by (by destruct (p_side q)).
  rewrite Eo in H2. destruct (negb _) eqn:Eb; [done|].
  destruct (trade _ _ _ _ _ _ _) as [n2 [[[[b1 q1] ms] f]|]] eqn:Et; [|destruct (_ <=? _)%nat in H2; done].
  assert (En : x_notices (with_sides (p_side q) own (x_side x (opposite (p_side q))) (x_notices x ++ n1) cl) = x_notices x ++ n1)
    by (by destruct (p_side q)).
  rewrite En in H2. destruct (_ <=? _)%nat eqn:Er in H2; [|done]. apply Nat.leb_le in Er. rewrite app_length in Er.
  pose proof (f_equal snd H2) as Hx. pose proof (f_equal fst H2) as Ha. cbn [fst snd] in Hx, Ha. clear H2.
  set (y1 := with_sides (p_side q) (x_side x (p_side q)) ms (x_notices x ++ n2) (x_clock x)).
  assert (Hy1 : new_order_rule same_id r p x = (Accepted id2 b2 k2 pb2, y1)).
  { rewrite taker_rule by done. rewrite Hsd, Eb, Et. replace (length (x_notices x) + length n2 <=? r_room r)%nat with true by (symmetry; apply Nat.leb_le; lia).
    by rewrite Ha. }
  exists n1, n2, y1, (with_sides (p_side q) own ms ((x_notices x ++ n2) ++ n1) cl).
  split; [by destruct (p_side q)|]. split; [rewrite <- Hx; by destruct (p_side q)|]. split; [done|]. split.
  { rewrite (Hpost y1).
    - unfold y1. by destruct (p_side q).
    - unfold y1. by destruct (p_side q).
    - unfold y1. by destruct (p_side q).
    - replace (x_side y1 (opposite (p_side q))) with ms by (unfold y1; by destruct (p_side q)).
      eapply (trade_keeps p (out_of_range q)); [|exact Et|exact Hfar]. intros o o' E. unfold out_of_range, acceptable. by rewrite E.
    - replace (x_notices y1) with (x_notices x ++ n2) by (unfold y1; by destruct (p_side q)). rewrite app_length. lia. }
  split; [unfold y1; by destruct (p_side q)|]. split; [unfold y1; by destruct (p_side q)|].
  intros sd. rewrite <- Hx. by destruct sd, (p_side q).
Qed.
End Post.

Lemma post_take c log (m : market C) q p s id m1 s2 m2 :
  config_ok c -> history same_id c log m -> N.of_nat (length log) + 2 < p63 ->
  op_typed (NewOrder q) -> op_typed (NewOrder p) ->
  post_only q = true -> post_allowed p = false -> p_side p = p_side q ->
  exec same_id (NewOrder q) m = (Ok (Some s), m1) -> posted_order_id s = Some id ->
  exec same_id (NewOrder p) m1 = (Ok (Some s2), m2) ->
  exists n1 n2,
    exec same_id (NewOrder p) m = (Ok (Some s2), n1) /\ exec same_id (NewOrder q) n1 = (Ok (Some s), n2) /\
    emitted m n1 = emitted m1 m2 /\ emitted n1 n2 = emitted m m1 /\ forall sd, resting n2 sd = resting m2 sd.
Proof.
  intros Hc Hh Hl Tq Tp Hq Hp Hsd E1 Hid E2.
  assert (RS : forall l x, steps m l x -> (length l <= 2)%nat -> reachable same_id c x).
  { intros l x Hs Hle. eapply reach_steps; [done|exact Hh| |exact Hs]. rewrite app_length. lia. }
  assert (S1 : steps m [mk_entry (NewOrder q) (Ok (Some s)) (emitted m m1)] m1) by (apply (steps_snoc _ _ [] m); [constructor|done..]).
  assert (S2 := steps_snoc _ _ _ _ _ _ _ S1 Tp E2).
  assert (Hr : reachable same_id c m) by (apply (RS []); [constructor|cbn; lia]).
  assert (Hr1 := RS _ _ S1 ltac:(cbn; lia)). assert (Hr2 := RS _ _ S2 ltac:(cbn; lia)).
  destruct (exec same_id (NewOrder p) m) as [r1 n1] eqn:F1. destruct (exec same_id (NewOrder q) n1) as [r2 n2] eqn:F2.
  assert (S3 : steps m [mk_entry (NewOrder p) r1 (emitted m n1)] n1) by (apply (steps_snoc _ _ [] m); [constructor|done..]).
  assert (S4 := steps_snoc _ _ _ _ _ _ _ S3 Tq F2).
  assert (Hr3 := RS _ _ S3 ltac:(cbn; lia)). assert (Hr4 := RS _ _ S4 ltac:(cbn; lia)).
  destruct (view_new_order _ _ _ _ _ _ Hr Tq E1) as (a1&A1&V1). destruct (view_new_order _ _ _ _ _ _ Hr1 Tp E2) as (a2&A2&V2).
  destruct (view_new_order _ _ _ _ _ _ Hr Tp F1) as (a3&A3&V3). destruct (view_new_order _ _ _ _ _ _ Hr3 Tq F2) as (a4&A4&V4).
  cbn [answer_of] in A1, A2. injection A1 as <-. injection A2 as <-. rewrite Hid in V1.
  destruct (post_take_rule _ q p _ _ _ _ _ _ _ _ _ _ _ Hq Hp Hsd (view_ranked _ _ _ _ Hr) V1 V2) as (l1&l2&y1&y2&N1&N2&W1&W2&N3&N4&Hsides).
  rewrite V3 in W1. pose proof (f_equal fst W1) as Ea3. pose proof (f_equal snd W1) as Ey1. cbn [fst snd] in Ea3, Ey1. subst a3 y1.
  rewrite V4 in W2. pose proof (f_equal fst W2) as Ea4. pose proof (f_equal snd W2) as Ey2. cbn [fst snd] in Ea4, Ey2. subst a4 y2.
  assert (Same : forall rr (sm : summary), answer_of rr = Some (Accepted (posted_order_id sm) (total_base_qty sm) (total_quote_qty sm) (total_base_qty_posted sm)) -> rr = Ok (Some sm)).
  { intros rr sm H. destruct rr as [[s0|]|[]|[]|]; try discriminate H. cbn in H. destruct s0, sm. cbn in H. by injection H as -> -> -> ->. }
  assert (Em : forall (x y : market C) l, x_notices (view y) = x_notices (view x) ++ l -> map notice_of (emitted x y) = l).
  { intros x y l E. cbn [view x_notices] in E. unfold emitted. rewrite <- skipn_map, E. apply drop_app_alt. by rewrite map_length. }
  apply Same in A3. subst r1. rewrite <- Hid in A4. apply Same in A4. subst r2.
  exists n1, n2. split; [done|]. split; [done|]. split.
  { eapply notices_inj; [by eapply ProvideProofs.emitted_sane..|]. rewrite (Em _ _ _ N3), (Em _ _ _ N2). done. }
  split. { eapply notices_inj; [by eapply ProvideProofs.emitted_sane..|]. rewrite (Em _ _ _ N4), (Em _ _ _ N1). done. }
  intros sd. eapply view_resting; [done|done|]. apply Hsides.
Qed.
End Logs.
