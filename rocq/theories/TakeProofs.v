(** * TakeProofs.v: taking first, posting the rest afterwards (C94) *)
From Verif Require Import Machine Critbit EventQueue OrderBook Market Spec BookProofs MarketProofs MarketFacts
  ExchangeSpec ExchangeProofs SplitSpec SplitProofs NewOrderProps TakeSpec.
From Coq Require Import ZifyBool ZifyNat ZifyN.

Section Take.
Context {C : Type} (same_id : C -> C -> bool).
Notation trade := (trade same_id).

Section Trade.
Context (r : rules) (p : params C).
Lemma trade_stopped : forall n b q ms ns b1 q1 ms1,
  trade r p n b q ms = (ns, Some (b1, q1, ms1, false)) ->
  length (List.filter (deals same_id p) ns) = n \/ exists o os, ms1 = o :: os /\ acceptable p o = true.
Proof.
  induction n as [|n IH]; intros b q ms ns b1 q1 ms1 H.
  { cbn in H. injection H as <- <- <- <-. by left. }
  destruct ms as [|o os]; [cbn in H; done|]. cbn [ExchangeSpec.trade] in H.
  destruct (negb (acceptable p o)) eqn:E1; [done|].
  destruct (post_only p || _ || _).
  { injection H as <- <- <- <-. right. apply negb_false_iff in E1. by exists o, os. }
  destruct (stb p) eqn:Es; destruct (own_order same_id p o) eqn:Eo; try done;
    try (destruct (_ <? _));
    match type of H with (_, snd (trade r p ?n ?x ?y ?z)) = _ =>
      destruct (trade r p n x y z) as [ns' rr] eqn:Et; cbn [fst snd] in H; injection H as <- -> end;
    (apply IH in Et as [Hl|Hh]; [left|by right]);
    cbn [app List.filter deals]; rewrite ?Es; unfold own_order in Eo; rewrite ?Eo; cbn [andb length];
    try lia; destruct (p_side p); cbn; lia.
Qed.
(** An order that only posts looks at the first order of the other side. *)
Lemma trade_posts s k b q ms : 0 < k ->
  trade r (post_part p s k) (N.to_nat k) b q ms =
    ([], Some (b, q, ms, match ms with [] => true | o :: _ => negb (acceptable p o) end)).
Proof.
  intros Hk. destruct (N.to_nat k) as [|n] eqn:En; [lia|]. destruct ms as [|o os]; [done|]. cbn [ExchangeSpec.trade].
  change (acceptable (post_part p s k) o) with (acceptable p o). cbn [post_part post_only orb]. by destruct (acceptable p o).
Qed.
End Trade.

Lemma no_post r (p : params C) clock b q own : post_rest r (take_part p) clock b q own = ([], None, own, clock).
Proof. done. Qed.

Lemma take_rule (r : rules) (p : params C) x ns b1 q1 ms1 f k s :
  post_allowed p = true -> 0 < k ->
  trade r p (N.to_nat (match_limit p)) (max_base_qty p) (max_quote_qty p) (x_side x (opposite (p_side p))) = (ns, Some (b1, q1, ms1, f)) ->
  (length (List.filter (deals same_id p) ns) < N.to_nat (match_limit p))%nat ->
  forall id b q pb x1, new_order_rule same_id r (take_part p) x = (Accepted id b q pb, x1) ->
  total_base_qty s = b -> total_quote_qty s = q ->
  let '(a2, x2) := new_order_rule same_id r (post_part p s k) x1 in
  let '(a, x') := new_order_rule same_id r p x in
  match a2 with
  | Accepted id2 b2 q2 pb2 => a = Accepted id2 (b + b2) (q + q2) pb2 /\ x' = x2
  | _ => a = a2 /\ x' = x
  end.
Proof.
  intros Hpa Hk Et Hd id b q pb x1 H1 Hb Hq. revert H1. unfold new_order_rule.
  change (limit_price (take_part p)) with (limit_price p). change (limit_price (post_part p s k)) with (limit_price p).
  cbn [take_part post_part post_allowed p_side match_limit max_base_qty max_quote_qty andb]. rewrite Hpa.
  fold (take_part p). fold (post_part p s k).
  change (ExchangeSpec.trade same_id r (take_part p)) with (trade r p). rewrite Et.
  destruct (limit_price p mod r_tick r =? 0) eqn:Etick; cbn [negb orb andb]; [|done].
  destruct (trade_le _ _ _ _ _ _ _ _ _ _ _ _ Et) as [Lb Lq].
  replace (if f then post_rest r (take_part p) (x_clock x) b1 q1 (x_side x (p_side p)) else ([], None, x_side x (p_side p), x_clock x))
    with (([], None, x_side x (p_side p), x_clock x) : list (notice C) * option (N * xorder C) * list (xorder C) * N) by (destruct f; done).
  rewrite app_nil_r. set (sd := p_side p) in *.
  destruct (length (x_notices x) + length ns <=? r_room r)%nat eqn:Eroom; [|done].
  intros H. injection H as <- Eb Eq <- Ex. rewrite cost_0, !N.add_0_r in *.
  rewrite Hb, Hq. rewrite <- Eb, <- Eq.
  replace (max_base_qty p - (max_base_qty p - b1)) with b1 by lia.
  replace (max_quote_qty p - (max_quote_qty p - q1)) with q1 by lia.
  assert (Eopp : x_side x1 (opposite sd) = ms1) by (rewrite <- Ex; by destruct sd).
  assert (Eown : x_side x1 sd = x_side x sd) by (rewrite <- Ex; by destruct sd).
  assert (Ecl : x_clock x1 = x_clock x) by (rewrite <- Ex; by destruct sd).
  assert (Ens : x_notices x1 = x_notices x ++ ns) by (rewrite <- Ex; by destruct sd).
  rewrite Eopp, Eown, Ecl, Ens.
  destruct (limit_price p <? r_tick r); [done|]. rewrite trade_posts by done.
  assert (Hpost : forall clock base quote own, post_rest r (post_part p s k) clock base quote own = post_rest r p clock base quote own).
  { intros. unfold post_rest. rewrite Hpa. done. }
  rewrite Hpost.
  assert (Ef : match ms1 with [] => true | o :: _ => negb (acceptable p o) end = f).
  { destruct f.
    - destruct (trade_free _ _ _ _ _ _ _ _ _ _ _ Et) as [_ Hh]. destruct ms1; [done|]. by rewrite Hh.
    - destruct (trade_stopped _ _ _ _ _ _ _ _ _ _ Et) as [Hh|(o&os&->&->)]; [lia|done]. }
  rewrite Ef. destruct (if f then _ else _) as [[[n2 posted] own] clock].
  rewrite !app_length. cbn [app]. rewrite <- !Nat.add_assoc. cbn [length]. rewrite ?Nat.add_0_l.
  destruct (length (x_notices x) + (length ns + length n2) <=? r_room r)%nat; [|done].
  split; [f_equal; unfold sd; lia|]. by rewrite <- app_assoc.
Qed.

Lemma take_only (r : rules) (p : params C) x ns b1 q1 ms1 f id b q pb x1 :
  trade r p (N.to_nat (match_limit p)) (max_base_qty p) (max_quote_qty p) (x_side x (opposite (p_side p))) = (ns, Some (b1, q1, ms1, f)) ->
  ~ (length (List.filter (deals same_id p) ns) < N.to_nat (match_limit p))%nat -> r_tick r <= limit_price p ->
  new_order_rule same_id r (take_part p) x = (Accepted id b q pb, x1) ->
  new_order_rule same_id r p x = (Accepted id b q pb, x1).
Proof.
  intros Et Hd Ht. destruct f; [destruct (trade_free _ _ _ _ _ _ _ _ _ _ _ Et) as [? _]; lia|].
  unfold new_order_rule. change (limit_price (take_part p)) with (limit_price p).
  cbn [take_part post_allowed p_side match_limit max_base_qty max_quote_qty andb]. fold (take_part p).
  change (ExchangeSpec.trade same_id r (take_part p)) with (trade r p). rewrite Et.
  replace (limit_price p <? r_tick r) with false by lia. rewrite andb_false_r. done.
Qed.

Lemma take_accepted_rule (r : rules) (p : params C) x id b q pb x' :
  new_order_rule same_id r p x = (Accepted id b q pb, x') ->
  exists ns l x1 b1 q1, new_order_rule same_id r (take_part p) x = (Accepted None b1 q1 0, x1) /\
    b1 + pb = b /\ x_notices x1 = x_notices x ++ ns /\ x_notices x' = x_notices x ++ ns ++ l /\ (length l <= 1)%nat /\
    x_side x1 (opposite (p_side p)) = x_side x' (opposite (p_side p)) /\ x_side x1 (p_side p) = x_side x (p_side p).
Proof.
  unfold new_order_rule. change (limit_price (take_part p)) with (limit_price p).
  cbn [take_part post_allowed p_side match_limit max_base_qty max_quote_qty andb]. fold (take_part p).
  change (ExchangeSpec.trade same_id r (take_part p)) with (trade r p).
  destruct (limit_price p mod r_tick r =? 0) eqn:Etick; cbn [negb orb andb]; [|done].
  destruct (_ && _); [done|].
  destruct (trade r p _ _ _ _) as [ns [[[[b1 q1] ms1] free]|]] eqn:Et; [|destruct (_ <=? _)%nat; done].
  assert (Hp : forall n2 po own cl, (if free then post_rest r p (x_clock x) b1 q1 (x_side x (p_side p)) else ([], None, x_side x (p_side p), x_clock x))
    = (n2, po, own, cl) -> (length n2 <= 1)%nat).
  { intros n2 po own cl E. destruct free; [|injection E as <- _ _ _; cbn; lia]. unfold post_rest in E.
    destruct (_ || _); [injection E as <- _ _ _; cbn; lia|]. destruct (_ <? _)%nat; [injection E as <- _ _ _; cbn; lia|].
    destruct (last _); [|injection E as <- _ _ _; cbn; lia]. destruct (not_worse _ _ _); injection E as <- _ _ _; cbn; lia. }
  destruct (if free then post_rest r p _ _ _ _ else _) as [[[n2 po] own] cl]. specialize (Hp _ _ _ _ eq_refl).
  replace (if free then post_rest r (take_part p) (x_clock x) b1 q1 (x_side x (p_side p)) else ([], None, x_side x (p_side p), x_clock x))
    with (([], None, x_side x (p_side p), x_clock x) : list (notice C) * option (N * xorder C) * list (xorder C) * N) by (destruct free; done).
  destruct (_ <=? _)%nat eqn:Er; [|done]. intros H. injection H as <- <- <- <- <-.
  rewrite app_nil_r. apply Nat.leb_le in Er. rewrite app_length in Er.
  replace (length (x_notices x) + length ns <=? r_room r)%nat with true by (symmetry; apply Nat.leb_le; lia).
  exists ns, n2. do 3 eexists. split; [reflexivity|]. split; [lia|]. split; [by destruct (p_side p)|]. split; [by destruct (p_side p)|].
  split; [done|]. split; by destruct (p_side p).
Qed.

(** ** Markets *)
Lemma take_typed (p : params C) : op_typed (NewOrder p) <-> op_typed (NewOrder (take_part p)).
Proof. done. Qed.
Lemma taken_part c (m m1 : market C) p s1 : accepted same_id c m (take_part p) s1 m1 ->
  exists ns b1 q1 ms1 f,
  trade (rules_of c) p (N.to_nat (match_limit p)) (max_base_qty p) (max_quote_qty p) (x_side (view m) (opposite (p_side p))) = (ns, Some (b1, q1, ms1, f)) /\
  map notice_of (emitted m m1) = ns /\
  exists pb, new_order_rule same_id (rules_of c) (take_part p) (view m) = (Accepted (posted_order_id s1) (total_base_qty s1) (total_quote_qty s1) pb, view m1).
Proof.
  intros (Hr&Hty&He). destruct (view_new_order _ _ _ _ _ _ Hr Hty He) as (a&Ha&R). cbn in Ha. injection Ha as <-.
  pose proof R as R0. unfold new_order_rule in R. cbn [take_part post_allowed p_side match_limit max_base_qty max_quote_qty andb] in R. fold (take_part p) in R.
  change (ExchangeSpec.trade same_id (rules_of c) (take_part p)) with (trade (rules_of c) p) in R.
  destruct (_ || _) in R; [done|]. destruct (trade _ _ _ _ _ _) as [ns [[[[b1 q1] ms1] free]|]] eqn:Et; [|destruct (_ <=? _)%nat in R; done].
  replace (if free then post_rest (rules_of c) (take_part p) (x_clock (view m)) b1 q1 (x_side (view m) (p_side p)) else ([], None, x_side (view m) (p_side p), x_clock (view m)))
    with (([], None, x_side (view m) (p_side p), x_clock (view m)) : list (notice C) * option (N * xorder C) * list (xorder C) * N) in R by (destruct free; done).
  rewrite app_nil_r in R. destruct (_ <=? _)%nat in R; [|done]. injection R as _ _ _ _ Hv.
  exists ns, b1, q1, ms1, free. split; [done|]. split; [|eexists; exact R0].
  unfold emitted. assert (En : x_notices (view m1) = x_notices (view m) ++ ns) by (rewrite <- Hv; by destruct (p_side p)).
  cbn [view x_notices] in En. rewrite <- skipn_map, En. apply drop_app_alt. by rewrite map_length.
Qed.
Lemma take_then_post c (m m1 : market C) p s1 k r m' r2 m2 :
  accepted same_id c m (take_part p) s1 m1 -> reachable same_id c m1 -> post_allowed p = true -> 0 < k < p64 ->
  dealt same_id p (map notice_of (emitted m m1)) < match_limit p ->
  exec same_id (NewOrder p) m = (r, m') -> exec same_id (NewOrder (post_part p s1 k)) m1 = (r2, m2) ->
  match answer_of r2 with
  | Some (Accepted id b q posted) =>
      answer_of r = Some (Accepted id (total_base_qty s1 + b) (total_quote_qty s1 + q) posted) /\ view m' = view m2
  | _ => answer_of r = answer_of r2 /\ view m' = view m
  end.
Proof.
  intros Ha Hr1 Hpa Hk Hd He He2. pose proof Ha as (Hr&Hty&_). destruct (taken_part _ _ _ _ _ Ha) as (ns&b1&q1&ms1&f&Et&En&pb&R1).
  assert (Hty' : op_typed (NewOrder p)) by done.
  assert (Hty2 : op_typed (NewOrder (post_part p s1 k))).
  { destruct Hty as (T1&T2&T3&T4). cbn in *. split_and!; try done; lia. }
  destruct (view_new_order _ _ _ _ _ _ Hr Hty' He) as (a&Ha'&R).
  destruct (view_new_order _ _ _ _ _ _ Hr1 Hty2 He2) as (a2&Ha2&R2).
  rewrite En in Hd. unfold dealt in Hd.
  pose proof (take_rule _ p _ _ _ _ _ _ k s1 Hpa ltac:(lia) Et ltac:(lia) _ _ _ _ _ R1 eq_refl eq_refl) as H.
  rewrite R, R2 in H. rewrite Ha', Ha2. destruct a2; [by destruct H as [-> ->]|by destruct H as (->&->)..].
Qed.
Lemma limit_used c (m m1 : market C) p s1 r m' :
  accepted same_id c m (take_part p) s1 m1 -> c_tick c <= limit_price p ->
  match_limit p <= dealt same_id p (map notice_of (emitted m m1)) ->
  exec same_id (NewOrder p) m = (r, m') ->
  answer_of r = answer_of (Ok (Some s1)) /\ view m' = view m1.
Proof.
  intros Ha Ht Hd He. pose proof Ha as (Hr&Hty&_). destruct (taken_part _ _ _ _ _ Ha) as (ns&b1&q1&ms1&f&Et&En&pb&R1).
  destruct Ha as (_&_&He1). destruct (view_new_order _ _ _ _ _ _ Hr Hty He1) as (a1&Ha1&R1').
  assert (Hty' : op_typed (NewOrder p)) by done.
  destruct (view_new_order _ _ _ _ _ _ Hr Hty' He) as (a&Ha'&R).
  rewrite En in Hd. unfold dealt in Hd. rewrite R1' in R1. injection R1 as -> .
  rewrite (take_only _ p _ _ _ _ _ _ _ _ _ _ _ Et ltac:(lia) Ht R1') in R. pose proof (f_equal fst R) as Ea. pose proof (f_equal snd R) as Ev. cbn [fst snd] in Ea, Ev. split; [|by symmetry]. rewrite Ha', <- Ea. symmetry. exact Ha1.
Qed.
Lemma take_accepted c (m m' : market C) p sm r1 m1 :
  accepted same_id c m p sm m' -> exec same_id (NewOrder (take_part p)) m = (r1, m1) ->
  exists b q l, answer_of r1 = Some (Accepted None b q 0) /\ b + total_base_qty_posted sm = total_base_qty sm /\
    map notice_of (emitted m m') = map notice_of (emitted m m1) ++ l /\ (length l <= 1)%nat.
Proof.
  intros (Hr&Hty&He) He1. destruct (view_new_order _ _ _ _ _ _ Hr Hty He) as (a&Ha&R). cbn in Ha. injection Ha as <-.
  assert (Hty1 : op_typed (NewOrder (take_part p))) by done.
  destruct (view_new_order _ _ _ _ _ _ Hr Hty1 He1) as (a1&Ha1&R1).
  destruct (take_accepted_rule _ _ _ _ _ _ _ _ R) as (ns&l&x1&b1&q1&R1'&Hb&E1&E2&Hl&_). rewrite R1 in R1'. injection R1' as -> <-.
  exists b1, q1, l. split; [done|]. split; [done|]. split; [|done].
  unfold emitted. cbn [view x_notices] in E1, E2. rewrite <- !skipn_map, E1, E2.
  rewrite !(drop_app_alt (map notice_of (pending m))) by (by rewrite map_length). done.
Qed.
End Take.
