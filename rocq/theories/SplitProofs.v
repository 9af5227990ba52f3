(** * SplitProofs.v: continuing an order (C76) *)
From Verif Require Import Machine Critbit EventQueue OrderBook Market Spec BookProofs MarketProofs MarketFacts
  ExchangeSpec ExchangeProofs SplitSpec NewOrderProps.
From Coq Require Import ZifyBool ZifyNat ZifyN.

Section Split.
Context {C : Type} (same_id : C -> C -> bool).
Notation trade := (trade same_id).

Section Trade.
Context (r : rules) (p : params C).
Lemma trade_split n2 : forall n1 b q ms ns b1 q1 ms1,
  trade r p n1 b q ms = (ns, Some (b1, q1, ms1, false)) ->
  trade r p (n1 + n2) b q ms = (ns ++ fst (trade r p n2 b1 q1 ms1), snd (trade r p n2 b1 q1 ms1)).
Proof.
  assert (Hstop : forall n b q o os,
    negb (acceptable p o) = false ->
    (post_only p || (N.min (N.min (x_size o) b) (pays_for q (x_price o)) =? 0) ||
      (cost (p_side p) (N.min (N.min (x_size o) b) (pays_for q (x_price o))) (x_price o) =? 0)) = true ->
    trade r p n b q (o :: os) = ([], Some (b, q, o :: os, false))).
  { intros [|n] b q o os H1 H2; cbn [ExchangeSpec.trade]; [done|]. by rewrite H1, H2. }
  induction n1 as [|n1 IH]; intros b q ms ns b1 q1 ms1 H.
  { cbn in H. injection H as <- <- <- <-. cbn. by destruct (trade r p n2 b q ms). }
  destruct ms as [|o os]; [cbn in H; done|]. cbn [ExchangeSpec.trade Nat.add] in H |- *.
  destruct (negb (acceptable p o)) eqn:E1; [done|].
  destruct (post_only p || _ || _) eqn:E2.
  { injection H as <- <- <- <-. rewrite Hstop by done. done. }
  destruct (stb p) eqn:Es; destruct (own_order same_id p o) eqn:Eo; try done;
    try (destruct (_ <? _));
    match type of H with (_, snd (trade r p ?n ?x ?y ?z)) = _ =>
      destruct (trade r p n x y z) as [ns' rr] eqn:Et; cbn [fst snd] in H; injection H as <- -> end;
    rewrite (IH _ _ _ _ _ _ _ Et); cbn [fst snd]; by rewrite ?app_assoc.
Qed.
Lemma trade_le : forall n b q ms ns b1 q1 ms1 f,
  trade r p n b q ms = (ns, Some (b1, q1, ms1, f)) -> b1 <= b /\ q1 <= q.
Proof.
  induction n as [|n IH]; intros b q ms ns b1 q1 ms1 f H.
  { cbn in H. injection H as <- <- <- <-. lia. }
  destruct ms as [|o os]; [cbn in H; injection H as <- <- <- <- <-; lia|]. cbn [ExchangeSpec.trade] in H.
  destruct (negb (acceptable p o)); [injection H as <- <- <- <- <-; lia|].
  destruct (post_only p || _ || _); [injection H as <- <- <- <- <-; lia|].
  destruct (stb p); destruct (own_order same_id p o); try done;
    try (destruct (_ <? _));
    match type of H with (_, snd (trade r p ?n ?x ?y ?z)) = _ =>
      destruct (trade r p n x y z) as [ns' rr] eqn:Et; cbn [fst snd] in H; injection H as <- -> end;
    apply IH in Et; lia.
Qed.
Lemma trade_free : forall n b q ms ns b1 q1 ms1,
  trade r p n b q ms = (ns, Some (b1, q1, ms1, true)) ->
  (length (List.filter (deals same_id p) ns) < n)%nat /\
  match ms1 with [] => True | o :: _ => acceptable p o = false end.
Proof.
  induction n as [|n IH]; intros b q ms ns b1 q1 ms1 H; [done|].
  destruct ms as [|o os]; [cbn in H; injection H as <- <- <- <-; cbn; split; [lia|done]|].
  cbn [ExchangeSpec.trade] in H.
  destruct (negb (acceptable p o)) eqn:E1.
  { injection H as <- <- <- <-. cbn. apply negb_true_iff in E1. split; [lia|done]. }
  destruct (post_only p || _ || _); [done|].
  destruct (stb p) eqn:Es; destruct (own_order same_id p o) eqn:Eo; try done;
    try (destruct (_ <? _));
    match type of H with (_, snd (trade r p ?n ?x ?y ?z)) = _ =>
      destruct (trade r p n x y z) as [ns' rr] eqn:Et; cbn [fst snd] in H; injection H as <- -> end;
    apply IH in Et as [Hl Hh]; (split; [|done]);
    cbn [app List.filter deals]; rewrite ?Es; unfold own_order in Eo; rewrite ?Eo; cbn [andb length];
    try lia; destruct (p_side p); cbn; lia.
Qed.
End Trade.

Lemma dealt_own (p : params C) r clock b q own ns po own' cl :
  post_rest r p clock b q own = (ns, po, own', cl) -> List.filter (deals same_id p) ns = [].
Proof.
  unfold post_rest. destruct (_ || _); [by intros [= <- _ _ _]|]. destruct (_ <? _)%nat; [by intros [= <- _ _ _]|].
  destruct (last own) as [w|]; [|by intros [= <- _ _ _]]. destruct (not_worse _ _ _); [by intros [= <- _ _ _]|].
  intros [= <- _ _ _]. cbn. destruct (p_side p); by rewrite andb_false_r.
Qed.

Lemma continue_rule (r : rules) (p : params C) (k1 k2 : N) x id b q pb x1 :
  new_order_rule same_id r (with_limit p k1) x = (Accepted id b q pb, x1) ->
  (forall ns b1 q1 ms1, trade r p (N.to_nat k1) (max_base_qty p) (max_quote_qty p) (x_side x (opposite (p_side p))) <>
     (ns, Some (b1, q1, ms1, true))) ->
  forall s, total_base_qty s = b -> total_quote_qty s = q ->
  let '(a2, x2) := new_order_rule same_id r (rest_of p s k2) x1 in
  let '(a, x') := new_order_rule same_id r (with_limit p (k1 + k2)) x in
  match a2 with
  | Accepted id2 b2 q2 pb2 => a = Accepted id2 (b + b2) (q + q2) pb2 /\ x' = x2
  | _ => a = a2 /\ x' = x /\ x2 = x1
  end /\ id = None /\ pb = 0.
Proof.
  intros H1 Hcut s Hb Hq. revert H1. unfold new_order_rule.
  change (limit_price (with_limit p k1)) with (limit_price p). change (limit_price (with_limit p (k1 + k2))) with (limit_price p).
  change (limit_price (rest_of p s k2)) with (limit_price p). cbn [post_allowed with_limit rest_of p_side match_limit max_base_qty max_quote_qty].
  destruct (negb _ || _); [done|].
  change (ExchangeSpec.trade same_id r (with_limit p k1)) with (trade r p).
  change (ExchangeSpec.trade same_id r (with_limit p (k1 + k2))) with (trade r p).
  change (ExchangeSpec.trade same_id r (rest_of p s k2)) with (trade r p).
  change (post_rest r (with_limit p k1)) with (post_rest r p).
  change (post_rest r (with_limit p (k1 + k2))) with (post_rest r p).
  change (post_rest r (rest_of p s k2)) with (post_rest r p).
  set (sd := p_side p) in *.
  destruct (trade r p (N.to_nat k1) (max_base_qty p) (max_quote_qty p) (x_side x (opposite sd))) as [ns [[[[b1 q1] ms1] free]|]] eqn:Et.
  2:{ destruct (_ <=? _)%nat; done. }
  destruct free; [by destruct (Hcut ns b1 q1 ms1)|].
  destruct (trade_le _ _ _ _ _ _ _ _ _ _ _ Et) as [Lb Lq].
  rewrite app_nil_r. destruct (length (x_notices x) + length ns <=? r_room r)%nat eqn:Eroom; [|done].
  intros H. injection H as <- Eb Eq <- Ex. rewrite cost_0, !N.add_0_r in *.
  rewrite Hb, Hq. rewrite <- Eb, <- Eq.
  replace (max_base_qty p - (max_base_qty p - b1)) with b1 by lia.
  replace (max_quote_qty p - (max_quote_qty p - q1)) with q1 by lia.
  assert (Eopp : x_side x1 (opposite sd) = ms1) by (rewrite <- Ex; by destruct sd).
  assert (Eown : x_side x1 sd = x_side x sd) by (rewrite <- Ex; by destruct sd).
  assert (Ecl : x_clock x1 = x_clock x) by (rewrite <- Ex; by destruct sd).
  assert (Ens : x_notices x1 = x_notices x ++ ns) by (rewrite <- Ex; by destruct sd).
  rewrite Eopp, Eown, Ecl, Ens. rewrite N2Nat.inj_add, (trade_split r p _ _ _ _ _ _ _ _ _ Et).
  destruct (trade r p (N.to_nat k2) b1 q1 ms1) as [ns2 [[[[b2 q2] ms2] free2]|]] eqn:Et2; cbn [fst snd].
  2:{ rewrite !app_length. rewrite <- !Nat.add_assoc. by destruct (length (x_notices x) + (length ns + length ns2) <=? r_room r)%nat. }
  destruct (trade_le _ _ _ _ _ _ _ _ _ _ _ Et2) as [Lb2 Lq2].
  destruct (if free2 then _ else _) as [[[n2 posted] own] clock] eqn:Epost.
  rewrite !app_length, <- !Nat.add_assoc.
  destruct (length (x_notices x) + (length ns + (length ns2 + length n2)) <=? r_room r)%nat; [|done].
  split; [|done]. split.
  - f_equal; lia.
  - by rewrite <- !app_assoc.
Qed.

Lemma dealt_app (p : params C) a b : dealt same_id p (a ++ b) = dealt same_id p a + dealt same_id p b.
Proof. unfold dealt. rewrite List.filter_app, app_length. lia. Qed.

Lemma cut_not_free c (m m1 : market C) (p : params C) k r1 :
  reachable same_id c m -> reachable same_id c m1 ->
  op_typed (NewOrder (with_limit p k)) ->
  exec same_id (NewOrder (with_limit p k)) m = (Ok r1, m1) ->
  cut_short same_id p k m m1 ->
  forall ns b1 q1 ms1,
  trade (rules_of c) p (N.to_nat k) (max_base_qty p) (max_quote_qty p) (x_side (view m) (opposite (p_side p))) <>
    (ns, Some (b1, q1, ms1, true)).
Proof.
  intros Hr Hr1 Hty He Hcut ns b1 q1 ms1 Et.
  destruct (view_new_order _ _ _ _ _ _ Hr Hty He) as (a&Ha&Hrule).
  destruct (trade_free _ _ _ _ _ _ _ _ _ _ Et) as [Hd Hh].
  unfold new_order_rule in Hrule. cbn [with_limit limit_price post_allowed p_side match_limit max_base_qty max_quote_qty] in Hrule.
  change (ExchangeSpec.trade same_id (rules_of c) (with_limit p k)) with (trade (rules_of c) p) in Hrule.
  change (post_rest (rules_of c) (with_limit p k)) with (post_rest (rules_of c) p) in Hrule.
  assert (Hacc : exists i b q pb, a = Accepted i b q pb).
  { destruct r1; cbn in Ha; injection Ha as <-; eauto.
    destruct (_ || _) in Hrule; [done|]. rewrite Et in Hrule.
    destruct (post_rest _ _ _ _ _ _) as [[[? ?] ?] ?]. destruct (_ <=? _)%nat in Hrule; done. }
  destruct Hacc as (i&b&q&pb&->).
  destruct (_ || _) in Hrule; [done|]. rewrite Et in Hrule.
  destruct (post_rest _ _ _ _ _ _) as [[[n2 po] own] cl] eqn:Ep.
  destruct (_ <=? _)%nat in Hrule; [|done]. injection Hrule as _ _ _ _ Hv.
  destruct Hcut as [Hcut|(o&Ho&Hc)].
  - assert (En : map notice_of (emitted m m1) = ns ++ n2).
    { unfold emitted. assert (En : x_notices (view m1) = x_notices (view m) ++ ns ++ n2).
      { rewrite <- Hv. by destruct (p_side p). }
      cbn [view x_notices] in En. rewrite <- skipn_map, En. apply drop_app_alt. by rewrite map_length. }
    rewrite En, dealt_app in Hcut. unfold dealt in Hcut at 2. rewrite (dealt_own _ _ _ _ _ _ _ _ _ _ Ep) in Hcut.
    unfold dealt in Hcut. cbn in Hcut. lia.
  - destruct (reachable_minv _ _ _ Hr1) as (L&pend&Hm&Hsq). destruct (view_minv _ _ _ _ Hm) as (V&_&_).
    specialize (V (opposite (p_side p))).
    assert (E : x_side (view m1) (opposite (p_side p)) = ms1) by (rewrite <- Hv; by destruct (p_side p)).
    rewrite E in V. rewrite (in_resting _ _ _ _ _ _ Hm) in Ho.
    refine (not_crosses_all _ _ _ (minv_sorted _ _ _ _ _ Hm) _ _ _ Ho Hc).
    + eapply Forall_impl; [exact (mi_ok _ _ _ _ Hm _)|]. intros; by eapply order_ok_typed.
    + destruct (L (opposite (p_side p))) as [|o' os] eqn:EL; [done|]. cbn in V. subst ms1. cbn in Hh.
      assert (Ho' : order_ok c (seq_of m1) (opposite (p_side p)) o').
      { pose proof (mi_ok _ _ _ _ Hm (opposite (p_side p))) as HF. rewrite EL in HF. by inversion HF. }
      rewrite price_id; [exact Hh|]. by apply (order_ok_typed _ _ _ _ Hsq) in Ho' as [? _].
Qed.

Lemma continue_market c (m m1 : market C) (p : params C) k1 k2 s1 r m' r2 m2 :
  accepted same_id c m (with_limit p k1) s1 m1 -> reachable same_id c m1 -> cut_short same_id p k1 m m1 ->
  k1 + k2 < p64 ->
  exec same_id (NewOrder (with_limit p (k1 + k2))) m = (r, m') ->
  exec same_id (NewOrder (rest_of p s1 k2)) m1 = (r2, m2) ->
  match answer_of r2 with
  | Some (Accepted id b q posted) =>
      answer_of r = Some (Accepted id (total_base_qty s1 + b) (total_quote_qty s1 + q) posted) /\ view m' = view m2
  | _ => answer_of r = answer_of r2 /\ view m' = view m
  end /\ posted_order_id s1 = None.
Proof.
  intros (Hr&Hty&He1) Hr1 Hcut Hk He He2.
  pose proof (cut_not_free _ _ _ _ _ _ Hr Hr1 Hty He1 Hcut) as Hnf.
  assert (Hty' : op_typed (NewOrder (with_limit p (k1 + k2)))).
  { destruct Hty as (T1&T2&T3&T4). split_and!; try done. }
  assert (Hty2 : op_typed (NewOrder (rest_of p s1 k2))).
  { destruct Hty as (T1&T2&T3&T4). cbn in *. split_and!; try done; lia. }
  destruct (view_new_order _ _ _ _ _ _ Hr Hty He1) as (a1&Ha1&R1). cbn in Ha1. injection Ha1 as <-.
  destruct (view_new_order _ _ _ _ _ _ Hr Hty' He) as (a&Ha&R).
  destruct (view_new_order _ _ _ _ _ _ Hr1 Hty2 He2) as (a2&Ha2&R2).
  pose proof (continue_rule _ p k1 k2 _ _ _ _ _ _ R1 Hnf s1 eq_refl eq_refl) as H.
  rewrite R, R2 in H. rewrite Ha, Ha2. destruct H as [H [-> _]]. split; [|done].
  destruct a2; [by destruct H as [-> ->]|by destruct H as (->&->&_)..].
Qed.
End Split.
