(** * PiecesProofs.v: an order sent in pieces (C82) *)
From Verif Require Import Machine Critbit EventQueue OrderBook Market Spec QueueProofs MarketProofs MarketFacts MoreProofs
  ExchangeSpec ExchangeProofs SplitSpec SplitProofs NewOrderProps NewOrderProps2 PiecesSpec.
From Coq Require Import ZifyBool ZifyNat ZifyN.

Section Pieces.
Context {C : Type} (same_id : C -> C -> bool).
Notation trade := (trade same_id).

Section Trade.
Context (r : rules) (p : params C).
(** What an order does, whatever the room for notices. *)
Definition effect (n : nat) (b q : N) (own makers : list (xorder C)) (clock : N)
    : option (list (notice C) * option (N * xorder C) * N * N * list (xorder C) * list (xorder C) * N) :=
  match trade r p n b q makers with
  | (_, None) => None
  | (n1, Some (b1, q1, ms, free)) =>
      let '(n2, posted, own', cl) := if free then post_rest r p clock b1 q1 own else ([], None, own, clock) in
      Some (n1 ++ n2, posted, b1, q1, ms, own', cl)
  end.
Definition price_bad : bool := negb (limit_price p mod r_tick r =? 0) || (post_allowed p && (limit_price p <? r_tick r)).
Definition size_of (posted : option (N * xorder C)) : N := match posted with Some (_, o) => x_size o | None => 0 end.

Lemma rule_effect x : new_order_rule same_id r p x =
  if price_bad then (BadPrice, x)
  else match effect (N.to_nat (match_limit p)) (max_base_qty p) (max_quote_qty p) (x_side x (p_side p)) (x_side x (opposite (p_side p))) (x_clock x) with
  | None => (if (length (x_notices x) + length (fst (trade r p (N.to_nat (match_limit p)) (max_base_qty p) (max_quote_qty p)
               (x_side x (opposite (p_side p))))) <=? r_room r)%nat then SelfTrade else NoRoom, x)
  | Some (ns, posted, b, q, ms, own, cl) =>
      if (length (x_notices x) + length ns <=? r_room r)%nat then
        (Accepted (option_map fst posted) (max_base_qty p - b + size_of posted)
           (max_quote_qty p - q + cost (p_side p) (size_of posted) (limit_price p)) (size_of posted),
         with_sides (p_side p) own ms (x_notices x ++ ns) cl)
      else (NoRoom, x)
  end.
Proof.
  unfold new_order_rule, effect, price_bad. destruct (negb _ || _); [done|].
  destruct (trade r p _ _ _ _) as [n1 [[[[b q] ms] free]|]]; [|done].
  by destruct (if free then post_rest r p (x_clock x) b q (x_side x (p_side p)) else ([], None, x_side x (p_side p), x_clock x))
    as [[[n2 posted] own] cl].
Qed.

(** Trading that ended before its limit ends there under any larger limit. *)
Lemma trade_done n2 : forall n b q ms ns b1 q1 ms1 f,
  trade r p n b q ms = (ns, Some (b1, q1, ms1, f)) -> (length (List.filter (deals same_id p) ns) < n)%nat ->
  trade r p (n + n2) b q ms = (ns, Some (b1, q1, ms1, f)).
Proof.
  induction n as [|n IH]; intros b q ms ns b1 q1 ms1 f H Hl; [cbn in Hl; lia|].
  destruct ms as [|o os]; [done|]. cbn [ExchangeSpec.trade Nat.add] in H |- *.
  destruct (negb (acceptable p o)); [done|]. destruct (post_only p || _ || _); [done|].
  destruct (stb p) eqn:Es; destruct (own_order same_id p o) eqn:Eo; try done;
    try (destruct (_ <? _));
    match type of H with (_, snd (trade r p ?n ?x ?y ?z)) = _ =>
      destruct (trade r p n x y z) as [ns' rr] eqn:Et; cbn [fst snd] in H; injection H as <- -> end;
    (rewrite (IH _ _ _ _ _ _ _ _ Et); [done|]);
    revert Hl; cbn [app List.filter deals]; rewrite ?Es; unfold own_order in Eo; rewrite ?Eo; cbn [andb length];
    try lia; destruct (p_side p); cbn; lia.
Qed.
Lemma trade_none n2 : forall n b q ms ns, trade r p n b q ms = (ns, None) -> snd (trade r p (n + n2) b q ms) = None.
Proof.
  induction n as [|n IH]; intros b q ms ns H; [done|].
  destruct ms as [|o os]; [done|]. cbn [ExchangeSpec.trade Nat.add] in H |- *.
  destruct (negb (acceptable p o)); [done|]. destruct (post_only p || _ || _); [done|].
  destruct (stb p) eqn:Es; destruct (own_order same_id p o) eqn:Eo; try done;
    try (destruct (_ <? _));
    match type of H with (_, snd (trade r p ?n ?x ?y ?z)) = _ =>
      destruct (trade r p n x y z) as [ns' rr] eqn:Et; cbn [fst snd] in H; injection H as _ -> end;
    cbn [snd]; by eapply IH.
Qed.

(** An order with limit [n + n2], when the first [n] are done. *)
Lemma effect_split n n2 b q own ms cl ns posted b1 q1 ms1 own1 cl1 :
  effect n b q own ms cl = Some (ns, posted, b1, q1, ms1, own1, cl1) ->
  if (length (List.filter (deals same_id p) ns) <? n)%nat
  then effect (n + n2) b q own ms cl = Some (ns, posted, b1, q1, ms1, own1, cl1)
  else posted = None /\ own1 = own /\ cl1 = cl /\
       effect (n + n2) b q own ms cl =
         match effect n2 b1 q1 own ms1 cl with
         | Some (ns2, posted2, b2, q2, ms2, own2, cl2) => Some (ns ++ ns2, posted2, b2, q2, ms2, own2, cl2)
         | None => None
         end.
Proof.
  unfold effect. destruct (trade r p n b q ms) as [n1 [[[[b' q'] ms'] free]|]] eqn:Et; [|done].
  destruct (if free then post_rest r p cl b' q' own else ([], None, own, cl)) as [[[n3 po] own'] cl'] eqn:Ep.
  intros [= <- <- <- <- <- <- <-].
  assert (Ed : length (List.filter (deals same_id p) (n1 ++ n3)) = length (List.filter (deals same_id p) n1)).
  { rewrite List.filter_app, app_length. destruct free; [by rewrite (dealt_own _ _ _ _ _ _ _ _ _ _ _ Ep); cbn; lia|].
    injection Ep as <- _ _ _. cbn. lia. }
  rewrite Ed. destruct (Nat.ltb_spec (length (List.filter (deals same_id p) n1)) n) as [Hl|Hl].
  - rewrite (trade_done n2 _ _ _ _ _ _ _ _ _ Et Hl). by rewrite Ep.
  - destruct free; [apply trade_free in Et as [? _]; lia|]. injection Ep as <- <- <- <-.
    split_and!; try done. rewrite (trade_split same_id r p n2 _ _ _ _ _ _ _ _ Et).
    destruct (trade r p n2 b' q' ms') as [n4 [[[[b2 q2] ms2] free2]|]]; [|done]. cbn [fst snd].
    destruct (if free2 then post_rest r p cl b2 q2 own else ([], None, own, cl)) as [[[n5 po2] own2] cl2].
    by rewrite app_nil_r, app_assoc.
Qed.
Lemma effect_le n b q own ms cl ns posted b1 q1 ms1 own1 cl1 :
  effect n b q own ms cl = Some (ns, posted, b1, q1, ms1, own1, cl1) -> b1 <= b /\ q1 <= q.
Proof.
  unfold effect. destruct (trade r p n b q ms) as [n1 [[[[b' q'] ms'] free]|]] eqn:Et; [|done].
  destruct (if free then post_rest r p cl b' q' own else ([], None, own, cl)) as [[[n3 po] own'] cl'] eqn:Ep.
  intros [= <- <- <- <- <- <- <-]. by eapply trade_le.
Qed.
End Trade.

Lemma notices_bound c m : reachable same_id c m -> N.of_nat (length (pending m)) < p64.
Proof.
  intros Hr. pose proof Hr as (Hc&_). destruct (reachable_minv _ _ _ Hr) as (L&pend&Hm&Hsq).
  rewrite (minv_pending _ _ _ _ Hm). pose proof (mi_q _ _ _ _ Hm) as Hq. pose proof (mi_qcap _ _ _ _ Hm) as Hcap.
  destruct Hc as (_&_&_&_&_&_&_&Hev). destruct Hq. lia.
Qed.
Lemma map_nil_inv {A B} (f : A -> B) l : map f l = [] -> l = [].
Proof. by destruct l. Qed.

Lemma send_ok c : config_ok c -> forall ks log m (p : params C) ns posted b q ms own cl,
  history same_id c log m -> N.of_nat (length log) + 2 * N.of_nat (length ks) < p63 ->
  Forall (fun k => 2 * k + 1 <= N.of_nat (c_events c)) ks ->
  max_base_qty p < p64 -> max_quote_qty p < p64 -> limit_price p < p64 -> price_bad (rules_of c) p = false ->
  effect (rules_of c) p (N.to_nat (sum ks)) (max_base_qty p) (max_quote_qty p)
    (x_side (view m) (p_side p)) (x_side (view m) (opposite (p_side p))) (x_clock (view m)) = Some (ns, posted, b, q, ms, own, cl) ->
  exists evs m', send same_id ks p m =
    (Some (mk_outcome evs (max_base_qty p - b + size_of posted)
             (max_quote_qty p - q + cost (p_side p) (size_of posted) (limit_price p)) (option_map fst posted) (size_of posted)), m') /\
  map notice_of evs = ns /\ x_side (view m') (p_side p) = own /\ x_side (view m') (opposite (p_side p)) = ms /\
  x_clock (view m') = cl.
Proof.
  intros Hc. induction ks as [|k ks IH]; intros log m p ns posted b q ms own cl Hh Hlen Hks Tb Tq Tl Hbad He.
  { exists [], m. unfold effect in He. cbn in He. injection He as <- <- <- <- <- <- <-. cbn [send size_of option_map].
    rewrite !N.sub_diag, cost_0. done. }
  apply Forall_cons in Hks as [Hk Hks]. cbn [length] in Hlen.
  assert (Rm : reachable same_id c m) by (split; [done|]; exists log; split; [done|lia]).
  cbn [send]. destruct (exec same_id (ConsumeEvents (N.of_nat (length (pending m)))) m) as [r0 m0] eqn:E0. cbn [snd].
  assert (T0 : op_typed (C:=C) (ConsumeEvents (N.of_nat (length (pending m))))) by (by apply (notices_bound c)).
  destruct (view_step _ _ _ _ _ _ Rm T0 E0) as (a0&_&V0). cbn [rule] in V0. apply (f_equal snd) in V0. cbn [snd] in V0.
  pose proof (reachable_step _ _ _ _ _ _ _ Hc Hh ltac:(lia) T0 E0) as Hh0.
  assert (Hl0 : length (log ++ [mk_entry (ConsumeEvents (N.of_nat (length (pending m)))) r0 (emitted m m0)]) = (length log + 1)%nat)
    by (by rewrite app_length).
  set (log0 := log ++ _) in *. clearbody log0.
  assert (R0 : reachable same_id c m0) by (split; [done|]; exists log0; split; [done|lia]).
  assert (N0 : x_notices (view m0) = []).
  { rewrite <- V0. cbn [x_notices]. apply drop_ge. cbn [view x_notices]. rewrite map_length. lia. }
  assert (P0 : pending m0 = []) by (by apply map_nil_inv in N0).
  assert (S0 : forall sd, x_side (view m0) sd = x_side (view m) sd) by (rewrite <- V0; by intros []).
  assert (C0 : x_clock (view m0) = x_clock (view m)) by (by rewrite <- V0).
  destruct (exec same_id (NewOrder (with_limit p k)) m0) as [r1 m1] eqn:E1.
  assert (T1 : op_typed (NewOrder (with_limit p k))).
  { cbn. split_and!; try done. destruct Hc as (_&_&_&_&_&_&_&Hev). lia. }
  destruct (view_new_order _ _ _ _ _ _ R0 T1 E1) as (a1&A1&V1).
  pose proof (reachable_step _ _ _ _ _ _ _ Hc Hh0 ltac:(lia) T1 E1) as Hh1.
  assert (Q1 : r1 <> Err EventQueueFull).
  { eapply queue_room; [exact R0|exact T1|exact E1|]. rewrite P0. cbn [length with_limit match_limit]. lia. }
  rewrite rule_effect in V1. change (price_bad (rules_of c) (with_limit p k)) with (price_bad (rules_of c) p) in V1. rewrite Hbad in V1.
  cbn [with_limit match_limit max_base_qty max_quote_qty p_side limit_price] in V1.
  change (effect (rules_of c) (with_limit p k)) with (effect (rules_of c) p) in V1.
  rewrite !S0, C0, N0 in V1. cbn [sum fold_right] in He. rewrite N2Nat.inj_add in He. fold (sum ks) in He.
  destruct (effect (rules_of c) p (N.to_nat k) (max_base_qty p) (max_quote_qty p) (x_side (view m) (p_side p))
     (x_side (view m) (opposite (p_side p))) (x_clock (view m))) as [[[[[[[ns1 po1] b1] q1] ms1] own1] cl1]|] eqn:Ef.
  2:{ exfalso. unfold effect in Ef, He. destruct (trade _ p (N.to_nat k) _ _ _) as [nx [[[[? ?] ?] free]|]] eqn:Et.
      - destruct (if free then _ else _) as [[[? ?] ?] ?]; done.
      - apply (trade_none _ _ (N.to_nat (sum ks))) in Et.
        destruct (trade _ p (N.to_nat k + _) _ _ _) as [ny [?|]]; done. }
  cbn [length Nat.add app] in V1. destruct (length ns1 <=? r_room (rules_of c))%nat.
  2:{ injection V1 as <- _. destruct r1 as [[?|]|[]|[]|]; done. }
  apply (f_equal snd) in V1 as Vm. apply (f_equal fst) in V1. cbn [fst snd] in V1, Vm. rewrite <- V1 in A1.
  destruct r1 as [[s|]|[]|[]|]; try done. cbn [answer_of] in A1. injection A1 as A1 A2 A3 A4.
  assert (N1 : map notice_of (pending m1) = ns1).
  { change (map notice_of (pending m1)) with (x_notices (view m1)). rewrite <- Vm. by destruct (p_side p). }
  rewrite N1. assert (Hd : (dealt same_id p ns1 <? k) = (length (List.filter (deals same_id p) ns1) <? N.to_nat k)%nat).
  { unfold dealt. destruct (Nat.ltb_spec (length (List.filter (deals same_id p) ns1)) (N.to_nat k)); [apply N.ltb_lt|apply N.ltb_ge]; lia. }
  rewrite Hd. clear Hd. destruct (effect_le _ _ _ _ _ _ _ _ _ _ _ _ _ _ _ Ef) as [Lb1 Lq1].
  pose proof (effect_split _ _ _ (N.to_nat (sum ks)) _ _ _ _ _ _ _ _ _ _ _ _ Ef) as Hs.
  destruct (length (List.filter (deals same_id p) ns1) <? N.to_nat k)%nat.
  - rewrite Hs in He. injection He as <- <- <- <- <- <- <-. exists (pending m1), m1. rewrite A1, A2, A3, A4. split; [done|].
    split; [done|]. rewrite <- Vm. by destruct (p_side p).
  - destruct Hs as (->&->&->&Hs). cbn [size_of option_map] in *. rewrite cost_0, N.add_0_r in A3. rewrite N.add_0_r in A2.
    rewrite Hs in He.
    destruct (effect (rules_of c) p (N.to_nat (sum ks)) b1 q1 _ ms1 _) as [[[[[[[ns2 po2] b2] q2] ms2] own2] cl2]|] eqn:Ef2; [|done].
    injection He as <- <- <- <- <- <- <-. destruct (effect_le _ _ _ _ _ _ _ _ _ _ _ _ _ _ _ Ef2) as [Lb2 Lq2].
    assert (B1 : max_base_qty (rest_of p s k) = b1) by (cbn; rewrite A2; lia).
    assert (B2 : max_quote_qty (rest_of p s k) = q1) by (cbn; rewrite A3; lia).
    destruct (IH _ m1 (rest_of p s k) ns2 po2 b2 q2 ms2 own2 cl2 Hh1) as (evs&m'&Es&H1&H2&H3&H4).
    + rewrite app_length, Hl0. cbn [length]. lia.
    + done.
    + lia.
    + lia.
    + done.
    + exact Hbad.
    + rewrite B1, B2. change (effect (rules_of c) (rest_of p s k)) with (effect (rules_of c) p). cbn [rest_of p_side].
      rewrite <- Ef2. rewrite <- Vm. by destruct (p_side p).
    + rewrite Es. exists (pending m1 ++ evs), m'. rewrite map_app, N1, H1. cbn [rest_of p_side] in H2, H3.
      split; [|by split_and!]. cbn [oc_events oc_base oc_quote oc_posted oc_posted_base].
      rewrite B1, B2, A2, A3. cbn [rest_of p_side limit_price]. f_equal. f_equal. f_equal; lia.
Qed.
End Pieces.
