(** * SellProofs.v: sellers that withdraw own orders on the way (C89) *)
From Verif Require Import Machine Critbit EventQueue OrderBook Market Spec PartsSpec LadderSpec ExchangeSpec ExchangeProofs FundsProofs
  PartsProofs BestSpec BestProofs LadderProofs.
From Coq Require Import ZifyBool ZifyNat ZifyN.

Section Trade.
Context {C : Type} (same_id : C -> C -> bool) (r : rules) (p : params C).
Notation trade := (trade same_id r p).
Notation sd := (p_side p).
Definition x_mark (o : xorder C) : N * N * bool := (x_size o, x_price o, withdrawn same_id p o).
Lemma selling_0 l : selling 0 l = [].
Proof. destruct l as [|[[s q] w] l]; [done|]. cbn [selling]. by rewrite N.min_0_r. Qed.

Lemma trade_sell_all : sd = Ask -> post_only p = false -> 0 < r_min r -> forall n base quote ms ns b1 q1 ms1 f,
  trade n base quote ms = (ns, Some (b1, q1, ms1, f)) -> ranked sd ms -> Forall (fun o => 0 < x_price o) ms ->
  Forall (fun o => 0 < x_size o) ms -> Forall (fun o => x_id (opposite sd) o / 2 ^ 64 = x_price o) ms ->
  sumN (fun o => cost Bid (x_size o) (x_price o)) ms <= quote ->
  let S := selling base (map x_mark (take n (List.filter (acceptable p) ms))) in
  n_deals ns = S /\ sumN n_base ns = depth S /\ sumN n_quote ns = total Ask S.
Proof.
  intros Esd Hpo Hmin. induction n as [|n IH]; intros base quote ms ns b1 q1 ms1 f H Hr Hp Hz Hid Hq.
  { cbn in H. injection H as <- <- <- <- <-. by rewrite take_0. }
  destruct ms as [|o os]; [cbn in H; injection H as <- <- <- <- <-; cbn [List.filter]; by rewrite take_nil|].
  destruct Hr as [Hd Hr]. inversion Hp as [|?? Hpr Hp']; inversion Hz as [|?? Hsz Hz']; inversion Hid as [|?? Hio Hid']; subst.
  destruct (acceptable p o) eqn:Ha; cycle 1.
  { cbn [ExchangeSpec.trade] in H. rewrite Ha in H. cbn [negb] in H. injection H as <- <- <- <- <-.
    cbn [List.filter]. by rewrite Ha, (unacceptable p o os Ha Hd), take_nil. }
  cbn [List.filter]. rewrite Ha, firstn_cons. cbn [map].
  change (x_mark o) with (x_size o, x_price o, withdrawn same_id p o). cbn [sumN] in Hq.
  assert (Hpay : x_size o <= pays_for quote (x_price o)).
  { unfold pays_for. apply N.div_le_lower_bound; [lia|]. change (2 ^ 32) with W. pose proof (cost_up (x_size o) (x_price o)) as [Hc _]. nia. }
  assert (Eb : N.min (N.min (x_size o) base) (pays_for quote (x_price o)) = N.min (x_size o) base) by lia.
  cbn [selling]. cbn zeta. set (b := N.min (x_size o) base) in *. rewrite value_cost. destruct (cost Ask b (x_price o) =? 0) eqn:Ec.
  { cbn [ExchangeSpec.trade] in H. rewrite Ha, Hpo in H. cbn [negb orb] in H. fold b in H. rewrite Eb, Esd, Ec, orb_true_r in H.
    injection H as <- <- <- <- <-. done. }
  assert (Hb0 : b <> 0). { intros Hb. rewrite Hb in Ec. cbn in Ec. done. }
  assert (Hq0 : cost sd b (x_price o) <> 0) by (rewrite Esd; lia).
  destruct (withdrawn same_id p o) eqn:Hw.
  { cbn [ExchangeSpec.trade] in H. rewrite Ha, Hpo in H. cbn [negb orb] in H. fold b in H. rewrite Eb, Esd, Ec in H.
    replace (b =? 0) with false in H by lia. cbn [orb] in H. unfold withdrawn in Hw. destruct (stb p); try done. rewrite Hw in H.
    destruct (trade n base quote os) as [ns' rr] eqn:Et. cbn [fst snd] in H. injection H as <- ->.
    apply IH in Et; [|done..|lia]. cbn zeta in Et. exact Et. }
  destruct (trade_round same_id r p n base quote o os b Ha Hpo Hw (eq_sym Eb) Hb0 Hq0) as [E|E]; rewrite E in H; [done|]. clear E. cbn zeta in H.
  destruct (N.eq_dec b (x_size o)) as [Hb|Hb].
  - replace (x_size o - b <? r_min r) with true in H by lia.
    destruct (trade n (base - b) _ os) as [ns' rr] eqn:Et. cbn [fst snd] in H. injection H as <- ->.
    apply IH in Et; [|done..|].
    2:{ rewrite Esd. pose proof (cost_up (x_size o) (x_price o)). pose proof (cost_down (x_size o) (x_price o)). rewrite Hb. lia. }
    cbn zeta in Et |- *. destruct Et as (I1&I2&I3). cbn [app sumN n_base n_quote n_deals flat_map]. fold (n_deals ns').
    rewrite I1, I2, I3, Hio, Esd. unfold total, depth. cbn [sumN fst]. rewrite value_cost. repeat split; lia.
  - assert (base - b = 0) as Hbb by lia.
    assert (Hone : n_deals ns = [(b, x_price o)] /\ sumN n_base ns = b /\ sumN n_quote ns = cost Ask b (x_price o)).
    { destruct (x_size o - b <? r_min r).
      - destruct (trade_dead same_id r p n (base - b) (quote - cost sd b (x_price o)) os ltac:(by left)) as (f'&Et). rewrite Et in H. cbn [fst snd] in H.
        injection H as <- _ _ _ _. cbn [app n_deals flat_map sumN n_base n_quote]. rewrite Hio, Esd. repeat split; lia.
      - destruct (trade_dead same_id r p n (base - b) (quote - cost sd b (x_price o)) (mk_xorder (x_price o) (x_time o) (x_size o - b) (x_owner o) :: os) ltac:(by left)) as (f'&Et).
        rewrite Et in H. cbn [fst snd] in H.
        injection H as <- _ _ _ _. cbn [app n_deals flat_map sumN n_base n_quote]. rewrite Hio, Esd. repeat split; lia. }
    destruct Hone as (->&->&->). rewrite Hbb, selling_0. unfold total, depth. cbn [sumN fst]. rewrite value_cost. repeat split; lia.
Qed.
End Trade.

Section Market.
Context {C : Type} (same_id : C -> C -> bool).
Lemma marked_view (m : market C) p :
  map (x_mark same_id p) (take (N.to_nat (match_limit p)) (List.filter (acceptable p) (x_side (view m) (opposite (p_side p))))) = marked_ladder same_id m p.
Proof. rewrite facing_view, filter_mapl, firstn_map, map_map. unfold marked_ladder. done. Qed.
Lemma sells_all c m p sm m' : accepted same_id c m p sm m' -> p_side p = Ask -> post_only p = false -> worth Bid m <= max_quote_qty p ->
  let S := selling (max_base_qty p) (marked_ladder same_id m p) in
  deals (emitted m m') = S /\ sumN fill_base (emitted m m') = depth S /\ sumN fill_quote (emitted m m') = total Ask S.
Proof.
  intros H Esd Hpo Hw. pose proof H as (Hr&_). destruct (accepted_deals _ _ _ _ _ _ H) as (ns&b&q&mk&f&Et&->&->&->).
  pose proof Hr as (Hc&_). assert (Hmin : 0 < r_min (rules_of c)) by (cbn; apply Hc).
  pose proof (trade_sell_all same_id _ p Esd Hpo Hmin _ _ _ _ _ _ _ _ _ Et (view_ranked _ _ _ _ Hr) (view_prices _ _ _ _ Hr)
    (view_sizes _ _ _ _ Hr) (view_ids _ _ _ _ Hr)) as G. rewrite marked_view in G. apply G.
  rewrite Esd. cbn [opposite]. by rewrite view_worth.
Qed.
End Market.
