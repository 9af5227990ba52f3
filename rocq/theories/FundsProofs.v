(** * FundsProofs.v: asking for more of everything (C61) *)
From Verif Require Import Machine Critbit EventQueue OrderBook Market Spec MarketProofs MarketFacts InstrProps HistoryProps
  ExchangeSpec ExchangeProofs CompareSpec.
From Coq Require Import Sorted ZifyBool ZifyNat ZifyN.

Section More.
Context {C : Type} (same_id : C -> C -> bool) (r : rules).

Definition n_base (n : notice C) : N := match n with Traded _ _ b _ _ _ => b | Removed _ _ _ _ => 0 end.
Definition n_quote (n : notice C) : N := match n with Traded _ _ _ q _ _ => q | Removed _ _ _ _ => 0 end.

Lemma sum_app {A} (f : A -> N) l1 l2 : sumN f (l1 ++ l2) = sumN f l1 + sumN f l2.
Proof. induction l1 as [|x l IH]; cbn; lia. Qed.

Lemma pays_mono q q' price : q <= q' -> pays_for q price <= pays_for q' price.
Proof.
  intros H. unfold pays_for. destruct (N.eq_dec price 0) as [->|Hp]; [by destruct (q * _), (q' * _)|].
  apply N.div_le_mono; lia.
Qed.
Lemma cost_mono sd b b' price : b <= b' -> cost sd b price <= cost sd b' price.
Proof. intros H. unfold cost. destruct sd; apply N.div_le_mono; nia. Qed.
Lemma pays_cost sd b quote price : b <= pays_for quote price -> cost sd b price <= quote.
Proof.
  intros H. unfold pays_for in H. destruct (N.eq_dec price 0) as [->|Hp].
  { assert (b = 0) by (destruct (quote * 2 ^ 32); cbn in H; lia). subst b. replace (cost sd 0 0) with 0 by by destruct sd. lia. }
  pose proof (N.mul_div_le (quote * 2 ^ 32) price Hp) as Hd.
  assert (Hb : b * price <= quote * 2 ^ 32) by nia.
  unfold cost. destruct sd.
  - apply N.lt_succ_r. apply N.div_lt_upper_bound; lia.
  - apply N.div_le_upper_bound; lia.
Qed.

(** Nothing is traded by an order that cannot take anything of the best order. *)
Lemma trade_stuck p n base quote os ns res : trade same_id r p n base quote os = (ns, res) ->
  (base = 0 \/ forall o, head os = Some o -> pays_for quote (x_price o) = 0) -> ns = [].
Proof.
  intros E H. destruct n as [|n]; [cbn in E; by injection E as <- <-|].
  destruct os as [|o os]; [cbn in E; by injection E as <- <-|]. cbn [trade] in E.
  destruct (negb (acceptable p o)); [by injection E as <- <-|].
  assert (Hb : N.min (N.min (x_size o) base) (pays_for quote (x_price o)) = 0).
  { destruct H as [->|H]; [lia|]. rewrite (H o eq_refl). lia. }
  rewrite Hb in E. rewrite N.eqb_refl, orb_true_r in E. cbn [orb] in E. by injection E as <- <-.
Qed.

(** An order never trades for more than it has. *)
Lemma trade_within p : forall n base quote os ns res, trade same_id r p n base quote os = (ns, res) ->
  sumN n_quote ns <= quote.
Proof.
  induction n as [|n IH]; intros base quote os ns res E; [cbn in E; injection E as <- <-; cbn; lia|].
  destruct os as [|o os]; [cbn in E; injection E as <- <-; cbn; lia|]. cbn [trade] in E.
  destruct (negb (acceptable p o)); [injection E as <- <-; cbn; lia|].
  set (b := N.min (N.min (x_size o) base) (pays_for quote (x_price o))) in *.
  set (q := cost (p_side p) b (x_price o)) in *.
  assert (Hq : q <= quote) by (apply pays_cost; lia).
  destruct (post_only p || (b =? 0) || (q =? 0)); [injection E as <- <-; cbn; lia|].
  assert (Hmore : forall (l : list (notice C)) bq qq os', sumN n_quote l + qq <= quote ->
    (l ++ fst (trade same_id r p n bq qq os'), snd (trade same_id r p n bq qq os')) = (ns, res) -> sumN n_quote ns <= quote).
  { intros l bq qq os' Hl E'. destruct (trade same_id r p n bq qq os') as [ns' res'] eqn:Et.
    injection E' as <- <-. cbn [fst]. rewrite sum_app. specialize (IH _ _ _ _ _ Et). lia. }
  destruct (stb p), (own_order same_id p o); try (destruct (x_size o - b <? r_min r));
    first [injection E as <- <-; cbn; lia|eapply Hmore; [|exact E]; cbn; lia].
Qed.

(** A buyer whose quote amount is used up at one price cannot buy at a worse one. *)
Lemma spent quote price price' : 0 < price -> price <= price' ->
  pays_for (quote - cost Bid (pays_for quote price) price) price' = 0.
Proof.
  intros Hp Hl. unfold pays_for. set (b := quote * 2 ^ 32 / price).
  pose proof (N.mul_succ_div_gt (quote * 2 ^ 32) price ltac:(lia)) as H1. fold b in H1.
  assert (Hc : b * price <= cost Bid b price * 2 ^ 32).
  { unfold cost. pose proof (N.mul_succ_div_gt (b * price + (2 ^ 32 - 1)) (2 ^ 32) ltac:(lia)). nia. }
  apply N.div_small. nia.
Qed.

Lemma trade_more p p' : less_of_all p p' -> forall n n' base base' quote quote' os ns res ns' res',
  (n <= n')%nat -> base <= base' -> quote <= quote' ->
  Forall (fun o => 0 < x_price o) os ->
  (p_side p = Bid -> StronglySorted (fun x y => x_price x <= x_price y) os) ->
  trade same_id r p n base quote os = (ns, Some res) -> trade same_id r p' n' base' quote' os = (ns', Some res') ->
  sumN n_quote ns <= sumN n_quote ns' /\
  (p_side p = Bid \/ quote = quote' -> sumN n_base ns <= sumN n_base ns').
Proof.
  intros ((Hsd&Hcb&Hstb&Hpo)&Hlim&_). symmetry in Hsd, Hcb, Hstb, Hpo. unfold stricter_limit in Hlim.
  assert (Hacc : forall o, acceptable p o = true -> acceptable p' o = true).
  { intros o. unfold acceptable. rewrite Hsd. destruct (p_side p); lia. }
  assert (Hown : forall o, own_order same_id p' o = own_order same_id p o) by (intros o; unfold own_order; by rewrite Hcb).
  induction n as [|n IH]; intros n' base base' quote quote' os ns res ns' res' Hn Hb Hq Hpos Hsort E E'.
  { cbn in E. injection E as <- <-. split; cbn; lia. }
  destruct n' as [|n']; [lia|].
  destruct os as [|o os]; [cbn in E; injection E as <- <-; split; cbn; lia|].
  cbn [trade] in E, E'.
  destruct (acceptable p o) eqn:Ha; cbn [negb] in E; [|injection E as <- <-; split; cbn; lia].
  rewrite (Hacc o Ha) in E'. cbn [negb] in E'. rewrite Hpo, Hstb, Hown, Hsd in E'.
  set (b := N.min (N.min (x_size o) base) (pays_for quote (x_price o))) in *.
  set (b' := N.min (N.min (x_size o) base') (pays_for quote' (x_price o))) in *.
  set (q := cost (p_side p) b (x_price o)) in *. set (q' := cost (p_side p) b' (x_price o)) in *.
  pose proof (pays_mono quote quote' (x_price o) Hq) as Hpm.
  assert (Hbb : b <= b') by lia.
  assert (Hqq : q <= q') by by apply cost_mono.
  destruct (post_only p); [cbn [orb] in E; injection E as <- <-; split; cbn; lia|]. cbn [orb] in E, E'.
  destruct (N.eqb_spec b 0) as [|Hb0]; [cbn [orb] in E; injection E as <- <-; split; cbn; lia|].
  destruct (N.eqb_spec q 0) as [|Hq0]; [cbn [orb] in E; injection E as <- <-; split; cbn; lia|].
  destruct (N.eqb_spec b' 0) as [|_]; [lia|]. destruct (N.eqb_spec q' 0) as [|_]; [lia|]. cbn [orb] in E, E'.
  pose proof Hpos as Hpos0. apply Forall_cons in Hpos0 as [Ho Hos]. cbn beta in Ho.
  assert (Hsort' : p_side p = Bid -> StronglySorted (fun x y => x_price x <= x_price y) os /\
    Forall (fun y => x_price o <= x_price y) os).
  { intros Hs. specialize (Hsort Hs). by inversion Hsort. }
  (* the same trade, or none: both go on alike *)
  assert (Halike : forall (l : list (notice C)) bq bq' qq qq' os', bq <= bq' -> qq <= qq' ->
    Forall (fun o => 0 < x_price o) os' ->
    (p_side p = Bid -> StronglySorted (fun x y => x_price x <= x_price y) os') ->
    (quote = quote' -> qq = qq') ->
    (l ++ fst (trade same_id r p n bq qq os'), snd (trade same_id r p n bq qq os')) = (ns, Some res) ->
    (l ++ fst (trade same_id r p' n' bq' qq' os'), snd (trade same_id r p' n' bq' qq' os')) = (ns', Some res') ->
    sumN n_quote ns <= sumN n_quote ns' /\ (p_side p = Bid \/ quote = quote' -> sumN n_base ns <= sumN n_base ns')).
  { intros l bq bq' qq qq' os' H1 H2 H3 H4 H5 F F'.
    destruct (trade same_id r p n bq qq os') as [k kr] eqn:Et. destruct (trade same_id r p' n' bq' qq' os') as [k' kr'] eqn:Et'.
    cbn [fst snd] in F, F'. injection F as <- ->. injection F' as <- ->.
    destruct (IH n' _ _ _ _ _ _ _ _ _ ltac:(lia) H1 H2 H3 H4 Et Et') as [I1 I2]. rewrite !sum_app. split; [lia|].
    intros [Hs|Hs]; [specialize (I2 (or_introl Hs))|specialize (I2 (or_intror (H5 Hs)))]; lia. }
  assert (Hstuck : b < b' -> forall (l : list (notice C)) os', sumN n_base l = 0 -> sumN n_quote l = 0 ->
    (os' = os \/ os' = mk_xorder (x_price o) (x_time o) (x_size o - b) (x_owner o) :: os) ->
    forall tk, n_base tk = b -> n_quote tk = q ->
    (tk :: l ++ fst (trade same_id r p n (base - b) (quote - q) os'), snd (trade same_id r p n (base - b) (quote - q) os')) = (ns, Some res) ->
    q' <= sumN n_quote ns' -> b' <= sumN n_base ns' ->
    sumN n_quote ns <= sumN n_quote ns' /\ (p_side p = Bid \/ quote = quote' -> sumN n_base ns <= sumN n_base ns')).
  { intros Hlt l os' Hl1 Hl2 Hos' tk Ht1 Ht2 F G1 G2.
    destruct (trade same_id r p n (base - b) (quote - q) os') as [k kr] eqn:Et. cbn [fst snd] in F. injection F as <- ->.
    assert (Hcase : b = base \/ b = pays_for quote (x_price o)) by lia.
    assert (Hkq : sumN n_quote k <= quote - q) by (by apply trade_within in Et).
    cbn [sumN]. rewrite !sum_app, Ht1, Ht2, Hl1, Hl2.
    assert (Hqle : q <= quote) by (apply pays_cost; lia).
    assert (Hkn : b = base \/ p_side p = Bid -> k = []).
    { intros Hk. eapply trade_stuck; [exact Et|]. destruct Hcase as [Hc|Hc]; [left; lia|].
      destruct Hk as [Hk|Hs]; [left; lia|]. right. intros z Hz. unfold q. rewrite Hs, Hc.
      apply spent; [done|]. destruct Hos' as [->| ->].
      - destruct (Hsort' Hs) as [_ Hall]. destruct os as [|y os]; [done|]. injection Hz as <-. by inversion Hall.
      - injection Hz as <-. cbn. lia. }
    destruct (p_side p) eqn:Hs.
    - rewrite (Hkn (or_intror eq_refl)). cbn [sumN]. split; [lia|]. intros _. lia.
    - destruct (N.eq_dec b base) as [Hbb0|Hbb0].
      + rewrite (Hkn (or_introl Hbb0)). cbn [sumN]. split; [lia|]. intros _. lia.
      + assert (Hbp : b = pays_for quote (x_price o)) by lia. split.
        * assert (quote <= q'); [|lia]. unfold q', cost.
          apply N.div_le_lower_bound; [lia|].
          pose proof (N.mul_succ_div_gt (quote * 2 ^ 32) (x_price o) ltac:(lia)) as H1.
          unfold pays_for in Hbp. rewrite <- Hbp in H1. nia.
        * intros [?|Heq]; [done|]. exfalso.
          assert (Hb2 : b' <= pays_for quote' (x_price o)) by lia. rewrite <- Heq in Hb2. lia. }
  assert (Hlow : forall (l : list (notice C)) tk k kr, n_base tk = b' -> n_quote tk = q' ->
    (tk :: l ++ k, kr) = (ns', Some res') -> q' <= sumN n_quote ns' /\ b' <= sumN n_base ns').
  { intros l tk k kr H1 H2 F. injection F as <- _. cbn [sumN]. rewrite H1, H2. lia. }
  assert (Hgo : 
    (if x_size o - b <? r_min r
     then ([Traded (p_side p) (x_id (opposite (p_side p)) o) b q (x_owner o) (p_callback p);
            Removed (opposite (p_side p)) (x_id (opposite (p_side p)) o) (x_size o - b) (x_owner o)] ++
           fst (trade same_id r p n (base - b) (quote - q) os), snd (trade same_id r p n (base - b) (quote - q) os))
     else ([Traded (p_side p) (x_id (opposite (p_side p)) o) b q (x_owner o) (p_callback p)] ++
           fst (trade same_id r p n (base - b) (quote - q) (mk_xorder (x_price o) (x_time o) (x_size o - b) (x_owner o) :: os)),
           snd (trade same_id r p n (base - b) (quote - q) (mk_xorder (x_price o) (x_time o) (x_size o - b) (x_owner o) :: os)))) = (ns, Some res) ->
    (if x_size o - b' <? r_min r
     then ([Traded (p_side p) (x_id (opposite (p_side p)) o) b' q' (x_owner o) (p_callback p');
            Removed (opposite (p_side p)) (x_id (opposite (p_side p)) o) (x_size o - b') (x_owner o)] ++
           fst (trade same_id r p' n' (base' - b') (quote' - q') os), snd (trade same_id r p' n' (base' - b') (quote' - q') os))
     else ([Traded (p_side p) (x_id (opposite (p_side p)) o) b' q' (x_owner o) (p_callback p')] ++
           fst (trade same_id r p' n' (base' - b') (quote' - q') (mk_xorder (x_price o) (x_time o) (x_size o - b') (x_owner o) :: os)),
           snd (trade same_id r p' n' (base' - b') (quote' - q') (mk_xorder (x_price o) (x_time o) (x_size o - b') (x_owner o) :: os)))) = (ns', Some res') ->
    sumN n_quote ns <= sumN n_quote ns' /\ (p_side p = Bid \/ quote = quote' -> sumN n_base ns <= sumN n_base ns')).
  { intros F F'. rewrite Hcb in F'. destruct (N.eq_dec b b') as [Heq|Hne].
    - assert (Eq : q = q') by (unfold q, q'; by rewrite Heq). rewrite <- Heq, <- Eq in F'.
      destruct (x_size o - b <? r_min r).
      + eapply Halike; [| | | | |exact F|exact F']; [lia|lia|done|intros Hs; by apply Hsort'|lia].
      + eapply Halike; [| | | | |exact F|exact F']; [lia|lia|by constructor| |lia].
        intros Hs. destruct (Hsort' Hs). by constructor.
    - assert (Hlt : b < b') by lia.
      assert (Hns' : q' <= sumN n_quote ns' /\ b' <= sumN n_base ns').
      { destruct (x_size o - b' <? r_min r).
        - eapply (Hlow [_]); [| |exact F']; done.
        - eapply (Hlow []); [| |exact F']; done. }
      destruct Hns' as [G1 G2]. destruct (x_size o - b <? r_min r).
      + eapply (Hstuck Hlt [_] os); [..|exact F|exact G1|exact G2]; (done || by left).
      + eapply (Hstuck Hlt []); [..|exact F|exact G1|exact G2]; (done || by right). }
  destruct (stb p), (own_order same_id p o); try done; try (by apply Hgo).
  - eapply (Halike [_]); [| | | | |exact E|exact E']; try done. intros Hs. by apply Hsort'.
Qed.
End More.

Section Market.
Context {C : Type} (same_id : C -> C -> bool).

Lemma notices_base (l : list (event_ref C)) : sumN fill_base l = sumN n_base (map notice_of l).
Proof. induction l as [|ev l IH]; cbn; [done|]. rewrite IH. by destruct ev. Qed.
Lemma notices_quote (l : list (event_ref C)) : sumN fill_quote l = sumN n_quote (map notice_of l).
Proof. induction l as [|ev l IH]; cbn; [done|]. rewrite IH. by destruct ev. Qed.

(** What an accepted order traded, by the rules. *)
Lemma traded_by_rule c m p sm m' : accepted same_id c m p sm m' ->
  exists ns res, trade same_id (rules_of c) p (N.to_nat (match_limit p)) (max_base_qty p) (max_quote_qty p)
    (x_side (view m) (opposite (p_side p))) = (ns, Some res) /\
    sumN fill_base (emitted m m') = sumN n_base ns /\ sumN fill_quote (emitted m m') = sumN n_quote ns.
Proof.
  intros (Hr&Hty&He). destruct (view_new_order _ _ _ _ _ _ Hr Hty He) as (a&Ha&Hrule).
  cbn [answer_of] in Ha. injection Ha as <-. unfold new_order_rule in Hrule.
  destruct (negb _ || _) in Hrule; [done|].
  destruct (trade same_id _ _ _ _ _ _) as [ns [res|]] eqn:Et; [|by destruct (_ <=? _)%nat in Hrule].
  exists ns, res. split; [done|]. destruct res as [[[b q] makers] free].
  destruct (if free then _ else _) as [[[n2 posted] own] clock] eqn:Ep.
  destruct (_ <=? _)%nat in Hrule; [|done]. injection Hrule as _ _ _ _ Hv.
  assert (En : map notice_of (emitted m m') = ns ++ n2).
  { unfold emitted. assert (En : x_notices (view m') = x_notices (view m) ++ ns ++ n2).
    { rewrite <- Hv. by destruct (p_side p). }
    cbn [view x_notices] in En. rewrite <- skipn_map, En. apply drop_app_alt. by rewrite map_length. }
  assert (H0 : sumN n_base n2 = 0 /\ sumN n_quote n2 = 0).
  { destruct free; [|by injection Ep as <- _ _ _]. revert Ep. unfold post_rest.
    destruct (negb _ || _); [intros Ep; by injection Ep as <- _ _ _|].
    destruct (_ <? _)%nat; [intros Ep; by injection Ep as <- _ _ _|].
    destruct (last _); [|intros Ep; by injection Ep as <- _ _ _].
    destruct (not_worse _ _ _); intros Ep; by injection Ep as <- _ _ _. }
  destruct H0 as [H1 H2].
  rewrite notices_base, notices_quote, En, !sum_app, H1, H2.
  split; lia.
Qed.

Lemma view_prices c m sd : reachable same_id c m -> Forall (fun o => 0 < x_price o) (x_side (view m) sd).
Proof.
  intros Hr. destruct (reachable_minv _ _ _ Hr) as (L&pend&Hm&Hsq). destruct (view_minv _ _ _ _ Hm) as (V&_&_).
  rewrite V. apply Forall_map. eapply Forall_impl; [exact (mi_ok _ _ _ _ Hm sd)|].
  intros o Ho. destruct (order_ok_price _ _ _ _ Hsq Ho) as (E&Hp&_). cbn. lia.
Qed.
Lemma asks_up c m : reachable same_id c m -> StronglySorted (fun x y => x_price x <= x_price y) (x_asks (view m)).
Proof.
  intros Hr. pose proof (book_sorted same_id c m Ask Hr) as H. cbn [view x_asks].
  induction H as [|o os Hs IH Hall]; [constructor|]. cbn [map]. constructor; [done|].
  apply Forall_map. eapply Forall_impl; [exact Hall|]. intros x Hx. cbn. unfold id_price. apply N.div_le_mono; [done|]. by apply N.lt_le_incl.
Qed.

Lemma less_of_all_trades c m p q smp mp smq mq :
  accepted same_id c m p smp mp -> accepted same_id c m q smq mq -> less_of_all p q ->
  sumN fill_quote (emitted m mp) <= sumN fill_quote (emitted m mq) /\
  (p_side p = Bid \/ max_quote_qty p = max_quote_qty q ->
   sumN fill_base (emitted m mp) <= sumN fill_base (emitted m mq)).
Proof.
  intros Hp Hq Hl. pose proof Hp as (Hr&_&_). pose proof Hl as ((Hsd&_&_&_)&_&Hml&Hb&Hqu).
  destruct (traded_by_rule _ _ _ _ _ Hp) as (ns&res&Et&-> & ->).
  destruct (traded_by_rule _ _ _ _ _ Hq) as (ns'&res'&Et'&-> & ->). rewrite <- Hsd in Et'.
  eapply trade_more; [exact Hl| | | | | |exact Et|exact Et']; [lia|done|done|by eapply view_prices|].
  intros Hs. rewrite Hs. cbn [opposite x_side]. by eapply asks_up.
Qed.
End Market.
