(** * OfferProofs.v: more orders on the other side do no harm (C92) *)
From stdpp Require Import sorting.
From Verif Require Import Machine Critbit EventQueue OrderBook Market Spec BookProofs MarketProofs MarketFacts
  NewOrderProps NewOrderProps2 EventProps ExchangeSpec ExchangeProofs InstrProps HistoryProps PlaceProofs FundsProofs CustodyProofs
  Engine PartsSpec PartsProofs BestSpec BestProofs ClientSpec LadderSpec LadderProofs ReachSpec ReachProofs OfferSpec.
From Coq Require Import Sorted ZifyBool ZifyNat ZifyN.

(** ** Ladders *)
(** [better sd q q'] when a new order of side [sd] prefers the price [q], or does not mind. *)
Definition better (sd : side) (q q' : N) : Prop := match sd with Bid => q <= q' | Ask => q' <= q end.
Definition cheaper (sd : side) (v v' : N) : Prop := match sd with Bid => v <= v' | Ask => v' <= v end.
Lemma cheaper_trans sd a b c : cheaper sd a b -> cheaper sd b c -> cheaper sd a c.
Proof. destruct sd; cbn; lia. Qed.
Lemma cheaper_refl sd a : cheaper sd a a.
Proof. destruct sd; cbn; lia. Qed.

Lemma slices_slices b b' l : b <= b' -> slices b (slices b' l) = slices b l.
Proof.
  revert b b'. induction l as [|[s p] l IH]; intros b b' Hb; [done|]. cbn [slices].
  destruct (b' =? 0) eqn:E'; [assert (b = 0) as -> by lia; done|]. cbn [slices].
  destruct (b =? 0) eqn:E; [done|]. replace (N.min (N.min s b') b) with (N.min s b) by lia. f_equal. apply IH. lia.
Qed.
Lemma value_cons s p l : exact_value ((s, p) :: l) = s * p + exact_value l.
Proof. done. Qed.
Lemma slices_more sd p l : Forall (fun s => better sd p (snd s)) l -> forall b k, k <= b -> b <= depth l ->
  cheaper sd (k * p + exact_value (slices (b - k) l)) (exact_value (slices b l)).
Proof.
  induction 1 as [|[s q] l Hq Hl IH]; intros b k Hk Hb; [cbn in Hb; assert (k = 0) as -> by lia; cbn; destruct sd; cbn; lia|].
  cbn [slices]. cbn [depth sumN fst] in Hb. change (sumN fst l) with (depth l) in Hb. cbn [snd] in Hq.
  destruct (b =? 0) eqn:E; [assert (k = 0) as -> by lia; destruct (b - 0 =? 0) eqn:E0; [apply cheaper_refl|lia]|].
  destruct (N.le_gt_cases b s) as [Hs|Hs].
  - replace (N.min s b) with b by lia. replace (b - b) with 0 by lia. rewrite slices_0. rewrite value_cons.
    destruct (b - k =? 0) eqn:E0; [assert (k = b) as -> by lia|]; [destruct sd; cbn in *; nia|].
    replace (N.min s (b - k)) with (b - k) by lia. rewrite N.sub_diag, slices_0, value_cons.
    cbn [exact_value sumN]. destruct sd; cbn [cheaper better] in *; nia.
  - replace (N.min s b) with s by lia. rewrite value_cons. destruct (N.le_gt_cases (b - k) s) as [Hs'|Hs'].
    + specialize (IH (b - s) (b - s) ltac:(lia) ltac:(lia)). rewrite N.sub_diag, slices_0 in IH. cbn [exact_value sumN] in IH.
      assert (Ev : exact_value (if b - k =? 0 then [] else (N.min s (b - k), q) :: slices (b - k - N.min s (b - k)) l) = (b - k) * q).
      { destruct (b - k =? 0) eqn:E0; [cbn; nia|]. replace (N.min s (b - k)) with (b - k) by lia. rewrite N.sub_diag, slices_0, value_cons. cbn. lia. }
      rewrite Ev. change (sumN _ (slices (b - s) l)) with (exact_value (slices (b - s) l)) in IH. destruct sd; cbn [cheaper better] in *; nia.
    + replace (b - k =? 0) with false by lia. replace (N.min s (b - k)) with s by lia. rewrite value_cons.
      specialize (IH (b - s) k ltac:(lia) ltac:(lia)). replace (b - s - k) with (b - k - s) in IH by lia.
      destruct sd; cbn [cheaper] in *; lia.
Qed.
(** [less R l1 l2]: the list [l1] is [l2] with elements left out and others replaced by
    smaller ones. *)
Inductive less {A} (R : A -> A -> Prop) : list A -> list A -> Prop :=
| less_nil : less R [] []
| less_keep x y l1 l2 : R x y -> less R l1 l2 -> less R (x :: l1) (y :: l2)
| less_drop y l1 l2 : less R l1 l2 -> less R l1 (y :: l2).
Lemma less_nil_l {A} (R : A -> A -> Prop) l : less R [] l.
Proof. induction l; by constructor. Qed.
Definition smaller_step (s t : N * N) : Prop := snd s = snd t /\ fst s <= fst t.
Lemma less_depth l1 l2 : less smaller_step l1 l2 -> depth l1 <= depth l2.
Proof. intros Hs. induction Hs as [|x y a b [_ Hxy] H IH|y a b H IH]; [done|cbn [depth sumN] in *; unfold depth in *; lia..]. Qed.
(** Leaving orders out of a ladder, or making them smaller, makes it no better. *)
Lemma ladder_less sd l1 l2 : less smaller_step l1 l2 -> StronglySorted (fun s t => better sd (snd s) (snd t)) l2 ->
  forall b, b <= depth l1 -> cheaper sd (exact_value (slices b l2)) (exact_value (slices b l1)).
Proof.
  induction 1 as [|[s p] [s' p'] l1 l2 [Hp Hss] Hs IH|[s p] l1 l2 Hs IH]; intros Hst b Hb.
  - apply cheaper_refl.
  - cbn [fst snd] in Hp, Hss. subst p'. inversion Hst as [|?? Hst' Hall]; subst. cbn [slices]. destruct (b =? 0); [apply cheaper_refl|]. rewrite !value_cons.
    cbn [depth sumN fst] in Hb. change (sumN fst l1) with (depth l1) in Hb. pose proof (less_depth _ _ Hs) as Hd.
    specialize (IH Hst' (b - N.min s b) ltac:(lia)).
    pose proof (slices_more sd p l2 Hall (b - N.min s b) (N.min s' b - N.min s b) ltac:(lia) ltac:(lia)) as G.
    replace (b - N.min s b - (N.min s' b - N.min s b)) with (b - N.min s' b) in G by lia.
    assert (Em : N.min s' b * p = (N.min s' b - N.min s b) * p + N.min s b * p) by nia.
    destruct sd; cbn [cheaper] in *; lia.
  - inversion Hst as [|?? Hst' Hall]; subst. pose proof (less_depth _ _ Hs) as Hd.
    eapply cheaper_trans; [|by apply IH]. cbn [slices]. destruct (b =? 0) eqn:E; [assert (b = 0) as -> by lia; rewrite slices_0; apply cheaper_refl|].
    rewrite value_cons. apply slices_more; [exact Hall|lia|lia].
Qed.
Lemma sub_depth l1 l2 : sublist l1 l2 -> depth l1 <= depth l2.
Proof. intros Hs. induction Hs as [|x a b H IH|x a b H IH]; [done|cbn [depth sumN] in *; unfold depth in *; lia..]. Qed.
(** The rounding of each slice. *)
Lemma total_value sd l :
  match sd with
  | Bid => exact_value l <= 2 ^ 32 * total Bid l <= exact_value l + (2 ^ 32 - 1) * N.of_nat (length l)
  | Ask => 2 ^ 32 * total Ask l <= exact_value l <= 2 ^ 32 * total Ask l + (2 ^ 32 - 1) * N.of_nat (length l)
  end.
Proof.
  change (2 ^ 32) with p32. induction l as [|[s p] l IH]; [by destruct sd; cbn|]. rewrite value_cons. cbn [length]. unfold total. cbn [sumN].
  change (sumN (slice_value ?x) l) with (total x l). destruct sd; unfold slice_value, quote_amount; cbn [fst snd].
  - pose proof (N.div_mod (s * p + (p32 - 1)) p32 ltac:(lia)). pose proof (N.mod_lt (s * p + (p32 - 1)) p32 ltac:(lia)). lia.
  - pose proof (N.div_mod (s * p) p32 ltac:(lia)). pose proof (N.mod_lt (s * p) p32 ltac:(lia)). lia.
Qed.

(** ** Sorted lists *)
Lemma sorted_less {A} (f : A -> N) (R : A -> A -> Prop) (l1 l2 : list A) : StronglySorted (fun x y => f x < f y) l1 -> StronglySorted (fun x y => f x < f y) l2 ->
  (forall x, x ∈ l1 -> exists y, y ∈ l2 /\ f y = f x /\ R x y) -> less R l1 l2.
Proof.
  intros H1 H2. revert l1 H1. induction H2 as [|y l2 H2 IH Hy]; intros l1 H1 Hin.
  - destruct l1 as [|x l1]; [constructor|]. destruct (Hin x ltac:(left)) as (y&Hi&_). by apply elem_of_nil in Hi.
  - destruct l1 as [|x l1]; [apply less_nil_l|]. inversion H1 as [|?? H1' Hx]; subst.
    rewrite Forall_forall in Hy, Hx. destruct (Hin x ltac:(left)) as (y'&Hi&Ef&HR). apply elem_of_cons in Hi as [->|Hi].
    + apply less_keep; [done|]. apply IH; [done|]. intros z Hz. destruct (Hin z ltac:(by right)) as (z'&Hi'&Ez&HRz). exists z'. split; [|done].
      apply elem_of_cons in Hi' as [->|?]; [|done]. specialize (Hx _ Hz). lia.
    + apply less_drop, IH; [done|]. intros z Hz. destruct (Hin z Hz) as (z'&Hi'&Ez&HRz). exists z'. split; [|done]. apply elem_of_cons in Hi' as [->|?]; [|done].
      exfalso. specialize (Hy _ Hi). apply elem_of_cons in Hz as [->|Hz]; [lia|]. specialize (Hx _ Hz). lia.
Qed.
Lemma sub_map {A B} (g : A -> B) (l1 l2 : list A) : sublist l1 l2 -> sublist (map g l1) (map g l2).
Proof. induction 1; cbn [map]; by constructor. Qed.
Lemma less_filter {A} (R : A -> A -> Prop) (g : A -> bool) (l1 l2 : list A) : (forall x y, R x y -> g x = g y) ->
  less R l1 l2 -> less R (List.filter g l1) (List.filter g l2).
Proof.
  intros Hg. induction 1 as [|x y a b Hxy H IH|y a b H IH]; cbn [List.filter]; [constructor| |destruct (g y); [by constructor|done]].
  rewrite (Hg _ _ Hxy). destruct (g y); [by constructor|done].
Qed.
Lemma less_map {A B} (R : A -> A -> Prop) (S : B -> B -> Prop) (g : A -> B) (l1 l2 : list A) : (forall x y, R x y -> S (g x) (g y)) ->
  less R l1 l2 -> less S (map g l1) (map g l2).
Proof. intros Hg. induction 1; cbn [map]; constructor; auto. Qed.
Lemma less_app {A} (R : A -> A -> Prop) (a b c d : list A) : less R a b -> less R c d -> less R (a ++ c) (b ++ d).
Proof. induction 1; intros; cbn [app]; [done|constructor; auto..]. Qed.
Lemma less_rev {A} (R : A -> A -> Prop) (l1 l2 : list A) : less R l1 l2 -> less R (rev l1) (rev l2).
Proof.
  induction 1 as [|x y a b Hxy H IH|y a b H IH]; cbn [rev]; [constructor|apply less_app; [done|by repeat constructor]|].
  rewrite <- (app_nil_r (rev a)). apply less_app; [done|apply less_nil_l].
Qed.

(** ** A seller who is not limited in quote units, with orders to withdraw *)
Section Trade.
Context {C : Type} (same_id : C -> C -> bool) (r : rules) (p : params C).
Notation trade := (trade same_id r p).
Notation sd := (p_side p).
Notation xladder n ms := (map x_step (List.filter (fun o => negb (withdrawn same_id p o)) (take n (List.filter (acceptable p) ms)))).

Lemma trade_sell_part : sd = Ask -> post_only p = false -> 0 < r_min r -> forall n base quote ms ns b1 q1 ms1 f,
  trade n base quote ms = (ns, Some (b1, q1, ms1, f)) -> ranked sd ms -> Forall (fun o => 0 < x_price o) ms ->
  Forall (fun o => 0 < x_size o) ms -> Forall (fun o => x_id (opposite sd) o / 2 ^ 64 = x_price o) ms ->
  sumN (fun o => cost Bid (x_size o) (x_price o)) ms <= quote ->
  n_deals ns = slices (depth (n_deals ns)) (xladder n ms) /\ depth (n_deals ns) <= depth (xladder n ms).
Proof.
  intros Esd Hpo Hmin. induction n as [|n IH]; intros base quote ms ns b1 q1 ms1 f H Hr Hp Hz Hid Hq.
  { cbn in H. injection H as <- <- <- <- <-. by rewrite take_0. }
  assert (Hnil : n_deals ns = [] -> n_deals ns = slices (depth (n_deals ns)) (xladder (S n) ms) /\ depth (n_deals ns) <= depth (xladder (S n) ms)).
  { intros ->. cbn [depth sumN]. rewrite slices_0. split; [done|lia]. }
  destruct ms as [|o os]; [cbn in H; injection H as <- <- <- <- <-; by apply Hnil|].
  destruct Hr as [Hd Hr]. inversion Hp as [|?? Hpr Hp']; inversion Hz as [|?? Hsz Hz']; inversion Hid as [|?? Hio Hid']; subst.
  destruct (acceptable p o) eqn:Ha; cycle 1.
  { cbn [ExchangeSpec.trade] in H. rewrite Ha in H. cbn [negb] in H. injection H as <- <- <- <- <-. by apply Hnil. }
  cbn [sumN] in Hq.
  assert (Hpay : x_size o <= pays_for quote (x_price o)).
  { unfold pays_for. apply N.div_le_lower_bound; [lia|]. change (2 ^ 32) with W. pose proof (cost_up (x_size o) (x_price o)) as [Hc _]. nia. }
  assert (Eb : N.min (N.min (x_size o) base) (pays_for quote (x_price o)) = N.min (x_size o) base) by lia.
  set (b := N.min (x_size o) base) in *.
  destruct (post_only p || (b =? 0) || (cost sd b (x_price o) =? 0)) eqn:Est.
  { cbn [ExchangeSpec.trade] in H. rewrite Ha in H. cbn [negb] in H. fold b in H. rewrite Eb, Est in H. injection H as <- <- <- <- <-. by apply Hnil. }
  apply orb_false_elim in Est as [Est Hq0]. apply orb_false_elim in Est as [_ Hb0].
  clear Hnil. cbn [List.filter]. rewrite Ha, firstn_cons. cbn [List.filter].
  destruct (withdrawn same_id p o) eqn:Ho; cbn [negb map].
  { cbn [ExchangeSpec.trade] in H. rewrite Ha, Hpo in H. cbn [negb orb] in H. fold b in H. rewrite Eb, Hb0, Hq0 in H. cbn [orb] in H.
    unfold withdrawn in Ho. destruct (stb p); try discriminate Ho. destruct (own_order same_id p o); [|discriminate Ho].
    destruct (trade n base quote os) as [ns' rr] eqn:Et. cbn [fst snd] in H. injection H as <- ->.
    apply IH in Et; [|done..|lia]. cbn [app n_deals flat_map]. exact Et. }
  destruct (trade_round same_id r p n base quote o os b Ha Hpo Ho (eq_sym Eb) ltac:(lia) ltac:(lia)) as [E|E]; rewrite E in H; [done|]. clear E. cbn zeta in H.
  change (x_step o) with (x_size o, x_price o).
  destruct (N.eq_dec b (x_size o)) as [Hb|Hb].
  - replace (x_size o - b <? r_min r) with true in H by lia.
    destruct (trade n (base - b) _ os) as [ns' rr] eqn:Et. cbn [fst snd] in H. injection H as <- ->.
    apply IH in Et; [|done..|].
    2:{ rewrite Esd. pose proof (cost_up (x_size o) (x_price o)). pose proof (cost_down (x_size o) (x_price o)). rewrite Hb. lia. }
    destruct Et as (I1&I2). cbn [app n_deals flat_map]. fold (n_deals ns'). rewrite Hio. cbn [depth sumN fst]. fold (depth (n_deals ns')).
    split; [|unfold depth in *; lia]. cbn [slices]. replace (_ =? 0) with false by lia.
    replace (N.min (x_size o) (b + depth (n_deals ns'))) with b by lia. f_equal. replace (b + depth (n_deals ns') - b) with (depth (n_deals ns')) by lia. exact I1.
  - assert (base - b = 0) as Hbb by lia.
    assert (Hone : n_deals ns = [(b, x_price o)]).
    { destruct (x_size o - b <? r_min r).
      - destruct (trade_dead same_id r p n (base - b) (quote - cost sd b (x_price o)) os ltac:(by left)) as (f'&Et). rewrite Et in H. cbn [fst snd] in H.
        injection H as <- _ _ _ _. cbn [app n_deals flat_map]. by rewrite Hio.
      - destruct (trade_dead same_id r p n (base - b) (quote - cost sd b (x_price o)) (mk_xorder (x_price o) (x_time o) (x_size o - b) (x_owner o) :: os) ltac:(by left)) as (f'&Et).
        rewrite Et in H. cbn [fst snd] in H. injection H as <- _ _ _ _. cbn [app n_deals flat_map]. by rewrite Hio. }
    rewrite Hone. cbn [depth sumN fst slices]. replace (b + 0 =? 0) with false by lia. replace (N.min (x_size o) (b + 0)) with b by lia.
    replace (b + 0 - b) with 0 by lia. rewrite slices_0. split; [done|lia].
Qed.
End Trade.

Section Market.
Context {C : Type} (same_id : C -> C -> bool).

Definition smaller (o o' : order C) : Prop := o_id o' = o_id o /\ o_cb o' = o_cb o /\ o_qty o <= o_qty o'.
Lemma resting_less c1 c2 (m1 m2 : market C) sd : reachable same_id c1 m1 -> reachable same_id c2 m2 ->
  more_on_offer m1 m2 sd -> less smaller (resting m1 sd) (resting m2 sd).
Proof.
  intros H1 H2 Hm. eapply (sorted_less o_id); [by eapply book_sorted..|]. intros o Ho. destruct (Hm o Ho) as (o'&Hi&E1&E2&E3).
  exists o'. unfold smaller. auto.
Qed.
Lemma facing_less c1 c2 (m1 m2 : market C) sd : reachable same_id c1 m1 -> reachable same_id c2 m2 ->
  more_on_offer m1 m2 (opposite sd) -> less smaller (facing m1 sd) (facing m2 sd).
Proof.
  intros H1 H2 Hm. pose proof (resting_less _ _ _ _ _ H1 H2 Hm) as G.
  destruct sd; cbn [facing opposite] in *; [done|by apply less_rev].
Qed.
(** The ladder without the match limit. *)
Definition full_ladder (m : market C) (p : params C) : list (N * N) :=
  map step_of (List.filter (fun o => negb (withdraws same_id p o)) (List.filter (within_limit p) (facing m (p_side p)))).
Lemma ladder_prefix m p : exists k, full_ladder m p = ladder same_id m p ++ k.
Proof.
  unfold full_ladder, ladder. set (F := List.filter (within_limit p) _).
  exists (map step_of (List.filter (fun o => negb (withdraws same_id p o)) (drop (N.to_nat (match_limit p)) F))).
  rewrite <- map_app, <- List.filter_app, take_drop. done.
Qed.
Lemma full_sorted c m p : reachable same_id c m -> StronglySorted (fun s t => better (p_side p) (snd s) (snd t)) (full_ladder m p).
Proof.
  intros Hr. pose proof (facing_sorted same_id c m (p_side p) Hr) as H.
  apply (filter_sorted _ (within_limit p)) in H. apply (filter_sorted _ (fun o => negb (withdraws same_id p o))) in H. unfold full_ladder.
  induction H as [|o l Hs IH Hall]; [constructor|]. cbn [map]. constructor; [exact IH|]. apply Forall_map.
  eapply Forall_impl; [exact Hall|]. intros x. unfold step_of, better. cbn [snd]. destruct (p_side p); lia.
Qed.
Lemma full_less c1 c2 m1 m2 p : reachable same_id c1 m1 -> reachable same_id c2 m2 ->
  more_on_offer m1 m2 (opposite (p_side p)) -> less smaller_step (full_ladder m1 p) (full_ladder m2 p).
Proof.
  intros H1 H2 Hm. unfold full_ladder. apply (less_map smaller).
  - intros x y (E1&_&E3). unfold smaller_step, step_of. cbn [fst snd]. by rewrite E1.
  - apply less_filter. { intros x y (_&E2&_). unfold withdraws. by rewrite E2. }
    apply less_filter. { intros x y (E1&_). unfold within_limit. by rewrite E1. }
    by eapply facing_less.
Qed.

Lemma free_less c1 c2 m1 m2 p : reachable same_id c1 m1 -> reachable same_id c2 m2 ->
  more_on_offer m1 m2 (opposite (p_side p)) -> free_to_sell m2 p -> free_to_sell m1 p.
Proof.
  intros H1 H2 Hm Hf E. pose proof (Hf E) as Hw. rewrite E in Hm. cbn [opposite] in Hm.
  etrans; [|exact Hw]. unfold worth. pose proof (resting_less _ _ _ _ _ H1 H2 Hm) as G.
  clear -G. set (f := fun o : order C => _). induction G as [|x y a b (E1&_&E3) G IH|x a b G IH]; cbn [sumN]; [done| |lia].
  assert (f x <= f y); [|lia]. unfold f. rewrite E1. unfold quote_amount. apply N.div_le_mono; [done|]. nia.
Qed.
Lemma deals_depth (E : list (event_ref C)) : depth (deals E) = sumN fill_base E.
Proof.
  unfold depth, deals. induction E as [|ev E IH]; [done|]. cbn [List.filter sumN]. destruct ev; cbn [is_fill map sumN fst]; rewrite IH; done.
Qed.
Lemma deals_ladder c m p sm m' : accepted same_id c m p sm m' -> post_only p = false -> free_to_sell m p ->
  let D := deals (emitted m m') in D = slices (depth D) (ladder same_id m p) /\ depth D <= depth (ladder same_id m p).
Proof.
  intros H Hpo Hf D. pose proof H as (Hr&_). destruct (p_side p) eqn:Es.
  - destruct (buys _ _ _ _ _ _ H Es Hpo) as (E1&_&_&E2&_). unfold D. rewrite deals_depth. done.
  - destruct (accepted_deals _ _ _ _ _ _ H) as (ns&b&q&mk&f&Et&Ed&_). pose proof Hr as (Hc&_). assert (Hmin : 0 < r_min (rules_of c)) by (cbn; apply Hc).
    pose proof (trade_sell_part same_id _ p Es Hpo Hmin _ _ _ _ _ _ _ _ _ Et (view_ranked _ _ _ _ Hr) (view_prices _ _ _ _ Hr)
      (view_sizes _ _ _ _ Hr) (view_ids _ _ _ _ Hr)) as G. rewrite ladder_view, <- Ed in G. apply G.
    rewrite Es. cbn [opposite]. rewrite view_worth. by apply Hf.
Qed.
Lemma deals_slices c m p sm m' : accepted same_id c m p sm m' -> post_only p = false -> free_to_sell m p ->
  let D := deals (emitted m m') in D = slices (depth D) (full_ladder m p) /\ depth D <= depth (full_ladder m p).
Proof.
  intros H Hpo Hf D. destruct (ladder_prefix m p) as (k&Hk). destruct (deals_ladder _ _ _ _ _ H Hpo Hf) as [G1 G2].
  fold D in G1, G2. rewrite Hk. assert (Hd : depth (ladder same_id m p) <= depth (ladder same_id m p ++ k)).
  { apply sub_depth, sublist_inserts_r. done. }
  split; [|lia]. rewrite slices_app by done. exact G1.
Qed.

Lemma more_price c1 c2 m1 m2 p s1 s2 m1' m2' : accepted same_id c1 m1 p s1 m1' -> accepted same_id c2 m2 p s2 m2' ->
  more_on_offer m1 m2 (opposite (p_side p)) -> post_only p = false -> free_to_sell m2 p ->
  let D1 := deals (emitted m1 m1') in let D2 := deals (emitted m2 m2') in
  forall b, b <= depth D1 -> b <= depth D2 -> cheaper (p_side p) (exact_value (slices b D2)) (exact_value (slices b D1)).
Proof.
  intros H1 H2 Hm Hpo Hf D1 D2 b Hb1 Hb2. pose proof H1 as (R1&_). pose proof H2 as (R2&_).
  destruct (deals_slices _ _ _ _ _ H1 Hpo (free_less _ _ _ _ _ R1 R2 Hm Hf)) as [E1 L1]. fold D1 in E1, L1.
  destruct (deals_slices _ _ _ _ _ H2 Hpo Hf) as [E2 L2]. fold D2 in E2, L2.
  rewrite E1, E2. rewrite !slices_slices by done. apply ladder_less; [by eapply full_less|by eapply full_sorted|lia].
Qed.
Lemma more_quote c1 c2 m1 m2 p s1 s2 m1' m2' : accepted same_id c1 m1 p s1 m1' -> accepted same_id c2 m2 p s2 m2' ->
  more_on_offer m1 m2 (opposite (p_side p)) -> post_only p = false -> free_to_sell m2 p ->
  let D1 := deals (emitted m1 m1') in let D2 := deals (emitted m2 m2') in
  forall b, b <= depth D1 -> b <= depth D2 ->
  let rounding := N.of_nat (length (slices b D2)) - 1 in
  match p_side p with
  | Bid => total Bid (slices b D2) <= total Bid (slices b D1) + rounding
  | Ask => total Ask (slices b D1) <= total Ask (slices b D2) + rounding
  end.
Proof.
  intros H1 H2 Hm Hpo Hf D1 D2 b Hb1 Hb2 rd. pose proof (more_price _ _ _ _ _ _ _ _ _ H1 H2 Hm Hpo Hf b Hb1 Hb2) as G.
  fold D1 D2 in G. pose proof (total_value (p_side p) (slices b D1)) as T1. pose proof (total_value (p_side p) (slices b D2)) as T2.
  unfold rd. change (2 ^ 32) with p32 in *. destruct (p_side p); cbn [cheaper] in G; lia.
Qed.
Lemma more_bought c1 c2 m1 m2 p s1 s2 m1' m2' : accepted same_id c1 m1 p s1 m1' -> accepted same_id c2 m2 p s2 m2' ->
  more_on_offer m1 m2 (opposite (p_side p)) -> p_side p = Bid -> post_only p = false ->
  N.of_nat (length (List.filter (within_limit p) (resting m2 Ask))) <= match_limit p ->
  let L := ladder same_id m2 p in total Bid (slices (N.min (max_base_qty p) (depth L)) L) <= max_quote_qty p ->
  sumN fill_base (emitted m1 m1') <= sumN fill_base (emitted m2 m2').
Proof.
  intros H1 H2 Hm Es Hpo Hml L HL. pose proof H1 as (R1&_). pose proof H2 as (R2&_).
  destruct (buys _ _ _ _ _ _ H1 Es Hpo) as (_&_&A1&A2&_). destruct (buys _ _ _ _ _ _ H2 Es Hpo) as (_&_&B1&B2&_&B3).
  specialize (B3 (N.min (max_base_qty p) (depth L)) ltac:(lia) ltac:(unfold L; lia) HL).
  assert (EL : L = full_ladder m2 p).
  { unfold L, ladder, full_ladder. rewrite Es. cbn [facing]. rewrite take_ge by lia. done. }
  pose proof (less_depth _ _ (full_less _ _ _ _ _ R1 R2 Hm)) as Hd. rewrite <- EL in Hd. destruct (ladder_prefix m1 p) as (k&Hk).
  assert (Hd' : depth (ladder same_id m1 p) <= depth (full_ladder m1 p)) by (rewrite Hk; by apply sub_depth, sublist_inserts_r).
  lia.
Qed.
End Market.
