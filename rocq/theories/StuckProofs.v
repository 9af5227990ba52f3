(** * StuckProofs.v: orders worth less than one quote unit (C88) *)
From Verif Require Import Machine Critbit EventQueue OrderBook Market Spec QueueProofs BookProofs MarketProofs MarketFacts
  NewOrderProps NewOrderProps2 EventProps ExchangeSpec ExchangeProofs InstrProps MarketReads HistoryProps PlaceProofs FundsProofs CustodyProofs
  Engine PartsSpec PartsProofs BestSpec BestProofs StuckSpec.
From Coq Require Import Sorted ZifyBool ZifyNat ZifyN.

Definition n_id {C} (n : notice C) : N := match n with Traded _ id _ _ _ _ => id | Removed _ id _ _ => id end.

Section Trade.
Context {C : Type} (same_id : C -> C -> bool) (r : rules) (p : params C).
Notation trade := (trade same_id r p).

(** No trade gets to an order worth less than one quote unit. *)
Lemma stop_at n base quote o os : p_side p = Ask -> acceptable p o = true -> x_size o * x_price o < 2 ^ 32 ->
  trade n base quote (o :: os) = ([], Some (base, quote, o :: os, false)).
Proof.
  intros Hs Ha Hw. destruct n as [|n]; [done|]. cbn [ExchangeSpec.trade]. rewrite Ha. cbn [negb].
  set (b := N.min _ _). assert (cost (p_side p) b (x_price o) = 0) as ->.
  { rewrite Hs. cbn [cost]. apply N.div_small. assert (b <= x_size o) by lia. nia. }
  by rewrite orb_true_r.
Qed.
Lemma stop_before n : forall base quote l1 o l2 ns rr, p_side p = Ask -> x_size o * x_price o < 2 ^ 32 ->
  trade n base quote (l1 ++ o :: l2) = (ns, rr) -> forall x, x ∈ ns -> n_id x ∈ map (x_id Bid) l1.
Proof.
  induction n as [|n IH]; intros base quote l1 o l2 ns rr Hs Hw Ht x Hx.
  { cbn in Ht. injection Ht as <- <-. by apply elem_of_nil in Hx. }
  destruct l1 as [|o1 l1].
  { cbn [app] in Ht. destruct (acceptable p o) eqn:Ha.
    - rewrite stop_at in Ht by done. injection Ht as <- <-. by apply elem_of_nil in Hx.
    - cbn [ExchangeSpec.trade] in Ht. rewrite Ha in Ht. cbn [negb] in Ht. injection Ht as <- <-. by apply elem_of_nil in Hx. }
  cbn [app ExchangeSpec.trade] in Ht. destruct (negb _); [injection Ht as <- <-; by apply elem_of_nil in Hx|].
  destruct (post_only p || _ || _); [injection Ht as <- <-; by apply elem_of_nil in Hx|].
  set (b := N.min _ _) in *. rewrite Hs in Ht. cbn [opposite] in Ht. cbn [map].
  assert (IH1 : forall b' q', forall x, x ∈ fst (trade n b' q' (l1 ++ o :: l2)) -> n_id x ∈ x_id Bid o1 :: map (x_id Bid) l1).
  { intros b' q' y Hy. right. destruct (trade n b' q' (l1 ++ o :: l2)) as [ns' rr'] eqn:Et. eapply IH; [exact Hs|exact Hw|exact Et|exact Hy]. }
  assert (Hmain : (let left := x_size o1 - b in
     let traded := Traded Ask (x_id Bid o1) b (cost Ask b (x_price o1)) (x_owner o1) (p_callback p) in
     if left <? r_min r
     then ([traded; Removed Bid (x_id Bid o1) left (x_owner o1)] ++ fst (trade n (base - b) (quote - cost Ask b (x_price o1)) (l1 ++ o :: l2)),
           snd (trade n (base - b) (quote - cost Ask b (x_price o1)) (l1 ++ o :: l2)))
     else ([traded] ++ fst (trade n (base - b) (quote - cost Ask b (x_price o1)) (mk_xorder (x_price o1) (x_time o1) left (x_owner o1) :: l1 ++ o :: l2)),
           snd (trade n (base - b) (quote - cost Ask b (x_price o1)) (mk_xorder (x_price o1) (x_time o1) left (x_owner o1) :: l1 ++ o :: l2))))
     = (ns, rr) -> n_id x ∈ x_id Bid o1 :: map (x_id Bid) l1).
  { clear Ht. cbn zeta. destruct (_ <? _); intros Ht.
    - injection Ht as <- _. cbn [app] in Hx. apply elem_of_cons in Hx as [->|Hx]; [by left|].
      apply elem_of_cons in Hx as [->|Hx]; [by left|]. by eapply IH1.
    - injection Ht as <- _. cbn [app] in Hx. apply elem_of_cons in Hx as [->|Hx]; [by left|].
      set (o' := mk_xorder (x_price o1) (x_time o1) (x_size o1 - b) (x_owner o1)) in *.
      destruct (trade n _ _ (o' :: l1 ++ o :: l2)) as [ns' rr'] eqn:Et. cbn [fst] in Hx.
      pose proof (IH _ _ (o' :: l1) o l2 _ _ Hs Hw Et x Hx) as G. exact G. }
  destruct (stb p), (own_order same_id p o1); try (by apply Hmain).
  - injection Ht as <- _. cbn [app] in Hx. apply elem_of_cons in Hx as [->|Hx]; [by left|]. by eapply IH1.
  - injection Ht as <- _. by apply elem_of_nil in Hx.
Qed.
End Trade.

Section Market.
Context {C : Type} (same_id : C -> C -> bool).

(** The ids of the notices of an accepted order. *)
Lemma accepted_notices c m p sm m' : accepted same_id c m p sm m' -> exists ns b q makers free n2,
  trade same_id (rules_of c) p (N.to_nat (match_limit p)) (max_base_qty p) (max_quote_qty p) (x_side (view m) (opposite (p_side p))) =
    (ns, Some (b, q, makers, free)) /\
  map notice_of (emitted m m') = ns ++ n2 /\ forall x, x ∈ n2 -> n_id x ∈ map (x_id (p_side p)) (x_side (view m) (p_side p)).
Proof.
  intros (Hr&Hty&He). destruct (view_new_order _ _ _ _ _ _ Hr Hty He) as (a&Ha&Hrule).
  cbn [answer_of] in Ha. injection Ha as <-. unfold new_order_rule in Hrule. set (sd := p_side p) in *.
  destruct (negb _ || _) in Hrule; [done|].
  destruct (trade same_id _ _ _ _ _ _) as [ns [res|]] eqn:Et; [|by destruct (_ <=? _)%nat in Hrule].
  destruct res as [[[b q] makers] free].
  destruct (if free then _ else _) as [[[n2 posted] own] clock] eqn:Ep.
  destruct (_ <=? _)%nat in Hrule; [|done]. injection Hrule as _ _ _ _ Hv.
  exists ns, b, q, makers, free, n2. split; [done|]. split.
  - unfold emitted. assert (En : x_notices (view m') = x_notices (view m) ++ ns ++ n2).
    { rewrite <- Hv. by destruct sd. }
    cbn [view x_notices] in En. rewrite <- skipn_map, En. apply drop_app_alt. by rewrite map_length.
  - destruct free; [|injection Ep as <- _ _ _; intros x Hx; by apply elem_of_nil in Hx]. revert Ep. unfold post_rest.
    destruct (negb _ || _); [intros Ep; injection Ep as <- _ _ _; intros x Hx; by apply elem_of_nil in Hx|].
    destruct (_ <? _)%nat; [intros Ep; injection Ep as <- _ _ _; intros x Hx; by apply elem_of_nil in Hx|].
    destruct (last _) as [w|] eqn:El; [|intros Ep; injection Ep as <- _ _ _; intros x Hx; by apply elem_of_nil in Hx].
    destruct (not_worse _ _ _); intros Ep; injection Ep as <- _ _ _; intros x Hx; [by apply elem_of_nil in Hx|].
    apply elem_of_list_singleton in Hx as ->. cbn [n_id]. apply elem_of_list_fmap_1. by apply last_Some_elem_of.
Qed.

Lemma view_side_ids c m sd : reachable same_id c m ->
  exists L, (forall o, o ∈ L <-> o ∈ resting m sd) /\ NoDup (map o_id L) /\ sorted sd L /\
    x_side (view m) sd = map (xorder_of sd) L /\ map (x_id sd) (x_side (view m) sd) = map o_id L.
Proof.
  intros Hr. destruct (reachable_minv _ _ _ Hr) as (L&pend&Hm&Hsq). destruct (view_minv _ _ _ _ Hm) as (V&_&_).
  exists (L sd). split_and!.
  - intros o. by rewrite (in_resting _ _ _ _ _ _ Hm).
  - by eapply minv_nodup.
  - by eapply minv_sorted.
  - apply V.
  - rewrite V, map_map. apply map_ext_in. intros o Ho. apply elem_of_list_In in Ho. apply x_id_of.
    pose proof (minv_ok _ _ _ _ _ _ Hm Ho) as Hok. by destruct (order_ok_price _ _ _ _ Hsq Hok) as (_&_&_&_&Hl&_).
Qed.

(** A sell order leaves no event about a buy order worth less than one quote unit. *)
Lemma untouched_tiny c m p sm m' x : accepted same_id c m p sm m' -> p_side p = Ask ->
  x ∈ resting m Bid -> worthless x -> about (o_id x) (emitted m m') = [].
Proof.
  intros H Hs Hx Hw. destruct (accepted_notices _ _ _ _ _ H) as (ns&b&q&makers&free&n2&Et&En&H2). pose proof H as (Hr&_).
  rewrite Hs in *. cbn [opposite] in *. destruct (view_side_ids c m Bid Hr) as (L&HL&Hnd&_&HV&Hids).
  apply HL in Hx as HxL. apply elem_of_list_split in HxL as (l1&l2&->).
  rewrite HV, map_app in Et. cbn [map] in Et.
  assert (Hno : forall ev, ev ∈ emitted m m' -> event_id ev <> o_id x).
  { intros ev Hev E. assert (Hin : notice_of ev ∈ ns ++ n2) by (rewrite <- En; by apply elem_of_list_fmap_1).
    assert (Hid : n_id (notice_of ev) = o_id x) by by destruct ev.
    apply elem_of_app in Hin as [Hin|Hin].
    - pose proof (stop_before same_id _ p _ _ _ _ (xorder_of Bid x) _ _ _ Hs Hw Et _ Hin) as G. rewrite Hid in G.
      rewrite HV, !map_app in Hids. apply app_inj_1 in Hids as [Hids _]; [|by rewrite !map_length].
      rewrite Hids in G. rewrite map_app in Hnd. apply NoDup_app in Hnd as (_&Hnd&_). apply (Hnd _ G). cbn [map]. by left.
    - apply H2 in Hin. rewrite Hid in Hin. destruct (view_side_ids c m Ask Hr) as (La&HLa&_&_&_&Ida). rewrite Ida in Hin.
      apply elem_of_list_fmap in Hin as (y&Ey&Hy). apply HLa in Hy.
      destruct Hr as (Hc&log&Hh&Hl). apply (replay_ok _ _ _ _ Hc Hh Hl) in Hx as [_ Sx]. apply (replay_ok _ _ _ _ Hc Hh Hl) in Hy as [_ Sy].
      rewrite Ey, Sy in Sx. done. }
  unfold about. apply elem_of_nil_inv. intros ev Hev. apply elem_of_list_In, filter_In in Hev as [Hev E].
  apply elem_of_list_In in Hev. apply (Hno _ Hev). lia.
Qed.

Lemma acts_away E : forall o : order C, about (o_id o) E = [] -> acts E o = Some o.
Proof.
  induction E as [|ev E IH]; intros o H; [done|]. unfold about in H. cbn [List.filter] in H. destruct (event_id ev =? o_id o) eqn:Ei; [done|].
  cbn [acts]. destruct ev as [e ? ?|e ?]; cbn [act1 event_id] in *; rewrite N.eqb_sym, Ei; by apply IH.
Qed.

(** One request: the order stays, and what is filled is ahead of it. *)
Lemma stuck_step c m o r m' x : reachable same_id c m -> op_typed o -> exec same_id o m = (r, m') ->
  x ∈ resting m Bid -> worthless x -> o_id x ∉ cancelled_ids (mk_entry o r (emitted m m')) ->
  (forall ev, ev ∈ emitted m m' -> event_id ev = o_id x -> is_fill ev = true) ->
  x ∈ resting m' Bid /\ about (o_id x) (emitted m m') = [].
Proof.
  intros Hr Hty He Hx Hw Hc Hout. assert (Hab : about (o_id x) (emitted m m') = []).
  { apply elem_of_nil_inv. intros ev Hev. unfold about in Hev. apply elem_of_list_In, filter_In in Hev as [Hev E].
    apply elem_of_list_In in Hev. assert (Ei : event_id ev = o_id x) by lia. specialize (Hout ev Hev Ei).
    destruct (fill_of _ _ _ _ _ _ _ Hr Hty He Hev Hout) as (p&sm&->&Hacc&Hin&Hs). rewrite Ei in *.
    assert (Hb : side_of_id (o_id x) = Bid).
    { destruct Hr as (Hcf&log&Hh&Hl). by apply (replay_ok _ _ _ _ Hcf Hh Hl) in Hx as [_ Sx]. }
    rewrite Hb in Hs. assert (Ha : p_side p = Ask) by by destruct (p_side p).
    pose proof (untouched_tiny _ _ _ _ _ _ Hacc Ha Hx Hw) as G.
    assert (Hb' : ev ∈ about (o_id x) (emitted m m')) by (apply elem_of_list_In, filter_In; split; [by apply elem_of_list_In|lia]).
    rewrite G in Hb'. by apply elem_of_nil in Hb'. }
  split; [|done]. apply (step_effect _ _ _ _ _ _ Hr Hty He). left. split; [|done]. cbn [en_events].
  apply elem_apply_events. exists x. split; [done|]. by apply acts_away.
Qed.

Lemma stuck c log0 m0 log m x : config_ok c -> history same_id c log0 m0 -> steps same_id m0 log m ->
  N.of_nat (length (log0 ++ log)) < p63 -> x ∈ resting m0 Bid -> worthless x ->
  o_id x ∉ cancelled log -> ~ evicted (o_id x) log ->
  x ∈ resting m Bid /\ forall ev, ev ∈ flat_map en_events log -> is_fill ev = true -> side_of_id (event_id ev) = Bid ->
    ahead Bid (event_id ev) (o_id x).
Proof.
  intros Hc Hh Hs. induction Hs as [|log m o r m' Hs IH Hty He]; intros Hl Hx Hw Hcan Hev.
  { split; [done|]. intros ev H. by apply elem_of_nil in H. }
  assert (Hl1 : N.of_nat (length (log0 ++ log)) < p63) by (rewrite !app_length in *; cbn in *; lia).
  assert (Hr : reachable same_id c m) by (split; [done|]; exists (log0 ++ log); split; [by eapply steps_app|done]).
  unfold cancelled in Hcan. rewrite flat_map_app in Hcan. apply not_elem_of_app in Hcan as [Hc1 Hc2]. cbn [flat_map] in Hc2. rewrite app_nil_r in Hc2.
  assert (Hsplit : forall E, E ∈ flat_map en_events (log ++ [mk_entry o r (emitted m m')]) <-> E ∈ flat_map en_events log \/ E ∈ emitted m m').
  { intros E. rewrite flat_map_app, elem_of_app. cbn [flat_map en_events]. by rewrite app_nil_r. }
  assert (Hab : forall E, E ∈ events_about (o_id x) (log ++ [mk_entry o r (emitted m m')]) <->
    event_id E = o_id x /\ (E ∈ flat_map en_events log \/ E ∈ emitted m m')).
  { intros E. unfold events_about, about. rewrite elem_of_list_In, filter_In, <- elem_of_list_In, Hsplit. rewrite N.eqb_eq. tauto. }
  destruct (IH Hl1 Hx Hw Hc1) as [Hx1 Hf1].
  { intros (ev&Hi&Hf). apply Hev. exists ev. split; [|done]. apply Hab. unfold events_about, about in Hi.
    apply elem_of_list_In, filter_In in Hi as [Hi E]. apply elem_of_list_In in Hi. split; [lia|by left]. }
  destruct (stuck_step c m o r m' x Hr Hty He Hx1 Hw Hc2) as [Hx2 Hn].
  { intros ev Hi E. destruct (is_fill ev) eqn:Ef; [done|]. exfalso. apply Hev. exists ev. split; [|done]. apply Hab. split; [done|by right]. }
  split; [done|]. intros ev Hi Hf Hsd. apply Hsplit in Hi as [Hi|Hi]; [by apply Hf1|].
  by destruct (fills_ahead_step _ _ _ _ _ _ _ _ _ Hr Hty He Hx1 Hn Hi Hf Hsd) as [_ ?].
Qed.

(** The first order heads the side. *)
Lemma first_head c m sd x : reachable same_id c m -> first m sd x -> exists l,
  x_side (view m) sd = xorder_of sd x :: map (xorder_of sd) l /\ (forall o, o ∈ x :: l <-> o ∈ resting m sd) /\
  x_id sd (xorder_of sd x) = o_id x.
Proof.
  intros Hr [Hx Hf]. destruct (view_side_ids c m sd Hr) as (L&HL&Hnd&Hs&HV&Hids).
  apply HL in Hx as HxL. destruct L as [|y l]; [by apply elem_of_nil in HxL|].
  assert (y = x) as ->.
  { apply elem_of_cons in HxL as [->|Hin]; [done|]. apply StronglySorted_inv in Hs as [_ Hall]. rewrite Forall_forall in Hall.
    pose proof (before_ahead _ _ _ (Hall x Hin)) as H1. exfalso. eapply ahead_asym; [exact H1|]. apply Hf; [apply HL; by left|].
    intros ->. by apply ahead_irrefl in H1. }
  exists l. split_and!; [exact HV|exact HL|]. rewrite HV in Hids. cbn [map] in Hids. by injection Hids.
Qed.

(** A sell order that meets it does nothing. *)
Lemma blocked c m p r m' x : reachable same_id c m -> op_typed (NewOrder p) -> exec same_id (NewOrder p) m = (r, m') ->
  p_side p = Ask -> first m Bid x -> worthless x -> limit_price p <= id_price (o_id x) ->
  r = Err InvalidLimitPrice \/
  r = Ok (Some (mk_summary None 0 0 0)) /\ (forall sd, resting m' sd = resting m sd) /\ emitted m m' = [].
Proof.
  intros Hr Hty He Hs Hf Hw Hl. destruct (view_new_order _ _ _ _ _ _ Hr Hty He) as (a&Ha&Hrule).
  destruct (first_head _ _ _ _ Hr Hf) as (l&HV&_&_). unfold new_order_rule in Hrule. rewrite Hs in Hrule. cbn [opposite] in Hrule.
  destruct (negb _ || _) in Hrule.
  { left. injection Hrule as <- _. destruct r as [[?|]|[]|[]|]; cbn in Ha; try done. }
  right. rewrite HV, (stop_at same_id _ p) in Hrule; [|done|unfold acceptable; rewrite Hs; cbn; lia|exact Hw].
  destruct (reachable_minv _ _ _ Hr) as (L&pend&Hm&Hsq). destruct (view_minv _ _ _ _ Hm) as (_&Vn&_).
  rewrite Vn in Hrule. pose proof (qrep_len _ _ (mi_q _ _ _ _ Hm)) as Hroom. rewrite (mi_qcap _ _ _ _ Hm) in Hroom.
  replace (_ <=? _)%nat with true in Hrule by (cbn; rewrite map_length; lia). injection Hrule as <- _ _ Hv _.
  assert (Hsm : r = Ok (Some (mk_summary None 0 0 0))).
  { destruct r as [[[i x1 x2 x3]|]|[]|[]|]; cbn in Ha; try done. rewrite !N.sub_diag in Ha. by injection Ha as -> -> -> ->. }
  split; [done|]. assert (Hacc : accepted same_id c m p (mk_summary None 0 0 0) m') by (split_and!; [done..|by rewrite He, Hsm]).
  assert (En : emitted m m' = []).
  { assert (Hp : map notice_of (pending m') = map notice_of (pending m)).
    { rewrite <- Hv, (minv_pending _ _ _ _ Hm). by rewrite app_nil_r. }
    unfold emitted. apply skipn_all2. rewrite <- (map_length notice_of (pending m')), Hp, map_length. done. }
  split; [|done]. pose proof (posted_visible _ _ _ _ _ _ Hacc) as H1. cbn [posted_order_id] in H1.
  pose proof (opposite_replay _ _ _ _ _ _ Hacc) as H2. rewrite Hs in H1. rewrite Hs, En in H2. intros [|]; [exact H2|exact H1].
Qed.

(** It takes one quote unit to bring that about. *)
Lemma arises c m price cb : reachable same_id c m -> (c_tick c | price) -> 0 < price -> c_min c * price < 2 ^ 32 ->
  (forall o, o ∈ resting m Ask -> price < id_price (o_id o)) -> (forall o, o ∈ resting m Bid -> id_price (o_id o) < price) ->
  (length (resting m Bid) < c_bids c)%nat ->
  exists sm m' x, accepted same_id c m (mk_params (c_min c) 1 price Bid 1 cb false true DecrementTake) sm m' /\
    total_quote_qty sm = 1 /\ first m' Bid x /\ worthless x /\ id_price (o_id x) = price.
Proof.
  intros Hr Ht Hp Hw Hask Hbid Hcap. pose proof Hr as (Hc&_). destruct Hc as (Hmin&Htick&_).
  set (p := mk_params (c_min c) 1 price Bid 1 cb false true DecrementTake).
  assert (Hty : op_typed (NewOrder p)) by (cbn; nia).
  destruct (exec same_id (NewOrder p) m) as [r m'] eqn:He. destruct (view_new_order _ _ _ _ _ _ Hr Hty He) as (a&Ha&Hrule).
  assert (Htr : trade same_id (rules_of c) p (N.to_nat 1) (c_min c) 1 (x_side (view m) Ask) = ([], Some (c_min c, 1, x_side (view m) Ask, true))).
  { change (N.to_nat 1) with 1%nat. destruct (view_side_ids c m Ask Hr) as (L&HL&_&_&HV&_). rewrite HV. destruct L as [|y l]; [done|].
    cbn [map trade]. unfold acceptable. cbn [p p_side limit_price xorder_of x_price]. specialize (Hask y (proj1 (HL y) ltac:(left))).
    by replace (id_price (o_id y) <=? price) with false by lia. }
  assert (Hpay : c_min c <= pays_for 1 price) by (unfold pays_for; apply N.div_le_lower_bound; lia).
  assert (Hle : (length (x_side (view m) Bid) <? c_bids c)%nat = true).
  { cbn [view x_side x_bids]. rewrite rev_length, map_length. lia. }
  assert (Hdiv : c_tick c <= price) by (apply N.divide_pos_le; done).
  assert (Hmod : price mod c_tick c = 0) by (apply N.mod_divide; [lia|done]).
  unfold new_order_rule in Hrule. cbn [rules_of r_tick p limit_price post_allowed p_side opposite match_limit max_base_qty max_quote_qty] in Hrule.
  rewrite Hmod in Hrule. replace (price <? c_tick c) with false in Hrule by lia. cbn [N.eqb negb andb orb] in Hrule.
  change (mk_params (c_min c) 1 price Bid 1 cb false true DecrementTake) with p in Hrule.
  change (mk_rules (c_min c) (c_tick c) (c_bids c) (c_asks c) (c_events c)) with (rules_of c) in Hrule.
  rewrite Htr in Hrule. unfold post_rest in Hrule. unfold side_room in Hrule. cbn [p p_side limit_price post_allowed negb rules_of r_min r_bids p_callback] in Hrule.
  rewrite N.min_l in Hrule by lia. replace (c_min c <? c_min c) with false in Hrule by lia. cbn [orb] in Hrule.
  rewrite Hle in Hrule.
  destruct (reachable_minv _ _ _ Hr) as (L&pend&Hm&Hsq). destruct (view_minv _ _ _ _ Hm) as (_&Vn&_).
  rewrite Vn in Hrule. pose proof (qrep_len _ _ (mi_q _ _ _ _ Hm)) as Hroom. rewrite (mi_qcap _ _ _ _ Hm) in Hroom.
  replace (_ <=? _)%nat with true in Hrule by (cbn; rewrite map_length; lia). injection Hrule as Hans _ _ _ _.
  subst a. destruct r as [[[i x1 x2 x3]|]|[]|[]|]; cbn [answer_of posted_order_id total_base_qty total_quote_qty total_base_qty_posted] in Ha; try done.
  injection Ha as E1 E2 E3 E4. cbn [option_map fst x_size] in *.
  assert (Hacc : accepted same_id c m p (mk_summary i x1 x2 x3) m') by done.
  pose proof (posted_visible _ _ _ _ _ _ Hacc) as HV. rewrite E1 in HV. cbn [posted_order_id total_base_qty_posted] in HV. destruct HV as (HV&Hnew&_).
  cbn [p_side p p_callback] in HV. set (x := (mk_leaf _ x3, cb) : order C) in HV.
  assert (Hx : x ∈ resting m' Bid) by (rewrite HV; by left).
  assert (Hpr : id_price (o_id x) = price).
  { unfold x, o_id. cbn [fst lf_key]. unfold x_id. cbn [x_price x_time]. unfold id_price. change p64 with (2 ^ 64).
    rewrite N.div_add_l by lia. rewrite N.div_small by lia. lia. }
  exists (mk_summary i x1 x2 x3), m', x. split; [exact Hacc|]. cbn [total_quote_qty]. split_and!.
  - rewrite E3. cbn [cost]. replace (1 - 1) with 0 by lia. rewrite N.add_0_l.
    assert (c_min c * price + (2 ^ 32 - 1) < 2 * 2 ^ 32) by lia. apply N.le_antisymm; [apply N.lt_succ_r; apply N.div_lt_upper_bound; lia|].
    apply N.div_le_lower_bound; [lia|]. nia.
  - split; [done|]. intros o' Ho' Hne. rewrite HV in Ho'. apply elem_of_cons in Ho' as [->|Ho']; [done|].
    apply elem_apply_events in Ho' as (o0&Ho0&Hact). apply acts_id in Hact. rewrite Hact. left. cbn [better_price]. rewrite Hpr. by apply Hbid.
  - unfold worthless. rewrite Hpr. unfold x, o_qty. cbn [fst lf_qty]. rewrite E4. exact Hw.
  - done.
Qed.

(** Without such orders, an acceptable order is dealt with. *)
Lemma progress c m p sm m' x : accepted same_id c m p sm m' -> post_only p = false -> 0 < match_limit p ->
  first m (opposite (p_side p)) x -> crossing (p_side p) (limit_price p) (id_price (o_id x)) ->
  match p_side p with
  | Bid => 0 < max_base_qty p /\ id_price (o_id x) <= max_quote_qty p * 2 ^ 32
  | Ask => ~ worthless x /\ 2 ^ 32 <= max_base_qty p * id_price (o_id x) /\
           2 ^ 32 <= max_quote_qty p * 2 ^ 32 / id_price (o_id x) * id_price (o_id x)
  end -> exists ev, ev ∈ emitted m m' /\ event_id ev = o_id x.
Proof.
  intros H Hpo Hml Hf Hcr Hb. destruct (accepted_notices _ _ _ _ _ H) as (ns&b&q&makers&free&n2&Et&En&_). pose proof H as (Hr&_).
  destruct (first_head _ _ _ _ Hr Hf) as (l&HV&_&Hid). rewrite HV in Et.
  assert (Hn : exists n, N.to_nat (match_limit p) = S n) by (exists (pred (N.to_nat (match_limit p))); lia). destruct Hn as (n&Hn).
  rewrite Hn in Et. cbn [trade] in Et. pose proof Hf as [Hx _].
  pose proof (no_dust _ _ _ _ _ Hr Hx) as [_ Hq]. pose proof (resting_tick _ _ _ _ _ Hr Hx) as [_ Hp].
  cbn [xorder_of x_price x_size x_owner x_time] in Et. set (pr := id_price (o_id x)) in *.
  assert (Hacc : acceptable p (xorder_of (opposite (p_side p)) x) = true).
  { unfold acceptable. cbn [xorder_of x_price]. unfold crossing in Hcr. fold pr. destruct (p_side p); lia. }
  change (mk_xorder pr (id_seq (opposite (p_side p)) (o_id x)) (o_qty x) (o_cb x)) with (xorder_of (opposite (p_side p)) x) in Et.
  rewrite Hacc, Hpo in Et. cbn [negb orb] in Et. set (bt := N.min _ _) in Et.
  assert (Hbt : 0 < bt /\ 0 < cost (p_side p) bt pr).
  { unfold bt, pays_for. destruct (p_side p); cbn [cost].
    - destruct Hb as [Hb1 Hb2]. assert (0 < max_quote_qty p * 2 ^ 32 / pr) by (apply N.div_str_pos; lia).
      split; [lia|]. apply N.div_str_pos. split; [lia|]. set (z := N.min _ _). assert (1 <= z) by lia. nia.
    - destruct Hb as (Hb1&Hb2&Hb3). unfold worthless in Hb1. fold pr in Hb1.
      set (z := N.min _ _). assert (2 ^ 32 <= z * pr).
      { unfold z. destruct (N.min_spec (o_qty x) (max_base_qty p)) as [[_ ->]|[_ ->]];
          (match goal with |- context [N.min ?u ?v] => destruct (N.min_spec u v) as [[_ ->]|[_ ->]] end); lia. }
      split; [nia|]. apply N.div_str_pos. lia. }
  replace (bt =? 0) with false in Et by lia. replace (cost (p_side p) bt pr =? 0) with false in Et by lia. cbn [orb] in Et.
  assert (Hin : exists nt, nt ∈ ns /\ n_id nt = o_id x).
  { rewrite Hid in Et. cbn [app] in Et. destruct (stb p), (own_order same_id p (xorder_of (opposite (p_side p)) x)); try discriminate;
      try destruct (_ <? c_min c) in Et; try destruct (_ <? r_min _) in Et; injection Et as <- _; (eexists; split; [left|done]). }
  destruct Hin as (nt&Hin&Hi). assert (Hin' : nt ∈ map notice_of (emitted m m')) by (rewrite En; apply elem_of_app; by left).
  apply elem_of_list_fmap in Hin' as (ev&->&Hev). exists ev. split; [done|]. by destruct ev.
Qed.
End Market.
