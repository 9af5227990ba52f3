(** * ShareProofs.v: which order gets how much of a trade (C93) *)
From stdpp Require Import sorting.
From Verif Require Import Machine Critbit EventQueue OrderBook Market Spec BookProofs MarketProofs MarketFacts
  NewOrderProps NewOrderProps2 EventProps ExchangeSpec ExchangeProofs InstrProps HistoryProps PlaceProofs FundsProofs CustodyProofs
  Engine PartsSpec PartsProofs BestSpec BestProofs ClientSpec LadderSpec LadderProofs StuckProofs ReachSpec ReachProofs ProvideProofs OfferSpec OfferProofs PlaceSpec LifeProps.
From Coq Require Import Sorted ZifyBool ZifyNat ZifyN.

(** The first [b] units of a list of ids and sizes. *)
Fixpoint taken (b : N) (l : list (N * N)) : list (N * N) :=
  match l with
  | [] => []
  | (id, size) :: l => if b =? 0 then [] else (id, N.min size b) :: taken (b - N.min size b) l
  end.
Definition amount (id : N) (l : list (N * N)) : N := sumN snd (List.filter (fun x => fst x =? id) l).
Lemma taken_0 l : taken 0 l = [].
Proof. by destruct l as [|[i s] l]. Qed.
Lemma amount_cons id i s l : amount id ((i, s) :: l) = (if i =? id then s else 0) + amount id l.
Proof. unfold amount. cbn [List.filter fst]. destruct (i =? id); cbn; lia. Qed.
Lemma taken_out b id l : id ∉ map fst l -> amount id (taken b l) = 0.
Proof.
  revert b. induction l as [|[i s] l IH]; intros b H; [done|]. cbn [taken]. destruct (b =? 0); [done|]. cbn [map fst] in H.
  rewrite amount_cons. assert (i <> id) by (intros ->; apply H; left). replace (i =? id) with false by lia.
  rewrite IH; [done|]. intros Hi. apply H. by right.
Qed.
Lemma taken_share b l1 id s l2 : NoDup (map fst (l1 ++ (id, s) :: l2)) ->
  amount id (taken b (l1 ++ (id, s) :: l2)) = N.min s (b - sumN snd l1).
Proof.
  revert b. induction l1 as [|[i t] l1 IH]; intros b H; cbn [app taken map fst] in *; inversion H as [|?? Hn Hd]; subst.
  - destruct (b =? 0) eqn:E; [cbn; lia|]. rewrite amount_cons, N.eqb_refl, taken_out by done. cbn. lia.
  - destruct (b =? 0) eqn:E; [cbn; lia|]. rewrite amount_cons, IH by done.
    replace (i =? id) with false; [cbn [sumN snd]; lia|]. symmetry. apply N.eqb_neq. intros ->. apply Hn.
    rewrite map_app. apply elem_of_app. right. left.
Qed.

Section Trade.
Context {C : Type} (same_id : C -> C -> bool) (r : rules) (p : params C).
Notation trade := (trade same_id r p).
Notation sd := (p_side p).
Notation xmet n ms := (List.filter (fun o => negb (withdrawn same_id p o)) (take n (List.filter (acceptable p) ms))).
Notation x_line o := (x_id (opposite sd) o, x_size o).

Definition n_fills (ns : list (notice C)) : list (N * N) :=
  flat_map (fun n => match n with Traded _ id b _ _ _ => [(id, b)] | _ => [] end) ns.
Lemma fills_deals ns : n_deals ns = map (fun x => (snd x, fst x / 2 ^ 64)) (n_fills ns).
Proof. induction ns as [|x ns IH]; [done|]. destruct x; cbn [n_deals n_fills flat_map app map]; fold (n_deals ns) (n_fills ns); by rewrite ?IH. Qed.

Lemma trade_fills : 0 < r_min r -> forall n base quote ms ns b1 q1 ms1 f B,
  trade n base quote ms = (ns, Some (b1, q1, ms1, f)) -> ranked sd ms -> Forall (fun o => 0 < x_size o) ms ->
  n_deals ns = slices B (map x_step (xmet n ms)) -> n_fills ns = taken B (map (fun o => x_line o) (xmet n ms)).
Proof.
  intros Hmin. induction n as [|n IH]; intros base quote ms ns b1 q1 ms1 f B H Hr Hz HD.
  { cbn in H. injection H as <- <- <- <- <-. by rewrite take_0. }
  assert (Hnil : n_deals ns = [] -> n_fills ns = taken B (map (fun o => x_line o) (xmet (S n) ms))).
  { intros E. rewrite fills_deals in E. apply map_eq_nil in E. rewrite E. rewrite fills_deals, E in HD. cbn in HD.
    destruct (xmet (S n) ms) as [|o l]; [done|]. cbn [map slices taken] in *. unfold x_step in HD. by destruct (B =? 0). }
  destruct ms as [|o os]; [cbn in H; injection H as <- <- <- <- <-; by apply Hnil|].
  destruct Hr as [Hd Hr]. inversion Hz as [|?? Hsz Hz']; subst.
  cbn [ExchangeSpec.trade] in H. destruct (acceptable p o) eqn:Ha; cbn [negb] in H; [|injection H as <- <- <- <- <-; by apply Hnil].
  destruct (post_only p || _ || _) eqn:Est; [injection H as <- <- <- <- <-; by apply Hnil|].
  set (b := N.min (N.min (x_size o) base) (pays_for quote (x_price o))) in *.
  cbn [List.filter] in HD |- *. rewrite Ha, firstn_cons in HD |- *. cbn [List.filter] in HD |- *.
  assert (Hb : b <> 0) by (destruct (b =? 0) eqn:Eb; [destruct (post_only p); discriminate Est|lia]).
  assert (Hfill : withdrawn same_id p o = false -> forall ms' ns', (ms' = os \/ x_size o - b <> 0) ->
    ns = Traded sd (x_id (opposite sd) o) b (cost sd b (x_price o)) (x_owner o) (p_callback p) :: ns' ->
    (exists ns'' base' quote', (ns' = ns'' \/ exists x y z w, ns' = Removed x y z w :: ns'') /\ trade n base' quote' ms' = (ns'', Some (b1, q1, ms1, f))) ->
    n_fills ns = taken B (map (fun o => x_line o) (if negb (withdrawn same_id p o) then o :: xmet n os else xmet n os))).
  { intros Hw ms' ns' Hms -> (ns2&base'&quote'&Hns&Ht). rewrite Hw in HD |- *. cbn [negb map] in HD |- *.
    assert (En : n_fills ns' = n_fills ns2 /\ n_deals ns' = n_deals ns2) by (destruct Hns as [->|(?&?&?&?&->)]; done).
    destruct En as [En Ed]. cbn [n_deals flat_map app] in HD. fold (n_deals ns') in HD. rewrite Ed in HD.
    cbn [n_fills flat_map app]. fold (n_fills ns'). rewrite En.
    change (map x_step (?a :: ?l)) with (x_step a :: map x_step l) in HD. unfold x_step at 1 in HD. cbn [slices] in HD. cbn [taken].
    destruct (B =? 0); [discriminate HD|]. injection HD as Eb Eid HD. rewrite <- Eb in *. f_equal.
    destruct (N.eq_dec b (x_size o)) as [Ef|Ef].
    - destruct Hms as [->|Hms]; [|lia]. by eapply IH.
    - assert (B - b = 0) as E0 by lia. rewrite E0 in HD |- *. rewrite slices_0 in HD. rewrite taken_0.
      rewrite fills_deals in HD. by apply map_eq_nil in HD. }
  assert (Hleft : x_size o - b = 0 -> x_size o - b <? r_min r = true) by lia.
  assert (Hrest : forall base' quote' ms' (pre : list (notice C)), (pre ++ fst (trade n base' quote' ms'), snd (trade n base' quote' ms')) = (ns, Some (b1, q1, ms1, f)) ->
    exists ns', ns = pre ++ ns' /\ trade n base' quote' ms' = (ns', Some (b1, q1, ms1, f))).
  { intros base' quote' ms' pre E. destruct (trade n base' quote' ms') as [ns' res]. cbn [fst snd] in E. injection E as <- ->. by exists ns'. }
  assert (Htrade : withdrawn same_id p o = false ->
    (if x_size o - b <? r_min r
     then ([Traded sd (x_id (opposite sd) o) b (cost sd b (x_price o)) (x_owner o) (p_callback p); Removed (opposite sd) (x_id (opposite sd) o) (x_size o - b) (x_owner o)]
             ++ fst (trade n (base - b) (quote - cost sd b (x_price o)) os), snd (trade n (base - b) (quote - cost sd b (x_price o)) os))
     else ([Traded sd (x_id (opposite sd) o) b (cost sd b (x_price o)) (x_owner o) (p_callback p)]
             ++ fst (trade n (base - b) (quote - cost sd b (x_price o)) (mk_xorder (x_price o) (x_time o) (x_size o - b) (x_owner o) :: os)),
           snd (trade n (base - b) (quote - cost sd b (x_price o)) (mk_xorder (x_price o) (x_time o) (x_size o - b) (x_owner o) :: os))))
    = (ns, Some (b1, q1, ms1, f)) ->
    n_fills ns = taken B (map (fun o => x_line o) (if negb (withdrawn same_id p o) then o :: xmet n os else xmet n os))).
  { intros Hw E. destruct (_ <? r_min r) eqn:El.
    - apply Hrest in E as (ns'&->&Et). eapply (Hfill Hw os); [by left|done|]. exists ns'. do 2 eexists. split; [right; by do 4 eexists|exact Et].
    - apply Hrest in E as (ns'&->&Et). eapply (Hfill Hw _ ns'); [right; intros E0; specialize (Hleft E0); congruence|done|]. exists ns'. do 2 eexists. split; [by left|exact Et]. }
  unfold withdrawn in *. destruct (stb p) eqn:Es.
  - apply (Htrade eq_refl). exact H.
  - destruct (own_order same_id p o) eqn:Eo.
    + apply Hrest in H as (ns'&->&Et). cbn [negb] in *. cbn [app n_fills flat_map]. fold (n_fills ns'). eapply IH; [exact Et|done|done|].
      cbn [app n_deals flat_map] in HD. exact HD.
    + apply (Htrade eq_refl). exact H.
  - destruct (own_order same_id p o); [discriminate H|]. apply (Htrade eq_refl). exact H.
Qed.
End Trade.

Lemma taken_app b l k : b <= sumN snd l -> taken b (l ++ k) = taken b l.
Proof.
  revert b. induction l as [|[i s] l IH]; intros b Hb; [cbn in *; assert (b = 0) as -> by lia; by rewrite taken_0|].
  cbn [app taken]. destruct (b =? 0) eqn:E; [done|]. f_equal. apply IH. cbn [sumN snd] in Hb. lia.
Qed.

Lemma sub_nodup {A} (l1 l2 : list A) : sublist l1 l2 -> NoDup l2 -> NoDup l1.
Proof.
  induction 1 as [|x a b H IH|x a b H IH]; intros Hn; [done|inversion Hn as [|?? Hx Hd]; subst..]; [|by apply IH].
  constructor; [|by apply IH]. intros Hi. apply Hx. clear -H Hi. induction H as [|y a b H IH|y a b H IH]; [done| |right; by apply IH].
  apply elem_of_cons in Hi as [->|Hi]; [left|right; by apply IH].
Qed.
Section Market.
Context {C : Type} (same_id : C -> C -> bool).
Notation nw p := (fun o => negb (withdraws same_id p o)).
Definition size_line (o : order C) : N * N := (o_id o, o_qty o).
Definition fill_lines (E : list (event_ref C)) : list (N * N) := map (fun ev => (event_id ev, fill_base ev)) (List.filter is_fill E).

Lemma lines_notices (E : list (event_ref C)) : fill_lines E = n_fills (map notice_of E).
Proof. unfold fill_lines. induction E as [|ev l IH]; [done|]. destruct ev; cbn [map List.filter is_fill n_fills flat_map app]; fold (n_fills (map notice_of l)); by rewrite <- IH. Qed.
Lemma lines_amount id (E : list (event_ref C)) : amount id (fill_lines E) = sumN fill_base (about id E).
Proof.
  unfold fill_lines, about. induction E as [|ev E IH]; [done|]. destruct ev as [e mk tk|e cb]; cbn [List.filter is_fill map].
  - rewrite amount_cons, IH. destruct (_ =? _); cbn [sumN]; lia.
  - rewrite IH. destruct (_ =? _); cbn [sumN fill_base]; lia.
Qed.
Lemma facing_prefix c m p : reachable same_id c m -> exists k, facing m (p_side p) = List.filter (within_limit p) (facing m (p_side p)) ++ k.
Proof.
  intros Hr. pose proof (view_ranked same_id c m (p_side p) Hr) as H. rewrite facing_view in H.
  induction (facing m (p_side p)) as [|o os IH]; [by exists []|]. cbn [map ranked] in H. destruct H as [Hd H].
  destruct (IH H) as (k&Hk). cbn [List.filter]. destruct (within_limit p o) eqn:Ew.
  - exists k. cbn [app]. by rewrite <- Hk.
  - assert (E : List.filter (within_limit p) os = []).
    { pose proof (unacceptable p (xorder_of (opposite (p_side p)) o) _ Ew Hd) as E. rewrite filter_mapl in E.
      apply map_eq_nil in E. exact E. }
    exists (o :: os). by rewrite E.
Qed.

Lemma shares c m p sm m' : accepted same_id c m p sm m' -> post_only p = false -> free_to_sell m p ->
  fill_lines (emitted m m') = taken (sumN fill_base (emitted m m')) (map size_line (List.filter (nw p) (facing m (p_side p)))).
Proof.
  intros H Hpo Hf. pose proof H as (Hr&_). destruct (deals_ladder _ _ _ _ _ _ H Hpo Hf) as [D1 D2]. rewrite deals_depth in D1, D2.
  set (B := sumN fill_base (emitted m m')) in *. destruct (accepted_notices _ _ _ _ _ _ H) as (ns&b&q&mk&f&n2&Et&En&_).
  destruct (accepted_deals _ _ _ _ _ _ H) as (ns'&b'&q'&mk'&f'&Et'&Ed&_). rewrite Et in Et'. injection Et' as <- <- <- <- <-.
  assert (E2 : n_fills n2 = []).
  { rewrite notices_deals, En in Ed. unfold n_deals in Ed. rewrite flat_map_app in Ed. fold (n_deals ns) (n_deals n2) in Ed.
    assert (El : length (n_deals ns ++ n_deals n2) = length (n_deals ns)) by (by rewrite Ed). rewrite app_length in El.
    assert (E0 : n_deals n2 = []) by (apply nil_length_inv; lia). rewrite fills_deals in E0. by apply map_eq_nil in E0. }
  rewrite lines_notices, En. unfold n_fills. rewrite flat_map_app. fold (n_fills ns) (n_fills n2). rewrite E2, app_nil_r.
  pose proof Hr as (Hc&_). assert (Hmin : 0 < r_min (rules_of c)) by (cbn; apply Hc). rewrite Ed in D1.
  rewrite <- ladder_view in D1.
  rewrite (trade_fills same_id _ p Hmin _ _ _ _ _ _ _ _ _ B Et (view_ranked _ _ _ _ Hr) (view_sizes _ _ _ _ Hr) D1).
  assert (Eq : map (fun o => (x_id (opposite (p_side p)) o, x_size o)) (List.filter (fun o => negb (withdrawn same_id p o))
      (take (N.to_nat (match_limit p)) (List.filter (acceptable p) (x_side (view m) (opposite (p_side p)))))) =
    map size_line (List.filter (nw p) (take (N.to_nat (match_limit p)) (List.filter (within_limit p) (facing m (p_side p)))))).
  { rewrite facing_view, filter_mapl, firstn_map, filter_mapl, map_map. apply map_ext_in. intros o Ho.
    apply List.filter_In in Ho as [Ho _]. apply elem_of_list_In, elem_of_take in Ho as (i&Ho&_).
    apply elem_of_list_lookup_2, elem_of_list_In, List.filter_In in Ho as [Ho _]. unfold size_line. f_equal.
    apply x_id_of. pose proof (resting_good same_id c m (opposite (p_side p)) Hr) as Hg. rewrite Forall_forall in Hg. apply Hg.
    apply elem_of_list_In in Ho. destruct (p_side p); cbn [facing opposite] in *; [done|].
    apply elem_of_list_In. apply elem_of_list_In in Ho. by apply in_rev in Ho. }
  rewrite Eq. destruct (facing_prefix c m p Hr) as (k&Hk). set (F := List.filter (within_limit p) (facing m (p_side p))) in *.
  assert (EF : facing m (p_side p) = take (N.to_nat (match_limit p)) F ++ (drop (N.to_nat (match_limit p)) F ++ k)) by (by rewrite app_assoc, take_drop).
  rewrite EF, List.filter_app, map_app. symmetry. apply taken_app.
  unfold ladder in D2. fold F in D2. unfold depth in D2. etrans; [exact D2|]. apply N.eq_le_incl. rewrite !sum_map. by apply sumN_ext.
Qed.
Lemma share_dealt c m p sm m' before o after : accepted same_id c m p sm m' -> post_only p = false -> free_to_sell m p ->
  facing m (p_side p) = before ++ o :: after -> withdraws same_id p o = false ->
  sumN fill_base (about (o_id o) (emitted m m')) =
    N.min (o_qty o) (sumN fill_base (emitted m m') - sumN o_qty (List.filter (nw p) before)).
Proof.
  intros H Hpo Hf Hface Hw. pose proof H as (Hr&_). rewrite <- lines_amount, (shares _ _ _ _ _ H Hpo Hf), Hface, List.filter_app. cbn [List.filter].
  rewrite Hw. cbn [negb]. rewrite map_app. cbn [map]. unfold size_line at 2. rewrite taken_share.
  - by rewrite sum_map.
  - destruct (facing_ids same_id c m (p_side p) Hr) as [_ Hn]. rewrite Hface, map_app in Hn. cbn [map] in Hn. rewrite map_app, map_map. cbn [map fst]. rewrite map_map.
    change (fun x => fst (size_line x)) with (@o_id C). eapply sub_nodup; [|exact Hn]. apply sublist_app; [|apply sublist_skip]; apply sub_map.
    all: clear; match goal with |- sublist (List.filter _ ?l) _ => induction l as [|x l IH]; cbn [List.filter]; [constructor|destruct (negb _); by constructor] end.
Qed.

Lemma sum_zero {A} (f : A -> N) l : (forall x, x ∈ l -> f x = 0) -> sumN f l = 0.
Proof.
  induction l as [|x l IH]; intros H; [done|]. cbn [sumN]. rewrite IH by (intros y Hy; apply H; by right). rewrite (H x); [done|left].
Qed.
Lemma share c m p sm m' before o after : accepted same_id c m p sm m' -> free_to_sell m p ->
  facing m (p_side p) = before ++ o :: after -> withdraws same_id p o = false ->
  sumN fill_base (about (o_id o) (emitted m m')) =
    N.min (o_qty o) (sumN fill_base (emitted m m') - sumN o_qty (List.filter (nw p) before)).
Proof.
  intros H Hf Hface Hw. destruct (post_only p) eqn:Hpo; [|by eapply share_dealt].
  pose proof H as (Hr&Hty&He). destruct (post_only_facts _ _ _ _ _ _ H Hpo) as (_&Hno&_).
  assert (Hz : forall ev, ev ∈ emitted m m' -> fill_base ev = 0).
  { intros ev Hev. destruct (is_fill ev) eqn:Hif; [|by destruct ev].
    destruct (fill_of _ _ _ _ _ _ _ Hr Hty He Hev Hif) as (p'&sm'&[= <-]&_&Hin&_). by destruct (Hno _ Hev). }
  rewrite (sum_zero fill_base (emitted m m')) by done. rewrite sum_zero; [lia|].
  intros ev Hev. apply elem_of_list_In, List.filter_In in Hev as [Hev _]. apply elem_of_list_In in Hev. by apply Hz.
Qed.
(** ** The place in line, with the order's own trades *)
Lemma ahead_total sd a b : a <> b -> ahead sd a b \/ ahead sd b a.
Proof.
  intros H. unfold ahead, better_price, id_price, id_seq. pose proof (N.div_mod a p64 ltac:(lia)). pose proof (N.div_mod b p64 ltac:(lia)).
  pose proof (N.mod_lt a p64 ltac:(lia)). pose proof (N.mod_lt b p64 ltac:(lia)).
  set (a1 := a / p64) in *. set (b1 := b / p64) in *. set (a0 := a mod p64) in *. set (b0 := b mod p64) in *.
  assert (a1 <> b1 \/ a0 <> b0) by lia. destruct sd; lia.
Qed.
Lemma fills_here c m o r m' sd x ev : reachable same_id c m -> op_typed o -> exec same_id o m = (r, m') ->
  x ∈ resting m sd -> o_id x ∈ map o_id (resting m' sd) -> ev ∈ emitted m m' -> is_fill ev = true -> side_of_id (event_id ev) = sd ->
  event_id ev = o_id x \/ (event_id ev ∈ map o_id (resting m sd) /\ ahead sd (event_id ev) (o_id x)).
Proof.
  intros Hr Hty He Hx Hin Hev Hf Hs. destruct (N.eq_dec (event_id ev) (o_id x)) as [E|E]; [by left|]. right.
  destruct (fill_of _ _ _ _ _ _ _ Hr Hty He Hev Hf) as (p&sm&->&Hacc&Hopp&Hs'). rewrite Hs in Hs'. subst sd. rewrite Hs' in *. split; [done|].
  destruct (ahead_total (opposite (p_side p)) _ _ E) as [Ha|Ha]; [done|]. exfalso.
  apply elem_of_list_fmap in Hopp as (z&Hz&Hzin). rewrite Hz in Ha.
  by eapply (overtake_step same_id c m _ r m' _ z x ev).
Qed.
Lemma waiting_step c m o r m' sd x y : reachable same_id c m -> op_typed o ->
  exec same_id o m = (r, m') -> NoDup (map o_id (resting m' sd)) ->
  x ∈ resting m sd -> y ∈ resting m' sd -> o_id y = o_id x -> id_seq sd (o_id x) < seq_of m ->
  sumN fill_base (List.filter (trade_at sd (id_price (o_id x))) (emitted m m')) + line m' sd (o_id x)
    <= line m sd (o_id x) + sumN fill_base (about (o_id x) (emitted m m')).
Proof.
  intros Hr Hty He Hnd' Hx Hy Hid Hsx.
  pose proof (resting_nodup same_id c m sd Hr) as Hnd.
  rewrite !line_ids by done. set (ids := map o_id (List.filter (in_line sd (o_id x)) (resting m sd))).
  assert (Hids : NoDup ids) by by apply nodup_filter_ids.
  assert (H1 : sumN (qty_in (resting m' sd))
      (map o_id (List.filter (in_line sd (o_id x)) (resting m' sd))) <= sumN (qty_in (resting m' sd)) ids).
  { apply sumN_incl; [by apply nodup_filter_ids|]. intros i Hi.
    apply elem_of_list_fmap in Hi as (z&->&Hz). apply elem_of_list_In, filter_In in Hz as [Hz Hl].
    apply elem_of_list_In in Hz.
    destruct (origin _ _ _ _ _ _ _ _ Hr Hty He Hz) as [(z0&Hz0&Hzi&_)|(p&sm&Hacc&Hp&<-)].
    - rewrite <- Hzi. apply elem_of_list_fmap_1. apply elem_of_list_In, filter_In.
      split; [by apply elem_of_list_In|]. unfold in_line in *. by rewrite Hzi.
    - pose proof (posted_seq_of _ _ _ _ _ _ _ Hacc Hp). unfold in_line in Hl. lia. }
  assert (Hnot : o_id x ∉ ids).
  { intros Hi. apply elem_of_list_fmap in Hi as (z&Ez&Hz). apply elem_of_list_In, filter_In in Hz as [_ Hl]. unfold in_line in Hl. rewrite Ez in Hl. lia. }
  assert (H2 : sumN fill_base (List.filter (trade_at sd (id_price (o_id x))) (emitted m m')) <=
               sumN (fun i => sumN fill_base (about i (emitted m m'))) (o_id x :: ids)).
  { rewrite sum_about_fills, sumN_filter by (by constructor). apply sumN_le. intros ev Hev.
    destruct (trade_at _ _ ev) eqn:Ht; [|lia]. unfold trade_at in Ht.
    apply andb_true_iff in Ht as [Ht Hpr]. apply andb_true_iff in Ht as [Hf Hs].
    apply N.eqb_eq in Hs, Hpr. apply side_u8_inj in Hs.
    assert (existsb (N.eqb (event_id ev)) (o_id x :: ids) = true) as ->; [|done].
    apply existsb_exists. exists (event_id ev). split; [|apply N.eqb_refl]. apply elem_of_list_In.
    destruct (fills_here _ _ _ _ _ _ _ _ Hr Hty He Hx ltac:(rewrite <- Hid; by apply elem_of_list_fmap_1) Hev Hf Hs) as [->|[Hin Ha]]; [left|right].
    apply elem_of_list_fmap in Hin as (w&Hw&Hin). unfold ids. rewrite Hw in *.
    apply elem_of_list_fmap_1. apply elem_of_list_In, filter_In. split; [by apply elem_of_list_In|].
    unfold in_line. destruct Ha as [Ha|[_ Ha]]; [|lia].
    unfold better_price in Ha. destruct sd; lia. }
  assert (H3 : sumN (fun i => sumN fill_base (about i (emitted m m')) + qty_in (resting m' sd) i) ids <=
               sumN (qty_in (resting m sd)) ids).
  { apply sumN_le. intros i Hi. apply elem_of_list_fmap in Hi as (w&->&Hw).
    apply elem_of_list_In, filter_In in Hw as [Hw _]. apply elem_of_list_In in Hw.
    rewrite (qty_in_in (resting m sd)) by done.
    destruct (life_step same_id c m o r m' sd w Hr Hty He Hw)
      as [(_&_&w'&Hw'&Hi&_&Hq)|[(F1&q&HF&_&Hq&_&Hg)|(HF&_&Hg)]].
    - rewrite <- Hi, (qty_in_in (resting m' sd)) by done. rewrite Hi. lia.
    - rewrite HF, sum_app, qty_in_absent by apply Hg. cbn. lia.
    - rewrite HF, qty_in_absent by apply Hg. cbn. lia. }
  rewrite sumN_add in H3. cbn [sumN] in H2. lia.
Qed.
Lemma waiting c log0 m0 log m sd x : config_ok c -> history same_id c log0 m0 ->
  steps same_id m0 log m -> N.of_nat (length (log0 ++ log)) < p63 ->
  x ∈ resting m0 sd -> forall y, y ∈ resting m sd -> o_id y = o_id x ->
  o_qty y + sumN fill_base (events_about (o_id x) log) = o_qty x /\
  traded_at sd (id_price (o_id x)) log + line m sd (o_id x) <= line m0 sd (o_id x) + sumN fill_base (events_about (o_id x) log).
Proof.
  intros Hc Hh Hs. induction Hs as [|log m o r m' Hs IH Hty He]; intros Hl Hx y Hy Hid.
  { assert (Hr0 : reachable same_id c m0) by (split; [done|]; exists log0; rewrite app_nil_r in Hl; done).
    pose proof (resting_nodup same_id c m0 sd Hr0) as Hnd.
    assert (Eq : qty_in (resting m0 sd) (o_id x) = qty_in (resting m0 sd) (o_id y)) by congruence.
    rewrite !qty_in_in in Eq by done. split; cbn; lia. }
  assert (Hh1 : history same_id c (log0 ++ log) m) by by eapply steps_app.
  assert (Hl1 : N.of_nat (length (log0 ++ log)) < p63) by (rewrite !app_length in *; cbn in *; lia).
  assert (Hl0 : N.of_nat (length log0) < p63) by (rewrite !app_length in *; cbn in *; lia).
  assert (Hr : reachable same_id c m) by (split; eauto).
  assert (Hr' : reachable same_id c m').
  { split; [done|]. exists (log0 ++ log ++ [mk_entry o r (emitted m m')]). split; [|done].
    eapply steps_app; [exact Hh|]. by econstructor. }
  destruct (origin _ _ _ _ _ _ _ _ Hr Hty He Hy) as [(y0&Hy0&Hyi&Hyc&Hyq)|(p&sm&Hacc&Hp&<-)].
  2:{ pose proof (posted_seq_of _ _ _ _ _ _ _ Hacc Hp). rewrite Hid in *.
      pose proof (resting_seq _ _ _ _ _ _ Hc Hh Hl0 Hx).
      pose proof (steps_seq same_id c log0 m0 log m Hc Hh Hs Hl1). lia. }
  destruct (IH Hl1 Hx y0 Hy0 ltac:(congruence)) as [IH1 IH2].
  rewrite events_about_app, events_about_one, sum_app. cbn [en_events].
  assert (Hq : o_qty y + sumN fill_base (about (o_id x) (emitted m m')) = o_qty y0).
  { destruct (life_step same_id c m o r m' sd y0 Hr Hty He Hy0)
      as [(_&_&x'&Hx'&Hi&Hcb&Hq)|[(F1&q&HF&_&_&_&Hg)|(_&_&Hg)]].
    - pose proof (resting_nodup same_id c m' sd Hr') as Hnd.
      assert (Eq : qty_in (resting m' sd) (o_id x') = qty_in (resting m' sd) (o_id y)) by congruence.
      rewrite !qty_in_in in Eq by done. rewrite Hyi, Hid in Hq. lia.
    - exfalso. apply (Hg sd). rewrite Hyi. by apply elem_of_list_fmap_1.
    - exfalso. apply (Hg sd). rewrite Hyi. by apply elem_of_list_fmap_1. }
  split; [lia|].
  pose proof (waiting_step c m o r m' sd y0 y Hr Hty He (resting_nodup same_id c m' sd Hr') Hy0 Hy ltac:(congruence)
    (resting_seq _ _ _ _ _ _ Hc Hh1 Hl1 Hy0)) as Hst.
  assert (Ei : o_id y0 = o_id x) by congruence. rewrite Ei in Hst.
  unfold traded_at in *. rewrite flat_map_app, List.filter_app, sum_app. cbn [flat_map en_events].
  rewrite app_nil_r. lia.
Qed.
End Market.
