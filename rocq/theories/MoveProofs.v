(** * MoveProofs.v: how the best prices move (C98) *)
From Verif Require Import Machine Critbit EventQueue OrderBook Market Spec NewOrderProps NewOrderProps2 HistoryProps PlaceProofs WaitSpec WaitProofs MoveSpec
  MarketFacts MoreProofs InstrProps PropsMarket PropsOrder PropsPlace.
From Coq Require Import ZifyBool ZifyNat ZifyN.

Section Move.
Context {C : Type} (same_id : C -> C -> bool).
Notation accepted := (accepted same_id).
Notation reachable := (reachable same_id).

Lemma better_trans sd a b d : better_price sd a b -> better_price sd b d -> better_price sd a d.
Proof. destruct sd; cbn; lia. Qed.
Lemma ahead_price sd i j : ahead sd i j -> ~ better_price sd (id_price j) (id_price i).
Proof. unfold ahead, better_price. destruct sd; lia. Qed.

(** There is a best price unless the side is empty. *)
Lemma best_of sd (l : list (order C)) : l <> [] ->
  exists o, o ∈ l /\ forall o', o' ∈ l -> ~ better_price sd (id_price (o_id o')) (id_price (o_id o)).
Proof.
  induction l as [|x l IH]; [done|]. intros _. destruct l as [|y l].
  { exists x. split; [left|]. intros o' Ho. apply elem_of_list_singleton in Ho as ->. destruct sd; cbn; lia. }
  destruct IH as (o&Ho&Hb); [done|].
  assert (D : better_price sd (id_price (o_id x)) (id_price (o_id o)) \/ ~ better_price sd (id_price (o_id x)) (id_price (o_id o)))
    by (destruct sd; cbn; lia).
  destruct D as [D|D].
  - exists x. split; [left|]. intros o' Ho'. apply elem_of_cons in Ho' as [->|Ho']; [destruct sd; cbn; lia|].
    specialize (Hb _ Ho'). revert D Hb. clear. destruct sd; cbn; lia.
  - exists o. split; [by right|]. intros o' Ho'. apply elem_of_cons in Ho' as [->|Ho']; [done|by apply Hb].
Qed.
Lemma best_exists (m : market C) sd (o : order C) : o ∈ resting m sd -> exists a, best_price m sd (Some a) /\ ~ better_price sd (id_price (o_id o)) a.
Proof.
  intros Ho. destruct (best_of sd (resting m sd)) as (x&Hx&Hb); [by intros E; rewrite E in Ho; apply elem_of_nil in Ho|].
  exists (id_price (o_id x)). split; [split; [by exists x|done]|]. by apply Hb.
Qed.

(** ** A side that nobody joins *)
Lemma subset_best (m m' : market C) sd : (forall o : order C, o ∈ resting m' sd -> exists o' : order C, o' ∈ resting m sd /\ o_id o' = o_id o) ->
  forall a', best_price m' sd (Some a') -> exists a, best_price m sd (Some a) /\ ~ better_price sd a' a.
Proof.
  intros H a' ((o&Ho&<-)&_). destruct (H o Ho) as (o'&Ho'&E). destruct (best_exists m sd o' Ho') as (a&Ha&Hn).
  exists a. by rewrite E in Hn.
Qed.

(** ** The sides of a new order *)
Lemma new_order_other c m p sm m' : accepted c m p sm m' ->
  forall a', best_price m' (opposite (p_side p)) (Some a') ->
  exists a, best_price m (opposite (p_side p)) (Some a) /\ ~ better_price (opposite (p_side p)) a' a.
Proof.
  intros H. apply subset_best. intros o Ho. destruct (C18_no_new_opposite _ _ _ _ _ _ _ H _ Ho) as (o'&Ho'&E&_). by exists o'.
Qed.
Lemma new_order_own c m p sm m' : accepted c m p sm m' ->
  forall b, best_price m (p_side p) (Some b) ->
  exists b', best_price m' (p_side p) (Some b') /\ ~ better_price (p_side p) b b' /\ (b' = b \/ b' = limit_price p).
Proof.
  intros H b ((o&Ho&Eo)&Hb). pose proof (C38_posted_visible _ _ _ _ _ _ _ H) as Hv.
  destruct (posted_order_id sm) as [id|] eqn:Ep.
  2:{ exists b. unfold best_price. rewrite Hv. split; [split; [by exists o|done]|]. split; [destruct (p_side p); cbn; lia|by left]. }
  destruct Hv as (Hv&_&_). destruct (posted_side _ _ _ _ _ _ _ H Ep) as [_ Epr].
  set (x := (mk_leaf id (total_base_qty_posted sm), p_callback p) : order C) in *.
  assert (Hx : x ∈ resting m' (p_side p)) by (rewrite Hv; left).
  assert (Expr : id_price (o_id x) = limit_price p) by exact Epr.
  destruct (best_exists _ _ _ Hx) as (b'&Hb'&Hxb). exists b'. split; [done|]. destruct Hb' as ((y&Hy&Ey)&Hb').
  assert (Hn : ~ better_price (p_side p) b b').
  { intros Hbb. destruct (about (o_id o) (emitted m m')) as [|ev l] eqn:Ea.
    - apply (Hb' o); [rewrite Hv; right; by apply apply_events_untouched|by rewrite Eo].
    - assert (ev ∈ about (o_id o) (emitted m m')) as [Hev Eid]%about_in by (rewrite Ea; left).
      destruct (C26_eviction _ _ _ _ _ _ _ H) as [G1 G2]. cbn zeta in G1, G2.
      destruct (G1 ev Hev) as [F1 F2]; [rewrite Eid; by apply elem_of_list_fmap_1|].
      destruct (G2 F1 F2) as (w&E&_&_&Hbw&EE&HE&_). rewrite EE in Hev. apply elem_of_app in Hev as [Hev|Hev].
      + apply (HE _ Hev). rewrite Eid. by apply elem_of_list_fmap_1.
      + apply elem_of_list_singleton in Hev as ->. cbn in Eid. rewrite Eid, Eo in Hbw. apply Hxb. rewrite Expr. by eapply better_trans. }
  split; [done|]. rewrite Hv in Hy. apply elem_of_cons in Hy as [->|Hy]; [right; by rewrite <- Ey|]. left.
  assert (Hi : o_id y ∈ map o_id (resting m (p_side p))) by (eapply apply_events_ids, elem_of_list_fmap_1; exact Hy).
  apply elem_of_list_fmap in Hi as (z&Ez&Hz). specialize (Hb z Hz). rewrite <- Ez, Ey in Hb.
  revert Hn Hb. clear. destruct (p_side p); cbn; lia.
Qed.

(** ** The prices of the trades *)
Lemma behind_event c m p sm m' E1 ev E2 id : accepted c m p sm m' -> emitted m m' = E1 ++ ev :: E2 ->
  event_id ev ∈ map o_id (resting m (opposite (p_side p))) ->
  id ∈ map o_id (apply_events (resting m (opposite (p_side p))) E1) ->
  ~ better_price (opposite (p_side p)) (id_price id) (id_price (event_id ev)).
Proof.
  intros H EE Hev Hid. destruct (C13_priority _ _ _ _ _ _ _ H _ _ _ EE Hev) as (x&Hx&Ex&Hbest).
  apply elem_of_list_fmap in Hid as (y&->&Hy). rewrite <- Ex.
  destruct (decide (o_id y = o_id x)) as [->|Hne]; [destruct (opposite _); cbn; lia|].
  apply ahead_price, Hbest; [done|]. by intros ->.
Qed.
Lemma fill_there c m p sm m' ev : accepted c m p sm m' -> ev ∈ emitted m m' -> is_fill ev = true ->
  event_id ev ∈ map o_id (resting m (opposite (p_side p))).
Proof.
  intros H Hev Hf. destruct ev as [e mk tk|]; [|done]. by destruct (C14_limit_price _ _ _ _ _ _ _ H _ _ _ Hev).
Qed.
Lemma trades_between c m p sm m' ev : accepted c m p sm m' -> ev ∈ emitted m m' -> is_fill ev = true ->
  exists a, best_price m (opposite (p_side p)) (Some a) /\
    ~ better_price (opposite (p_side p)) (id_price (event_id ev)) a /\
    forall a', best_price m' (opposite (p_side p)) (Some a') -> ~ better_price (opposite (p_side p)) a' (id_price (event_id ev)).
Proof.
  intros H Hev Hf. pose proof (fill_there _ _ _ _ _ _ H Hev Hf) as Hin.
  pose proof Hin as Hin'. apply elem_of_list_fmap in Hin' as (o&Eo&Ho).
  destruct (best_exists _ _ _ Ho) as (a&Ha&Hn). exists a. split; [done|]. split; [by rewrite Eo|].
  intros a' ((o'&Ho'&<-)&_). apply elem_of_list_split in Hev as (E1&E2&EE).
  apply (behind_event _ _ _ _ _ _ _ _ _ H EE Hin). rewrite (C18_opposite_replay _ _ _ _ _ _ _ H), EE, apply_events_app in Ho'.
  eapply apply_events_ids, elem_of_list_fmap_1. exact Ho'.
Qed.
Lemma trades_in_order c m p sm m' E1 ev1 E2 ev2 E3 : accepted c m p sm m' -> emitted m m' = E1 ++ ev1 :: E2 ++ ev2 :: E3 ->
  is_fill ev1 = true -> is_fill ev2 = true ->
  ~ better_price (opposite (p_side p)) (id_price (event_id ev2)) (id_price (event_id ev1)).
Proof.
  intros H EE F1 F2.
  assert (H1 : ev1 ∈ emitted m m') by (rewrite EE; apply elem_of_app; right; left).
  assert (H2 : ev2 ∈ emitted m m') by (rewrite EE; apply elem_of_app; right; right; apply elem_of_app; right; left).
  apply (behind_event _ _ _ _ _ _ _ _ _ H EE (fill_there _ _ _ _ _ _ H H1 F1)).
  assert (EE' : emitted m m' = (E1 ++ ev1 :: E2) ++ ev2 :: E3) by (by rewrite <- app_assoc).
  destruct (C13_priority _ _ _ _ _ _ _ H _ _ _ EE' (fill_there _ _ _ _ _ _ H H2 F2)) as (x&Hx&Ex&_).
  rewrite <- Ex. rewrite apply_events_app in Hx. eapply apply_events_ids, elem_of_list_fmap_1. exact Hx.
Qed.

(** ** Over any number of instructions *)
Lemma step_leaves c log m e m' sd b : config_ok c -> history same_id c log m -> steps same_id m [e] m' ->
  N.of_nat (length (log ++ [e])) < p63 -> leaves_alone sd e -> best_price m sd (Some b) ->
  exists b', best_price m' sd (Some b') /\ ~ better_price sd b b' /\ (b' = b \/ asks_price e b').
Proof.
  intros Hc Hh Hs Hl Ha Hb. pose proof (history_reachable _ _ _ _ _ _ Hc Hh Hs Hl) as Hr.
  destruct (steps_one _ _ _ _ Hs) as (Hty&He&_). unfold leaves_alone in Ha.
  assert (Hsame : forall m1 : market C, resting m1 sd = resting m sd ->
    exists b', best_price m1 sd (Some b') /\ ~ better_price sd b b' /\ (b' = b \/ asks_price e b')).
  { intros m1 E. exists b. split; [unfold best_price; by rewrite E|]. split; [destruct sd; cbn; lia|by left]. }
  destruct (is_ok (en_res e)) eqn:Eok; [|by apply Hsame; rewrite (C48_failed_no_effect _ _ _ _ _ _ He Eok)].
  specialize (Ha eq_refl). destruct (en_op e) as [p|id|ids|n] eqn:Eo; try done.
  - subst sd. assert (exists sm, en_res e = Ok (Some sm)) as (sm&Es).
    { destruct (C27_outcomes _ _ _ _ _ _ _ Hr Hty He) as [[sm E]|(_&[E|[E|E]])]; rewrite E in Eok |- *; try done. by exists sm. }
    rewrite Es in He.
    destruct (new_order_own _ _ _ _ _ (conj Hr (conj Hty He)) _ Hb) as (b'&Hb'&Hn&D). exists b'. split; [done|]. split; [done|].
    destruct D as [->| ->]; [by left|]. right. by exists p.
  - destruct (C32_consume _ same_id _ _ n Hr) as (m1&E&_&Eb&Ea&_). rewrite E in He. injection He as _ <-.
    apply Hsame. unfold resting. destruct sd; cbn; by rewrite ?Eb, ?Ea.
Qed.
Lemma steps_leave c log m log1 m1 sd b : config_ok c -> history same_id c log m -> steps same_id m log1 m1 ->
  N.of_nat (length (log ++ log1)) < p63 -> Forall (leaves_alone sd) log1 -> best_price m sd (Some b) ->
  exists b', best_price m1 sd (Some b') /\ ~ better_price sd b b' /\ (b' = b \/ exists e, e ∈ log1 /\ asks_price e b').
Proof.
  intros Hc Hh. revert m1. induction log1 as [|e log1 IH] using rev_ind; intros m1 Hs Hl Hf Hb.
  { inversion Hs as [|? ? ? ? ? ? ? ? Hx]; [subst|by destruct log0]. exists b. split; [done|]. split; [destruct sd; cbn; lia|by left]. }
  apply steps_split in Hs as (m2&H1&H2). apply Forall_app in Hf as [Hf1 Hf2]. rewrite !app_length in Hl. cbn in Hl.
  destruct (IH m2 H1) as (b'&Hb'&Hn&D); [rewrite app_length; lia|done|done|].
  pose proof (steps_app _ _ _ _ Hh _ _ H1) as Hh2.
  destruct (step_leaves c (log ++ log1) m2 e m1 sd b' Hc Hh2 H2) as (b2&Hb2&Hn2&D2);
    [rewrite !app_length; cbn; lia|by inversion Hf2|done|].
  exists b2. split; [done|]. split; [revert Hn Hn2; clear; destruct sd; cbn; lia|].
  destruct D2 as [->|D2]; [destruct D as [->|(x&Hx&Hp)]; [by left|]|].
  - right. exists x. split; [apply elem_of_app; by left|done].
  - right. exists e. split; [apply elem_of_app; right; left|done].
Qed.
Lemma cheaper_newer c log1 e1 log2 e2 log3 m sd ev1 ev2 : config_ok c ->
  history same_id c (log1 ++ e1 :: log2 ++ e2 :: log3) m -> N.of_nat (length (log1 ++ e1 :: log2 ++ e2 :: log3)) < p63 ->
  ev1 ∈ en_events e1 -> ev2 ∈ en_events e2 -> is_fill ev1 = true -> is_fill ev2 = true ->
  side_of_id (event_id ev1) = sd -> side_of_id (event_id ev2) = sd ->
  better_price sd (id_price (event_id ev2)) (id_price (event_id ev1)) -> event_id ev2 ∈ posted_ids log2.
Proof.
  intros Hc Hh Hl H1 H2 F1 F2 S1 S2 Hb.
  replace (log1 ++ e1 :: log2 ++ e2 :: log3) with (log1 ++ [e1] ++ log2 ++ [e2] ++ log3) in Hh, Hl by done.
  apply steps_split in Hh as (m1&Ha&Hh). apply steps_split in Hh as (m2&He1&Hh). apply steps_split in Hh as (m3&Hm&Hh).
  apply steps_split in Hh as (m4&He2&_). rewrite !app_length in Hl. cbn in Hl.
  assert (R1 : reachable c m1) by (split; [done|]; exists log1; split; [done|lia]).
  pose proof (steps_app _ _ _ _ Ha _ _ He1) as Ha2. pose proof (steps_app _ _ _ _ Ha2 _ _ Hm) as Ha3.
  assert (R3 : reachable c m3) by (split; [done|]; exists ((log1 ++ [e1]) ++ log2); split; [done|rewrite !app_length; cbn; lia]).
  destruct (steps_one _ _ _ _ He1) as (Hty1&Hx1&Ev1). destruct (steps_one _ _ _ _ He2) as (Hty2&Hx2&Ev2).
  rewrite Ev1 in H1. rewrite Ev2 in H2.
  destruct (fill_of _ _ _ _ _ _ _ R1 Hty1 Hx1 H1 F1) as (p1&s1&Eo1&_&I1&Q1).
  destruct (fill_of _ _ _ _ _ _ _ R3 Hty2 Hx2 H2 F2) as (p2&s2&_&_&I2&Q2).
  rewrite <- Q1, S1 in I1. rewrite <- Q2, S2 in I2.
  assert (Hl3 : N.of_nat (length ((log1 ++ [e1]) ++ log2)) < p63) by (rewrite !app_length; cbn; lia).
  destruct (C11_resting_posted _ _ _ _ _ sd Hc Ha3 Hl3) as [Hp3 _]. pose proof (Hp3 _ I2) as Hp.
  unfold posted_ids in Hp |- *. rewrite !omap_app in Hp. apply elem_of_app in Hp as [Hp|Hp]; [|done]. exfalso.
  apply elem_of_app in Hp as [Hp|Hp].
  2:{ (* the first trade's own instruction posts on the other side *)
    cbn in Hp. destruct (posted_id e1) as [i|] eqn:Ei; [|by apply elem_of_nil in Hp]. apply elem_of_list_singleton in Hp. subst i.
    destruct (C12_id_encodes _ _ _ _ _ _ _ _ Hc Ha ltac:(lia) He1 Ei) as (p&Ep&_&Es&_). rewrite Eo1 in Ep. injection Ep as <-.
    rewrite S2 in Es. rewrite S1, Es in Q1. by destruct (p_side p1). }
  assert (G : gone m2 (event_id ev2)).
  { destruct (decide (event_id ev2 ∈ map o_id (resting m1 sd))) as [Hin|Hout].
    - apply elem_of_list_fmap in Hin as (w&Ew&Hw). apply elem_of_list_fmap in I1 as (x&Ex&Hx). rewrite Ew.
      eapply (C71_no_overtaking _ same_id c log1 m1 [e1] m2 sd x w ev1 Hc Ha He1); [rewrite app_length; cbn; lia|done|done| | |done].
      + left. by rewrite <- Ew, <- Ex.
      + unfold events_about. cbn. rewrite app_nil_r, Ev1. apply about_in. done.
    - intros sd'. apply (C11_gone_forever _ _ _ _ _ _ _ _ Hc Ha He1); [rewrite app_length; cbn; lia|exact Hp|].
      intros sd2 Hi. pose proof Hi as Hi'. apply elem_of_list_fmap in Hi' as (z&Ez&Hz).
      pose proof (C12_on_its_side _ _ _ _ _ _ R1 Hz) as Es. rewrite <- Ez, S2 in Es. by subst sd2. }
  assert (Hp2 : event_id ev2 ∈ posted_ids (log1 ++ [e1])) by (unfold posted_ids; rewrite omap_app; apply elem_of_app; by left).
  exact (C11_gone_forever _ _ _ _ _ _ _ _ Hc Ha2 Hm Hl3 Hp2 G sd I2).
Qed.
End Move.
