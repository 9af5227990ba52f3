(** * CatchProofs.v: following the book from a loaded side; sides loaded at different moments (C100) *)
From Verif Require Import Machine Bytes Critbit EventQueue OrderBook Market Spec MachineProofs
  TreeProofs SlabProofs SlabProofs2 QueueProofs IdProofs Engine BookProofs EngineProofs
  MarketProofs MarketFacts NewOrderProps NewOrderProps2 SelfTradeProps InstrProps HistoryProps
  CatchSpec.
From Coq Require Import ZifyBool ZifyNat ZifyN.

Section Catch.
Context {C : Type} (same_id : C -> C -> bool).
Implicit Types m : market C.
Implicit Types c : config C.
Implicit Types log : list (entry C).

Lemma follow_side c log0 m0 log m sd : config_ok c -> history same_id c log0 m0 -> steps same_id m0 log m ->
  N.of_nat (length (log0 ++ log)) < p63 ->
  forall o, o ∈ resting m sd <-> o ∈ follow (resting m0 sd) log /\ side_of_id (o_id o) = sd.
Proof.
  intros Hc Hh Hs. unfold follow. induction Hs as [|log m o r m' Hs IH Hty He]; intros Hl x.
  { cbn [fold_left]. split; [|by intros [? _]]. intros Hx. split; [done|].
    eapply (book_facts same_id c m0); [|done]. split; [done|]. exists log0. split; [done|]. by rewrite app_nil_r in Hl. }
  rewrite !app_length in Hl. cbn [length] in Hl.
  assert (Hr : reachable same_id c m).
  { split; [done|]. exists (log0 ++ log). split; [by eapply steps_app|]. rewrite app_length. lia. }
  rewrite (step_effect _ _ _ _ _ _ Hr Hty He), fold_left_app. cbn [fold_left]. unfold replay_entry at 1.
  rewrite elem_of_app, elem_delete_ids. rewrite !elem_apply_events.
  specialize (IH ltac:(rewrite app_length; lia)). split.
  - intros [[(o0&Ho0&Ha) Hn]|[Hp Hsd]]; [|by split; [right|]].
    apply IH in Ho0 as [Ho0 Hsd]. apply acts_id in Ha as Hid. rewrite Hid. split; [|done].
    left. rewrite <- Hid. split; [eauto|done].
  - intros [[[(o0&Ho0&Ha) Hn]|Hp] Hsd]; [left|by right].
    split; [|done]. exists o0. split; [|done]. apply IH. split; [done|].
    apply acts_id in Ha. congruence.
Qed.

(** An order that is there later was there before, or was posted in between. *)
Lemma there_or_posted c log0 m0 log m sd o : config_ok c -> history same_id c log0 m0 -> steps same_id m0 log m ->
  N.of_nat (length (log0 ++ log)) < p63 -> o ∈ resting m sd ->
  o_id o ∈ map o_id (resting m0 sd) \/ o_id o ∈ posted_ids log.
Proof.
  intros Hc Hh Hs Hl Ho. assert (Hh1 : history same_id c (log0 ++ log) m) by by eapply steps_app.
  assert (Hid : o_id o ∈ map o_id (resting m sd)) by by apply elem_of_list_fmap_1.
  pose proof (resting_posted _ _ _ _ _ Hc Hh1 Hl _ Hid) as Hp. rewrite posted_ids_app, elem_of_app in Hp.
  destruct Hp as [Hp|Hp]; [|by right]. left.
  assert (Hr0 : reachable same_id c m0) by by eapply history_reachable.
  assert (Hr : reachable same_id c m) by (split; [done|]; by exists (log0 ++ log)).
  destruct (decide (o_id o ∈ map o_id (resting m0 Bid))) as [HB|HB].
  { apply elem_of_list_fmap in HB as (x&E&Hx). pose proof (proj1 (book_facts _ _ _ _ _ Hr0 Hx)) as H1.
    pose proof (proj1 (book_facts _ _ _ _ _ Hr Ho)) as H2. rewrite E, H1 in H2. subst sd. rewrite E. by apply elem_of_list_fmap_1. }
  destruct (decide (o_id o ∈ map o_id (resting m0 Ask))) as [HA|HA].
  { apply elem_of_list_fmap in HA as (x&E&Hx). pose proof (proj1 (book_facts _ _ _ _ _ Hr0 Hx)) as H1.
    pose proof (proj1 (book_facts _ _ _ _ _ Hr Ho)) as H2. rewrite E, H1 in H2. subst sd. rewrite E. by apply elem_of_list_fmap_1. }
  exfalso. eapply (gone_forever same_id c log0 m0 log m (o_id o)); try done. intros []; done.
Qed.
Lemma not_crossed c m sd x y : reachable same_id c m -> x ∈ resting m sd -> y ∈ resting m (opposite sd) ->
  ~ crossing sd (id_price (o_id x)) (id_price (o_id y)).
Proof.
  intros Hr Hx Hy. destruct sd; cbn in *.
  - pose proof (never_crossed _ _ _ _ _ Hr Hx Hy). lia.
  - pose proof (never_crossed _ _ _ _ _ Hr Hy Hx). lia.
Qed.
Lemma crossed_means c log0 m0 log m sd x y : config_ok c -> history same_id c log0 m0 -> steps same_id m0 log m ->
  N.of_nat (length (log0 ++ log)) < p63 -> x ∈ resting m0 sd -> y ∈ resting m (opposite sd) ->
  crossing sd (id_price (o_id x)) (id_price (o_id y)) -> gone m (o_id x) /\ o_id y ∈ posted_ids log.
Proof.
  intros Hc Hh Hs Hl Hx Hy Hcr.
  assert (Hr0 : reachable same_id c m0) by by eapply history_reachable.
  assert (Hr : reachable same_id c m) by (split; [done|]; exists (log0 ++ log); split; [by eapply steps_app|done]).
  split.
  - intros sd' Hin. apply elem_of_list_fmap in Hin as (x'&E&Hx').
    pose proof (proj1 (book_facts _ _ _ _ _ Hr0 Hx)) as H1. pose proof (proj1 (book_facts _ _ _ _ _ Hr Hx')) as H2.
    rewrite <- E, H1 in H2. subst sd'. rewrite E in Hcr. by apply (not_crossed _ _ _ _ _ Hr Hx' Hy).
  - destruct (there_or_posted _ _ _ _ _ _ _ Hc Hh Hs Hl Hy) as [Hin|?]; [|done]. exfalso.
    apply elem_of_list_fmap in Hin as (y'&E&Hy'). rewrite E in Hcr. by apply (not_crossed _ _ _ _ _ Hr0 Hx Hy').
Qed.
End Catch.
