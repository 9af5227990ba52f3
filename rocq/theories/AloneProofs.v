(** * AloneProofs.v: a group trading alone with the book (C77) *)
From Verif Require Import Machine Critbit EventQueue OrderBook Market Spec BookProofs MarketProofs MarketFacts
  NewOrderProps InstrProps HistoryProps EngineProofs PlaceProofs AloneSpec.
From Coq Require Import ZifyBool ZifyNat ZifyN.

Section Alone.
Context {C : Type} (same_id : C -> C -> bool) (mine : C -> bool).

Lemma others_step c m o r m' sd z : reachable same_id c m -> op_typed o -> exec same_id o m = (r, m') ->
  (forall p, o = NewOrder p -> mine (p_callback p) = true) -> z ∈ resting m' sd -> mine (o_cb z) = false ->
  exists z0, z0 ∈ resting m sd /\ o_id z0 = o_id z /\ o_cb z0 = o_cb z.
Proof.
  intros Hr Hty He Hm Hz Hmz. apply (step_effect _ _ _ _ _ _ Hr Hty He) in Hz as [[Hz _]|[Hz Hs]].
  - apply elem_apply_events in Hz as (z0&Hz0&Ha). exists z0.
    apply (acts_le same_id) in Ha as Hb. apply acts_id in Ha as Hi. destruct Hb. split_and!; try done; congruence.
  - unfold posted_order in Hz. cbn [en_op en_res] in Hz.
    destruct o as [p| | |]; try (by apply elem_of_nil in Hz).
    destruct r as [[sm|]| | |]; try (by apply elem_of_nil in Hz).
    destruct (posted_order_id sm) as [id|] eqn:Hp; [|by apply elem_of_nil in Hz].
    apply elem_of_list_singleton in Hz as ->. unfold o_cb in Hmz. cbn [snd] in Hmz. rewrite Hm in Hmz; done.
Qed.

Lemma others_steps c log0 m0 log m : config_ok c -> history same_id c log0 m0 ->
  steps same_id m0 log m -> N.of_nat (length (log0 ++ log)) < p63 -> only_mine mine log ->
  (forall sd z, z ∈ resting m sd -> mine (o_cb z) = false ->
     exists z0, z0 ∈ resting m0 sd /\ o_id z0 = o_id z /\ o_cb z0 = o_cb z) /\
  (forall taker ev, ev ∈ flat_map en_events log -> with_others mine taker ev = true ->
     exists z0, z0 ∈ resting m0 (opposite taker) /\ mine (o_cb z0) = false /\ 0 < fill_base ev /\
     match taker with
     | Bid => fill_base ev * id_price (o_id z0) <= fill_quote ev * p32
     | Ask => fill_quote ev * p32 <= fill_base ev * id_price (o_id z0)
     end).
Proof.
  intros Hc Hh Hs. induction Hs as [|log m o r m' Hs IH Hty He]; intros Hl Hmine.
  { split; [intros; by eexists|]. intros taker ev Hev. by apply elem_of_nil in Hev. }
  assert (Hh1 : history same_id c (log0 ++ log) m) by by eapply steps_app.
  assert (Hl1 : N.of_nat (length (log0 ++ log)) < p63) by (rewrite !app_length in *; cbn in *; lia).
  assert (Hr : reachable same_id c m) by (split; eauto).
  assert (Hm1 : only_mine mine log) by (intros e p Hin; apply Hmine; apply elem_of_app; by left).
  assert (Hm2 : forall p, o = NewOrder p -> mine (p_callback p) = true).
  { intros p ->. apply (Hmine (mk_entry (NewOrder p) r (emitted m m')) p); [|done].
    apply elem_of_app. right. by apply elem_of_list_singleton. }
  destruct (IH Hl1 Hm1) as [IHo IHf]. split.
  - intros sd z Hz Hmz. destruct (others_step _ _ _ _ _ _ _ Hr Hty He Hm2 Hz Hmz) as (z1&Hz1&Hi1&Hc1).
    destruct (IHo sd z1 Hz1) as (z0&Hz0&Hi0&Hc0); [congruence|]. exists z0. split_and!; congruence.
  - intros taker ev Hev Hw. rewrite flat_map_app in Hev. apply elem_of_app in Hev as [Hev|Hev]; [by apply IHf|].
    cbn [flat_map en_events] in Hev. rewrite app_nil_r in Hev.
    destruct (emits_new _ _ _ _ _ _ _ Hr Hty He Hev) as (p&sm&->&_&Hacc).
    destruct ev as [e mk tk|e cb]; [|done]. cbn in Hw. apply andb_true_iff in Hw as [Hsd Hmk].
    apply negb_true_iff in Hmk.
    destruct (fill_parties _ _ _ _ _ _ Hacc _ _ _ Hev) as (Hside&_&z&Hz&Hzi&Hzc).
    destruct (fill_amounts _ _ _ _ _ _ Hacc _ _ _ Hev) as (Hb&_&_&Hq).
    assert (Ht : taker = p_side p).
    { apply N.eqb_eq in Hsd. rewrite Hside in Hsd. by destruct (p_side p), taker. }
    destruct (IHo _ z Hz) as (z0&Hz0&Hi0&Hc0); [congruence|]. exists z0. rewrite Ht.
    split_and!; [done|congruence|done|]. rewrite Hi0, Hzi. cbn [fill_base fill_quote].
    destruct (p_side p); lia.
Qed.

Lemma top_price (l : list N) : exists P, (forall x, x ∈ l -> x <= P) /\ (P = 0 \/ P ∈ l).
Proof.
  induction l as [|x l (P&H1&H2)]; [exists 0; split; [intros x Hx; by apply elem_of_nil in Hx|by left]|].
  exists (N.max x P). split.
  - intros y Hy. apply elem_of_cons in Hy as [->|Hy]; [lia|]. specialize (H1 y Hy). lia.
  - destruct (N.max_spec x P) as [[_ ->]|[_ ->]].
    + destruct H2 as [->|H2]; [by left|right; by apply elem_of_list_further].
    + right. apply elem_of_list_here.
Qed.

Lemma wrong_side c log0 m0 log m : config_ok c -> history same_id c log0 m0 ->
  steps same_id m0 log m -> N.of_nat (length (log0 ++ log)) < p63 -> only_mine mine log ->
  exists P, received mine log * p32 <= sold mine log * P /\
    bought mine log * P <= paid mine log * p32 /\
    (0 < bought mine log -> bought mine log * P < paid mine log * p32).
Proof.
  intros Hc Hh Hs Hl Hm. destruct (others_steps _ _ _ _ _ Hc Hh Hs Hl Hm) as [_ Hf].
  assert (Hr : reachable same_id c m0) by (by eapply history_reachable).
  destruct (top_price (map (fun o => id_price (o_id o)) (resting m0 Bid))) as (P&HP1&HP2).
  assert (HA : forall a, a ∈ resting m0 Ask -> P < id_price (o_id a)).
  { intros a Ha. destruct HP2 as [->|HP2]; [by apply (book_facts _ _ _ _ _ Hr Ha)|].
    apply elem_of_list_fmap in HP2 as (b&->&Hb). by eapply never_crossed. }
  assert (HB : forall b, b ∈ resting m0 Bid -> id_price (o_id b) <= P).
  { intros b Hb. apply HP1. apply elem_of_list_fmap. by exists b. }
  exists P. unfold received, sold, bought, paid, trades.
  revert Hf. generalize (flat_map en_events log). intros E Hf.
  assert (HE : sumN fill_quote (List.filter (with_others mine Ask) E) * p32 <= sumN fill_base (List.filter (with_others mine Ask) E) * P /\
    (sumN fill_base (List.filter (with_others mine Bid) E) * P <= sumN fill_quote (List.filter (with_others mine Bid) E) * p32 /\
     (0 < sumN fill_base (List.filter (with_others mine Bid) E) ->
      sumN fill_base (List.filter (with_others mine Bid) E) * P < sumN fill_quote (List.filter (with_others mine Bid) E) * p32))); [|naive_solver].
  induction E as [|ev E IH]; [cbn; lia|].
  destruct IH as (I1&I2&I3); [intros taker ev' Hin; apply Hf; by apply elem_of_list_further|].
  cbn [List.filter]. split.
  - destruct (with_others mine Ask ev) eqn:Hw; [|done]. cbn [sumN].
    destruct (Hf Ask ev ltac:(apply elem_of_list_here) Hw) as (z&Hz&_&Hb&Hq). specialize (HB z Hz). cbn [opposite] in *. nia.
  - destruct (with_others mine Bid ev) eqn:Hw; [|done]. cbn [sumN].
    destruct (Hf Bid ev ltac:(apply elem_of_list_here) Hw) as (z&Hz&_&Hb&Hq). specialize (HA z Hz).
    assert (fill_base ev * P < fill_quote ev * p32) by nia. split; [lia|intros _]. lia.
Qed.

Lemma no_profit c log0 m0 log m : config_ok c -> history same_id c log0 m0 ->
  steps same_id m0 log m -> N.of_nat (length (log0 ++ log)) < p63 -> only_mine mine log ->
  sold mine log <= bought mine log ->
  received mine log <= paid mine log /\ (0 < bought mine log -> received mine log < paid mine log).
Proof.
  intros Hc Hh Hs Hl Hm Hle. destruct (wrong_side _ _ _ _ _ Hc Hh Hs Hl Hm) as (P&H1&H2&H3).
  assert (sold mine log * P <= bought mine log * P) by nia.
  assert (0 < p32) by done. split; [nia|]. intros Hb. specialize (H3 Hb). nia.
Qed.
End Alone.
