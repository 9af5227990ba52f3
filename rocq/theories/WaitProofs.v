(** * WaitProofs.v: a side that nobody joins can only shrink (C96) *)
From Verif Require Import Machine Critbit EventQueue OrderBook Market Spec PartsSpec BestSpec LadderSpec OfferSpec WaitSpec
  OfferProofs PlaceProofs InterleaveProofs InstrProps HistoryProps PropsMarket PropsOrder.
From Coq Require Import ZifyBool ZifyNat ZifyN.

Section Wait.
Context {C : Type} (same_id : C -> C -> bool).
Notation steps := (steps same_id).

(** Every order of [l1] is in [l2], with the same owner and at least the same quantity. *)
Definition within (l1 l2 : list (order C)) : Prop :=
  forall o, o ∈ l1 -> exists o', o' ∈ l2 /\ o_id o' = o_id o /\ o_cb o' = o_cb o /\ o_qty o <= o_qty o'.
Lemma within_refl l : within l l.
Proof. intros o Ho. by exists o. Qed.
Lemma within_trans a b d : within a b -> within b d -> within a d.
Proof.
  intros H1 H2 o Ho. destruct (H1 o Ho) as (o1&Hi&E1&E2&E3). destruct (H2 o1 Hi) as (o2&Hi2&F1&F2&F3).
  exists o2. split_and!; [done|congruence|congruence|lia].
Qed.
Lemma within_filter (f : order C -> bool) l : within (List.filter f l) l.
Proof. intros o Ho. exists o. split; [|done]. apply elem_of_list_In. apply elem_of_list_In, filter_In in Ho. tauto. Qed.
Lemma within_events E l : within (apply_events l E) l.
Proof.
  revert l. induction E as [|ev E IH]; intros l; [apply within_refl|]. cbn [apply_events fold_left].
  eapply within_trans; [apply IH|]. destruct ev as [e t1 t2|e t]; cbn [apply_event]; [|apply within_filter].
  intros o Ho. apply elem_of_list_fmap in Ho as (o'&->&Hi). exists o'. destruct (o_id o' =? fe_maker_id e); [|done].
  split_and!; [done|done|done|]. unfold o_qty at 1. cbn. lia.
Qed.
Lemma posted_posted (e : entry C) o : o ∈ posted_order e -> posted_id e = Some (o_id o).
Proof.
  unfold posted_order, posted_id. destruct (en_op e); try (intros H; by apply elem_of_nil in H).
  destruct (en_res e) as [[s|]|?|?|]; try (intros H; by apply elem_of_nil in H).
  destruct (posted_order_id s); intros H; [|by apply elem_of_nil in H]. apply elem_of_list_singleton in H as ->. done.
Qed.
Lemma within_replay sd (log1 : list (entry C)) (os : list (order C)) : nobody_joins sd log1 ->
  forall o : order C, o ∈ fold_left replay_entry log1 os -> side_of_id (o_id o) = sd ->
  exists o', o' ∈ os /\ o_id o' = o_id o /\ o_cb o' = o_cb o /\ o_qty o <= o_qty o'.
Proof.
  revert os. induction log1 as [|e log1 IH]; intros os Hn o Ho Hsd; [by exists o|]. cbn [fold_left] in Ho.
  destruct (IH (replay_entry os e)) with (o := o) as (o1&Hi&E1&E2&E3); [|done|done|].
  { intros e' id He. apply Hn. by right. }
  unfold replay_entry in Hi. apply elem_of_app in Hi as [Hi|Hi].
  - destruct (within_filter _ _ _ Hi) as (o2&Hi2&F1&F2&F3). destruct (within_events _ _ _ Hi2) as (o3&Hi3&G1&G2&G3).
    exists o3. split_and!; [done|congruence|congruence|lia].
  - exfalso. apply (Hn e (o_id o1)); [left|by apply posted_posted|]. by rewrite E1.
Qed.

Lemma wait_book c log m log1 m1 sd : config_ok c -> history same_id c log m -> steps m log1 m1 ->
  N.of_nat (length (log ++ log1)) < p63 -> nobody_joins sd log1 -> more_on_offer m1 m sd.
Proof.
  intros Hc Hh Hs Hl Hn o Ho. assert (Hh1 : history same_id c (log ++ log1) m1) by by eapply steps_app.
  apply (replay_ok _ _ _ _ Hc Hh1 Hl) in Ho as [Ho Hsd]. unfold replay in Ho. rewrite fold_left_app in Ho.
  destruct (within_replay sd log1 _ Hn o Ho Hsd) as (o'&Hi&E1&E2&E3). exists o'. split; [|done].
  eapply (replay_ok _ _ _ _ Hc Hh); [rewrite app_length in Hl; lia|]. split; [done|]. by rewrite E1.
Qed.
Lemma wait_accepted c log m log1 m1 p s s1 m' m1' : config_ok c -> history same_id c log m -> steps m log1 m1 ->
  N.of_nat (length (log ++ log1)) < p63 -> op_typed (NewOrder p) ->
  exec same_id (NewOrder p) m = (Ok (Some s), m') -> exec same_id (NewOrder p) m1 = (Ok (Some s1), m1') ->
  accepted same_id c m p s m' /\ accepted same_id c m1 p s1 m1'.
Proof.
  intros Hc Hh Hs Hl Hty E E1. split; (split; [|done]).
  - split; [done|]. exists log. split; [done|]. rewrite app_length in Hl. lia.
  - by eapply reach_steps.
Qed.
End Wait.
