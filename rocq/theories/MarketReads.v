(** * MarketReads.v: consequences of the market lemmas in the form of the properties *)
From Verif Require Import Machine Critbit EventQueue OrderBook Market Spec DataSpec.
From Verif Require Import MachineProofs SlabProofs SlabProofs2 QueueProofs BookProofs MarketProofs MarketFacts InstrProps HistoryProps LifeProps.
From Coq Require Import ZifyBool ZifyNat ZifyN.

Section Reads.
Context {C : Type} (same_id : C -> C -> bool).
Implicit Types m : market C.
Implicit Types c : config C.

Lemma resting_posted_nodup c log m sd :
  config_ok c -> history same_id c log m -> N.of_nat (length log) < p63 ->
  (forall id, id ∈ map o_id (resting m sd) -> id ∈ posted_ids log) /\
  NoDup (map o_id (resting m sd)).
Proof.
  intros Hc Hh Hl. split; [by eapply resting_posted|]. eapply resting_nodup. split; eauto.
Qed.
Lemma on_its_side c m sd o : reachable same_id c m -> o ∈ resting m sd -> side_of_id (o_id o) = sd.
Proof. intros Hr Ho. by destruct (book_facts _ _ _ _ _ Hr Ho) as (?&_). Qed.
Lemma no_dust c m sd o : reachable same_id c m -> o ∈ resting m sd -> c_min c <= o_qty o /\ 0 < o_qty o.
Proof.
  intros Hr Ho. destruct (book_facts _ _ _ _ _ Hr Ho) as (_&?&_). destruct Hr as [Hc _].
  unfold config_ok in Hc. lia.
Qed.
Lemma resting_tick c m sd o : reachable same_id c m -> o ∈ resting m sd ->
  (c_tick c | id_price (o_id o)) /\ 0 < id_price (o_id o) < p64.
Proof. intros Hr Ho. by destruct (book_facts _ _ _ _ _ Hr Ho) as (_&_&?&?&_). Qed.
Lemma order_value c m sd o : reachable same_id c m -> o ∈ resting m sd ->
  o_qty o * id_price (o_id o) / p32 < p64.
Proof.
  intros Hr Ho. destruct (book_facts _ _ _ _ _ Hr Ho) as (_&_&_&_&_&_&Hv).
  apply N.div_lt_upper_bound; lia.
Qed.

Lemma cancel_absent_cases c m id : reachable same_id c m ->
  id ∉ map o_id (resting m (side_of_id id)) ->
  (~ stale_slot (tree (m_book m) (side_of_id id)) id ->
     exec same_id (CancelOrder id) m = (Err OrderNotFound, m)) /\
  (stale_slot (tree (m_book m) (side_of_id id)) id ->
     exec same_id (CancelOrder id) m = (Panic PIndex, m)).
Proof.
  intros Hr Hni. rewrite (cancel_absent _ _ _ _ Hr Hni).
  assert (Hst : stale m (side_of_id id) id = true <-> stale_slot (tree (m_book m) (side_of_id id)) id).
  { assert (Hlc : leaf_count (hdr (tree (m_book m) (side_of_id id))) =
                  N.of_nat (length (resting m (side_of_id id)))).
    { apply reachable_minv in Hr as (L&pend&Hm&_). rewrite (minv_resting _ _ _ _ _ Hm), prio_length.
      eapply lrep_count. apply (mi_rep _ _ _ _ Hm). }
    unfold stale, stale_slot, slot0_key. rewrite Hlc. split.
    - intros [H1 H2]%andb_prop. apply Nat.eqb_eq in H1. apply bool_decide_eq_true in H2.
      split; [lia|]. destruct (getN _ 0) as [[k q]|]; [|done]. cbn in H2. exists q. congruence.
    - intros [H1 (q&H2)]. rewrite H2. cbn. rewrite bool_decide_true by done.
      rewrite (proj2 (Nat.eqb_eq _ _)) by lia. done. }
  split; intros H.
  - destruct (stale _ _ _); [|done]. destruct H. by apply Hst.
  - by rewrite (proj2 Hst H).
Qed.

Lemma filter_fills sd id cb (F : list (event_ref C)) : Forall (maker_fill sd id cb) F ->
  List.filter is_fill F = F.
Proof. induction 1 as [|ev F Hev _ IH]; [done|]. cbn. destruct ev; [|done]. cbn. by rewrite IH. Qed.

Lemma solvency c log m log1 e log2 p sm id :
  config_ok c -> history same_id c log m -> N.of_nat (length log) < p63 -> log = log1 ++ e :: log2 ->
  en_op e = NewOrder p -> en_res e = Ok (Some sm) -> posted_order_id sm = Some id ->
  let fills := List.filter is_fill (events_about id log) in
  let left_ := total_base_qty_posted sm - sumN fill_base fills in
  sumN fill_base fills <= total_base_qty_posted sm /\
  match p_side p with
  | Bid => sumN fill_quote fills + left_ * limit_price p / p32
             <= quote_amount Bid (total_base_qty_posted sm) (limit_price p)
  | Ask => sumN fill_base fills * limit_price p <= sumN fill_quote fills * p32
  end.
Proof.
  intros Hc Hh Hl Hlog Ho Hr Hp fills left_.
  destruct (order_life same_id c log m log1 e log2 p sm id Hc Hh Hl Hlog Ho Hr Hp) as (F&HF&Hcases).
  assert (Hprice : id_price id = limit_price p).
  { subst log. change (e :: log2) with ([e] ++ log2) in Hh.
    apply steps_split in Hh as (m1&H1&H2). apply steps_split in H2 as (m2&H2&H3).
    destruct (posted_encodes same_id c log1 m1 e m2 id Hc H1) as (p'&Hp'&Hpr&_).
    - rewrite app_length in Hl. lia.
    - done.
    - unfold posted_id. by rewrite Hr.
    - congruence. }
  assert (Hfills : fills = F /\ exists r, sumN fill_base F + r = total_base_qty_posted sm).
  { subst fills. destruct Hcases as [(He&_&y&_&_&_&Hs)|[(q&He&_&_&Hs)|(la&e'&lb&ma&_&_&He&_&_&_&_&y&_&_&_&Hs)]].
    - rewrite He. split; [by eapply filter_fills|eauto].
    - rewrite He, List.filter_app, (filter_fills _ _ _ _ HF). cbn. rewrite app_nil_r. eauto.
    - rewrite He. split; [by eapply filter_fills|eauto]. }
  destruct Hfills as [Hf (r&Hs)]. subst left_. rewrite Hf. split; [lia|].
  replace (total_base_qty_posted sm - sumN fill_base F) with r by lia.
  rewrite <- Hprice. destruct (p_side p).
  - by eapply bid_solvent.
  - by eapply ask_fills_quote.
Qed.
End Reads.
