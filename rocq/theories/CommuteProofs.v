(** * CommuteProofs.v: posting and cancelling; the order of cancellations (C62, C63) *)
From Verif Require Import Machine Bytes Critbit EventQueue OrderBook Market Spec MoreSpec MachineProofs TreeProofs
  SlabProofs SlabProofs2 QueueProofs IdProofs Engine BookProofs EngineProofs MarketProofs MarketFacts
  NewOrderProps NewOrderProps2 InstrProps HistoryProps.
From Coq Require Import ZifyBool ZifyNat ZifyN.
From Coq Require Import Sorting.Sorted.

Section Commute.
Context {C : Type} (same_id : C -> C -> bool).
Implicit Types os : list (order C).
Implicit Types p : params C.
Implicit Types m : market C.
Implicit Types c : config C.
Implicit Types L : side -> list (order C).

Lemma del_ins sd (o : order C) os : o_id o ∉ map o_id os -> del (o_id o) (ins sd o os) = os.
Proof.
  induction os as [|x os IH]; intros Hni.
  - cbn. by rewrite N.eqb_refl.
  - apply not_elem_of_cons in Hni as [Hx Hni]. cbn [ins]. destruct (before _ _ _).
    + change (del (o_id o) (o :: x :: os)) with (List.filter (fun y => negb (o_id y =? o_id o)) (o :: (x :: os))).
      cbn [List.filter]. rewrite N.eqb_refl. cbn [negb]. apply (del_notin (o_id o) (x :: os)).
      apply not_elem_of_cons. done.
    + unfold del in *. cbn [List.filter]. destruct (N.eqb_spec (o_id x) (o_id o)) as [E|E]; [by rewrite E in Hx|].
      cbn [negb]. by rewrite IH.
Qed.
Lemma find_ins sd (o : order C) os : o_id o ∉ map o_id os -> find_order (o_id o) (ins sd o os) = Some o.
Proof.
  unfold find_order. induction os as [|x os IH]; intros Hni; cbn [ins].
  - cbn. by rewrite N.eqb_refl.
  - apply not_elem_of_cons in Hni as [Hx Hni]. destruct (before _ _ _); cbn [List.find].
    + by rewrite N.eqb_refl.
    + destruct (N.eqb_spec (o_id x) (o_id o)) as [E|E]; [by rewrite E in Hx|]. by apply IH.
Qed.
Theorem post_cancel c m p sm m' id : accepted same_id c m p sm m' -> reachable same_id c m' ->
  posted_order_id sm = Some id ->
  exists m'', exec same_id (CancelOrder id) m' =
      (Ok (Some (mk_summary None (total_base_qty_posted sm) (total_base_qty_posted sm * limit_price p / p32) 0)), m'') /\
    resting m'' (p_side p) = apply_events (resting m (p_side p)) (emitted m m') /\
    resting m'' (opposite (p_side p)) = resting m' (opposite (p_side p)) /\
    pending m'' = pending m'.
Proof.
  intros H Hr' Hid. pose proof H as Hacc. apply accepted_newo in H as (L&pend&l1&l&E1&E2&own'&opp'&Hn).
  destruct (posted_id_new _ _ _ _ _ _ _ Hacc Hid) as (Hide&Hs'&Hlp&_).
  pose proof (no_inv' _ _ _ _ _ _ _ _ _ _ _ _ _ _ Hn) as Hinv'.
  pose proof (no_inv _ _ _ _ _ _ _ _ _ _ _ _ _ _ Hn) as Hinv.
  pose proof (no_seq _ _ _ _ _ _ _ _ _ _ _ _ _ _ Hn) as Hsq.
  assert (Hsq' : seq_of m' < p63) by (by destruct (reachable_minv _ _ _ Hr') as (?&?&_&?)).
  assert (Hsd : side_of_id id = p_side p) by (rewrite Hide; by apply side_of_order_id).
  assert (Hfr : id ∉ map o_id (L (p_side p))) by (rewrite Hide; eapply minv_fresh; done).
  pose proof (exec_cancel same_id c m' _ _ id Hinv' Hsq') as Hc. cbn zeta in Hc. rewrite Hsd, sides_own, sides_opp in Hc.
  assert (Hown : exists own0, own' = ins (p_side p) (mk_leaf id (total_base_qty_posted sm), p_callback p) own0 /\
    id ∉ map o_id own0 /\ apply_events (L (p_side p)) (E1 ++ E2) = own0).
  { rewrite (no_apply_own _ _ _ _ _ _ _ _ _ _ _ _ _ _ Hn).
    destruct (no_post _ _ _ _ _ _ _ _ _ _ _ _ _ _ Hn) as
      [seq0 _|tp Hcr Hpa Htp Hmin Hlen|tp own0 w Hcr Hpa Htp Hmin Hlen Hown Hw];
      cbn [posted_order_id total_base_qty_posted] in *; [done| |].
    - exists (L (p_side p)). rewrite <- Hide. done.
    - exists own0. rewrite <- Hide. split; [done|]. rewrite Hown, removelast_last. split; [|done].
      intros Hin. apply Hfr. rewrite Hown, map_app. apply elem_of_app. by left. }
  destruct Hown as (own0&Ho&Hni&Happ). rewrite Ho in Hc.
  set (o := (mk_leaf id (total_base_qty_posted sm), p_callback p) : order C) in *.
  change id with (o_id o) in Hc, Hni. rewrite find_ins, del_ins in Hc by done.
  destruct Hc as (m''&Hex&Hinv''&Hq). exists m''.
  assert (Hop : o_price o = limit_price p).
  { change (o_price o) with (price_from_key id). rewrite Hide. apply price_of_order_id; lia. }
  unfold order_quote in Hex. rewrite Hop in Hex. split; [exact Hex|].
  rewrite !(minv_resting _ _ _ _ _ Hinv''), sides_own, sides_opp.
  split; [|split].
  - rewrite (no_rest0 _ _ _ _ _ _ _ _ _ _ _ _ _ _ Hn), apply_events_prio.
    by rewrite (no_emit _ _ _ _ _ _ _ _ _ _ _ _ _ _ Hn), Happ.
  - by rewrite (minv_resting _ _ _ _ _ Hinv'), sides_opp.
  - by rewrite (minv_pending _ _ _ _ Hinv''), (minv_pending _ _ _ _ Hinv').
Qed.

Theorem post_cancel_no_trace c m p sm m' id : accepted same_id c m p sm m' -> reachable same_id c m' ->
  posted_order_id sm = Some id -> emitted m m' = [] ->
  exists r m'', exec same_id (CancelOrder id) m' = (Ok (Some r), m'') /\
    (forall sd, resting m'' sd = resting m sd) /\ pending m'' = pending m /\
    total_base_qty r = total_base_qty sm /\
    total_quote_qty r <= total_quote_qty sm <= total_quote_qty r + 1 /\
    (p_side p = Ask -> total_quote_qty r = total_quote_qty sm).
Proof.
  intros H Hr' Hid He. destruct (post_cancel _ _ _ _ _ _ H Hr' Hid) as (m''&Hex&Hown&Hopp&Hpend).
  eexists _, m''. split; [exact Hex|]. cbn [total_base_qty total_quote_qty].
  pose proof (summary_sums _ _ _ _ _ _ H) as (Hb&Hq&_). rewrite He in Hb, Hq, Hown. rewrite Hid in Hq.
  cbn [sumN] in Hb, Hq.
  assert (Hop : resting m' (opposite (p_side p)) = resting m (opposite (p_side p))).
  { rewrite (opposite_replay _ _ _ _ _ _ H), He. reflexivity. }
  split; [|split; [|split]].
  - intros sd. assert (sd = p_side p \/ sd = opposite (p_side p)) as [->| ->] by (destruct sd, (p_side p); auto).
    + by rewrite Hown.
    + by rewrite Hopp, Hop.
  - rewrite Hpend. apply accepted_newo in H as (L&pend&l1&l&E1&E2&own'&opp'&Hn).
    rewrite (no_emit _ _ _ _ _ _ _ _ _ _ _ _ _ _ Hn) in He.
    rewrite (minv_pending _ _ _ _ (no_inv' _ _ _ _ _ _ _ _ _ _ _ _ _ _ Hn)), He, app_nil_r.
    by rewrite (minv_pending _ _ _ _ (no_inv _ _ _ _ _ _ _ _ _ _ _ _ _ _ Hn)).
  - rewrite Hb. lia.
  - rewrite Hq, N.add_0_l. set (x := total_base_qty_posted sm * limit_price p).
    assert (Hx : x / p32 <= (x + (p32 - 1)) / p32 <= x / p32 + 1).
    { split; [apply N.div_le_mono; lia|]. change (x / p32 + 1) with (x / p32 + 1 * 1).
      replace (x / p32 + 1 * 1) with ((x + 1 * p32) / p32) by (rewrite N.div_add by lia; lia).
      apply N.div_le_mono; lia. }
    unfold quote_amount. destruct (p_side p); cbn [rbind]; [|split; [|done]]; fold x; [split; [exact Hx|done]|lia].
Qed.

Lemma find_del id id' os : id <> id' -> find_order id (del id' os) = find_order id os.
Proof.
  intros Hne. unfold find_order, del. induction os as [|x os IH]; [done|]. cbn [List.filter List.find].
  destruct (N.eqb_spec (o_id x) id') as [E|E]; cbn [negb].
  - destruct (N.eqb_spec (o_id x) id); [congruence|done].
  - cbn [List.find]. destruct (N.eqb_spec (o_id x) id); [done|]. apply IH.
Qed.
Lemma del_comm id id' os : del id (del id' os) = del id' (del id os).
Proof.
  unfold del. induction os as [|x os IH]; [done|]. cbn [List.filter].
  destruct (N.eqb_spec (o_id x) id) as [E|E], (N.eqb_spec (o_id x) id') as [E'|E']; cbn [negb List.filter];
    repeat match goal with |- context [?a =? ?b] => destruct (N.eqb_spec a b); try congruence end; cbn [negb];
    by rewrite ?IH.
Qed.
Lemma sides_eta sd (L : side -> list (order C)) x : sides sd (L sd) (L (opposite sd)) x = L x.
Proof. by destruct sd, x. Qed.
(** Cancelling, present or not, on lists. *)
Definition cxl' id (L : side -> list (order C)) := 
  match find_order id (L (side_of_id id)) with Some _ => delL id L | None => L end.
Lemma cancel_any c m L pend id r m' : minv c m L pend -> seq_of m < p63 ->
  exec same_id (CancelOrder id) m = (r, m') ->
  minv c m' (cxl' id L) pend /\ seq_of m' = seq_of m /\
  same_answer r match find_order id (L (side_of_id id)) with
                | Some o => Ok (Some (mk_summary None (o_qty o) (order_quote o) 0))
                | None => Err OrderNotFound end.
Proof.
  intros Hm Hs He. pose proof (exec_cancel same_id c m L pend id Hm Hs) as H. cbn zeta in H. unfold cxl'.
  destruct (find_order id (L (side_of_id id))) as [o|].
  - destruct H as (m1&H&Hm1&Hq). rewrite H in He. injection He as <- <-. split; [exact Hm1|].
    split; [unfold seq_of; by rewrite Hq|]. by left.
  - rewrite H in He. injection He as <- <-. split; [done|]. split; [done|].
    destruct (stale _ _ _); [right; by right|by left].
Qed.
Lemma find_cxl a b L : a <> b -> find_order a (cxl' b L (side_of_id a)) = find_order a (L (side_of_id a)).
Proof.
  intros Hne. unfold cxl'. destruct (find_order b _); [|done]. unfold delL.
  destruct (side_of_id b) eqn:Eb, (side_of_id a) eqn:Ea; cbn [sides opposite]; try done; by rewrite find_del.
Qed.
Lemma delL_comm a b L sd : delL a (delL b L) sd = delL b (delL a L) sd.
Proof.
  unfold delL. destruct (side_of_id a), (side_of_id b), sd; cbn [sides opposite]; try done; apply del_comm.
Qed.
Lemma cxl_comm a b L sd : a <> b -> cxl' a (cxl' b L) sd = cxl' b (cxl' a L) sd.
Proof.
  intros Hne. unfold cxl' at 1 3. rewrite !find_cxl by done. unfold cxl'.
  destruct (find_order a _), (find_order b _); try done. apply delL_comm.
Qed.
Lemma same_answer_trans r1 r2 r3 : same_answer r1 r3 -> same_answer r2 r3 -> same_answer r1 r2.
Proof. intros [->|[[-> ->]|[-> ->]]] [->|[[-> ?]|[-> ?]]]; simplify_eq; unfold same_answer; auto. Qed.
Theorem cancels_commute c m a b ra rb ra' rb' ma mb mab mba : reachable same_id c m -> a <> b ->
  exec same_id (CancelOrder a) m = (ra, ma) -> exec same_id (CancelOrder b) ma = (rb, mab) ->
  exec same_id (CancelOrder b) m = (rb', mb) -> exec same_id (CancelOrder a) mb = (ra', mba) ->
  same_answer ra ra' /\ same_answer rb rb' /\ same_view mab mba.
Proof.
  intros Hr Hne H1 H2 H3 H4. destruct (reachable_minv _ _ _ Hr) as (L&pend&Hm&Hs).
  destruct (cancel_any _ _ _ _ _ _ _ Hm Hs H1) as (I1&S1&A1).
  destruct (cancel_any _ _ _ _ _ _ _ I1 ltac:(by rewrite S1) H2) as (I2&S2&A2).
  destruct (cancel_any _ _ _ _ _ _ _ Hm Hs H3) as (I3&S3&A3).
  destruct (cancel_any _ _ _ _ _ _ _ I3 ltac:(by rewrite S3) H4) as (I4&S4&A4).
  rewrite find_cxl in A2 by done. rewrite find_cxl in A4 by done.
  split; [by eapply same_answer_trans|]. split; [by eapply same_answer_trans|].
  split; [|split].
  - intros sd. rewrite (minv_resting _ _ _ _ _ I2), (minv_resting _ _ _ _ _ I4).
    f_equal. by rewrite cxl_comm.
  - by rewrite (minv_pending _ _ _ _ I2), (minv_pending _ _ _ _ I4).
  - change (seq_of mab = seq_of mba). congruence.
Qed.
End Commute.
