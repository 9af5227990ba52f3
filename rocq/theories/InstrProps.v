(** * InstrProps.v: cancels, mass cancels, consumption, spread, book shape *)
From Verif Require Import Machine Bytes Critbit EventQueue OrderBook Market Spec MachineProofs
  TreeProofs SlabProofs SlabProofs2 QueueProofs IdProofs Engine BookProofs EngineProofs
  MarketProofs MarketFacts NewOrderProps NewOrderProps2.
From Coq Require Import ZifyBool ZifyNat ZifyN.
From Coq Require Import Sorting.Sorted.

Section Instr.
Context {C : Type} (same_id : C -> C -> bool).
Implicit Types m : market C.
Implicit Types c : config C.
Implicit Types p : params C.
Implicit Types os : list (order C).
Implicit Types E : list (event_ref C).
Implicit Types L : side -> list (order C).

(** ** The book *)
Lemma book_facts c m sd o : reachable same_id c m -> o ∈ resting m sd ->
  side_of_id (o_id o) = sd /\ c_min c <= o_qty o /\ (c_tick c | id_price (o_id o)) /\
  0 < id_price (o_id o) < p64 /\ o_qty o < p64 /\ o_id o < p128 /\
  o_qty o * id_price (o_id o) < p64 * p32.
Proof.
  intros Hr Ho. destruct (reachable_minv _ _ _ Hr) as (L&pend&Hm&Hsq).
  rewrite (in_resting _ _ _ _ _ _ Hm) in Ho.
  destruct (order_ok_price _ _ _ _ Hsq (minv_ok _ _ _ _ _ _ Hm Ho)) as (Hp&H1&H2&H3&H4&H5&H6&_).
  rewrite <- Hp. split_and!; done || lia.
Qed.
Lemma book_sorted c m sd : reachable same_id c m ->
  StronglySorted (fun x y => o_id x < o_id y) (resting m sd).
Proof.
  intros Hr. destruct (reachable_minv _ _ _ Hr) as (L&pend&Hm&Hsq).
  destruct (mi_rep _ _ _ _ Hm sd) as (es&Hs&_).
  unfold resting. rewrite (traverse_ok _ _ Hs). apply srep_sorted in Hs.
  apply ss_mapR. rewrite map_map. exact Hs.
Qed.
Lemma never_crossed c m b a : reachable same_id c m ->
  b ∈ resting m Bid -> a ∈ resting m Ask -> id_price (o_id b) < id_price (o_id a).
Proof.
  intros Hr Hb Ha. destruct (book_facts _ _ _ _ Hr Hb) as (_&_&_&_&_&Hib&_).
  destruct (book_facts _ _ _ _ Hr Ha) as (_&_&_&_&_&Hia&_).
  destruct (reachable_minv _ _ _ Hr) as (L&pend&Hm&Hsq).
  rewrite (in_resting _ _ _ _ _ _ Hm) in Hb. rewrite (in_resting _ _ _ _ _ _ Hm) in Ha.
  pose proof (mi_unc _ _ _ _ Hm) as Hu.
  specialize (Hu _ _ Hb Ha). unfold o_price in Hu. rewrite !id_price_key in Hu by done. done.
Qed.
Lemma resting_unique c m sd o1 o2 : reachable same_id c m ->
  o1 ∈ resting m sd -> o2 ∈ resting m sd -> o_id o1 = o_id o2 -> o1 = o2.
Proof.
  intros Hr H1 H2 He. destruct (reachable_minv _ _ _ Hr) as (L&pend&Hm&Hsq).
  rewrite (in_resting _ _ _ _ _ _ Hm) in H1. rewrite (in_resting _ _ _ _ _ _ Hm) in H2.
  eapply in_id_unique; [|exact H1|exact H2|done]. by eapply minv_nodup.
Qed.
Lemma resting_nodup c m sd : reachable same_id c m -> NoDup (map o_id (resting m sd)).
Proof.
  intros Hr. destruct (reachable_minv _ _ _ Hr) as (L&pend&Hm&Hsq).
  rewrite (minv_resting _ _ _ _ _ Hm), <- prio_map, prio_perm. by eapply minv_nodup.
Qed.

(** ** Spread *)
Lemma find_best_price c m sd : reachable same_id c m ->
  exists h, find_bbo (m_book m) sd = Ok h /\
    exists r, leaf_price_at (tree (m_book m) sd) h = Ok r /\ best_price m sd r.
Proof.
  intros Hr. destruct (reachable_minv _ _ _ Hr) as (L&pend&Hm&Hsq).
  pose proof (mi_rep _ _ _ _ Hm sd) as Hrep.
  pose proof (minv_typed _ _ _ _ sd Hm Hsq) as Ht.
  pose proof (minv_resting _ _ _ _ sd Hm) as Hres.
  assert (Hfb : find_bbo (m_book m) sd = find_best sd (tree (m_book m) sd)) by by destruct sd.
  rewrite Hfb.
  destruct (L sd) as [|o rest] eqn:HL.
  - exists None. rewrite (lrep_best_nil _ _ Hrep). split; [done|]. exists None. split; [done|].
    cbn. rewrite Hres. by destruct sd.
  - destruct (lrep_handle sd _ [] o rest Hrep) as (h&[Hh Hc]&Hb&_).
    exists (Some h). split; [by apply Hb|]. cbn. 
    rewrite (rbind_ok _ _ _ Hh). eexists. split; [done|]. cbn.
    rewrite Forall_forall in Ht. destruct (Ht o ltac:(left)) as [Ho _].
    change (lf_key (fst o)) with (o_id o). rewrite id_price_key by done. rewrite Hres. split.
    + exists o. split; [apply prio_elem; left|done].
    + intros x Hx Hbx. apply prio_elem in Hx. pose proof (lrep_sorted _ _ _ Hrep) as Hs.
      apply elem_of_cons in Hx as [->|Hx]; [by destruct sd; cbn in Hbx; lia|].
      inversion Hs as [|? ? _ Hall]; subst. rewrite Forall_forall in Hall. specialize (Hall x Hx).
      apply before_ahead in Hall. unfold ahead, better_price in *. destruct sd; lia.
Qed.
Lemma spread_ok c m : reachable same_id c m ->
  exists pb pa, get_spread (m_book m) = Ok (pb, pa) /\ best_price m Bid pb /\ best_price m Ask pa.
Proof.
  intros Hr. destruct (find_best_price c m Bid Hr) as (hb&Hb&pb&Hpb&Bb).
  destruct (find_best_price c m Ask Hr) as (ha&Ha&pa&Hpa&Ba).
  exists pb, pa. split; [|done]. cbn in *. unfold get_spread.
  rewrite (rbind_ok _ _ _ Hb), (rbind_ok _ _ _ Hpb), (rbind_ok _ _ _ Ha), (rbind_ok _ _ _ Hpa). done.
Qed.

(** ** Cancel *)
Lemma find_order_in id os o : NoDup (map o_id os) -> o ∈ os -> o_id o = id -> find_order id os = Some o.
Proof.
  intros Hnd Ho <-. destruct (find_order (o_id o) os) as [x|] eqn:Hf.
  - apply find_order_Some in Hf as [Hx He]. f_equal. by eapply in_id_unique.
  - apply find_order_None in Hf. exfalso. apply Hf. by apply elem_of_list_fmap_1.
Qed.
Lemma pending_evq m m' : evq (m_book m') = evq (m_book m) -> pending m' = pending m.
Proof. intros H. unfold pending. by rewrite H. Qed.
Lemma resting_tree m m' sd : tree (m_book m') sd = tree (m_book m) sd -> resting m' sd = resting m sd.
Proof. intros H. unfold resting. by rewrite H. Qed.
Lemma prio_filter {A} sd (f : A -> bool) l :
  prio sd (List.filter f l) = List.filter f (prio sd l).
Proof.
  destruct sd; cbn; [|done]. induction l as [|x l IH]; [done|]. cbn.
  rewrite List.filter_app. cbn. rewrite <- IH. by destruct (f x); cbn; rewrite ?app_nil_r.
Qed.
Lemma filter_true {A} (f : A -> bool) l : (forall x, x ∈ l -> f x = true) -> List.filter f l = l.
Proof.
  induction l as [|x l IH]; intros H; [done|]. cbn. rewrite H by left. f_equal. apply IH.
  intros y Hy. apply H. by right.
Qed.

Lemma cancel_present c m sd o : reachable same_id c m -> o ∈ resting m sd ->
  exists m', exec same_id (CancelOrder (o_id o)) m =
      (Ok (Some (mk_summary None (o_qty o) (o_qty o * id_price (o_id o) / p32) 0)), m') /\
    resting m' sd = List.filter (fun x => negb (o_id x =? o_id o)) (resting m sd) /\
    resting m' (opposite sd) = resting m (opposite sd) /\
    evq (m_book m') = evq (m_book m) /\ m_min m' = m_min m /\ m_tick m' = m_tick m.
Proof.
  intros Hr Ho. destruct (book_facts _ _ _ _ Hr Ho) as (Hsd&_&_&_&_&Hid&_).
  destruct (reachable_minv _ _ _ Hr) as (L&pend&Hm&Hsq).
  rewrite (in_resting _ _ _ _ _ _ Hm) in Ho.
  pose proof (exec_cancel same_id c m L pend (o_id o) Hm Hsq) as H. cbn zeta in H. rewrite Hsd in H.
  rewrite (find_order_in _ _ o (minv_nodup _ _ _ _ sd Hm)) in H by done.
  destruct H as (m'&H&Hm'&He). exists m'.
  unfold order_quote, o_price in H. rewrite id_price_key in H by done. split; [done|].
  rewrite (minv_resting _ _ _ _ sd Hm'), (minv_resting _ _ _ _ (opposite sd) Hm').
  rewrite sides_own, sides_opp, !(minv_resting _ _ _ _ _ Hm).
  split_and!; try done.
  - unfold del. by rewrite prio_filter.
  - by rewrite (mi_min _ _ _ _ Hm'), (mi_min _ _ _ _ Hm).
  - by rewrite (mi_tick _ _ _ _ Hm'), (mi_tick _ _ _ _ Hm).
Qed.
Lemma cancel_absent c m id : reachable same_id c m ->
  id ∉ map o_id (resting m (side_of_id id)) ->
  exec same_id (CancelOrder id) m =
    (if stale m (side_of_id id) id then Panic PIndex else Err OrderNotFound, m).
Proof.
  intros Hr Hni. destruct (reachable_minv _ _ _ Hr) as (L&pend&Hm&Hsq).
  rewrite (in_resting_ids _ _ _ _ _ _ Hm) in Hni.
  pose proof (exec_cancel same_id c m L pend id Hm Hsq) as H. cbn zeta in H.
  apply find_order_None in Hni. by rewrite Hni in H.
Qed.
(** Cancelling twice: the id is then absent. *)
Lemma cancel_ok_inv c m id r m' : reachable same_id c m ->
  exec same_id (CancelOrder id) m = (Ok r, m') ->
  exists o, o ∈ resting m (side_of_id id) /\ o_id o = id /\
    r = Some (mk_summary None (o_qty o) (o_qty o * id_price id / p32) 0) /\
    (forall sd, resting m' sd = List.filter (fun x => negb (o_id x =? id)) (resting m sd)) /\
    evq (m_book m') = evq (m_book m).
Proof.
  intros Hr He. destruct (decide (id ∈ map o_id (resting m (side_of_id id)))) as [Hin|Hni].
  - apply elem_of_list_fmap in Hin as (o&->&Ho).
    destruct (cancel_present _ _ _ _ Hr Ho) as (m1&H&H1&H2&H3&_). rewrite H in He. simplify_eq.
    exists o. split_and!; try done.
    intros sd. set (sd0 := side_of_id (o_id o)) in *.
    assert (sd = sd0 \/ sd = opposite sd0) as [->| ->] by (destruct sd, sd0; auto); [done|].
    rewrite H2, filter_true; [done|]. intros x Hx. apply negb_true_iff, N.eqb_neq. intros Heq.
    destruct (book_facts _ _ _ _ Hr Hx) as (Hs&_). rewrite Heq in Hs. fold sd0 in Hs. by destruct sd0.
  - rewrite (cancel_absent _ _ _ Hr Hni) in He. by destruct (stale _ _ _).
Qed.

(** ** Consumption *)
Lemma consume_ok c m n : reachable same_id c m ->
  exists m', exec same_id (ConsumeEvents n) m = (Ok None, m') /\
    pending m' = drop (N.to_nat n) (pending m) /\
    bids (m_book m') = bids (m_book m) /\ asks (m_book m') = asks (m_book m) /\
    q_seq (evq (m_book m')) = q_seq (evq (m_book m)) /\
    q_count (evq (m_book m')) = q_count (evq (m_book m)) - n /\
    m_min m' = m_min m /\ m_tick m' = m_tick m.
Proof.
  intros Hr. destruct (reachable_minv _ _ _ Hr) as (L&pend&Hm&Hsq).
  destruct (exec_consume same_id c m L pend n Hm) as (m'&H&Hm'&Hs&Hb&Ha). exists m'.
  rewrite (minv_pending _ _ _ _ Hm), (minv_pending _ _ _ _ Hm'). split_and!; try done.
  - pose proof (mi_q _ _ _ _ Hm) as [_ _ _ Hc _ _]. pose proof (mi_q _ _ _ _ Hm') as [_ _ _ Hc' _ _].
    rewrite drop_length in *. lia.
  - by rewrite (mi_min _ _ _ _ Hm'), (mi_min _ _ _ _ Hm).
  - by rewrite (mi_tick _ _ _ _ Hm'), (mi_tick _ _ _ _ Hm).
Qed.

(** ** Mass cancel *)
Lemma cancel_process m id r m1 :
  exec same_id (CancelOrder id) m = (Ok r, m1) <->
  exists lc q, on_book (on_tree (side_of_id id) (remove_by_key id)) m = (Ok (Some lc), m1) /\
    fp32_mul_floor (lf_qty (fst lc)) (price_from_key (lf_key (fst lc))) = Some q /\
    r = Some (mk_summary None (lf_qty (fst lc)) q 0).
Proof.
  unfold exec, process, process_cancel_order. rewrite bind_assoc.
  destruct (on_book (on_tree (side_of_id id) (remove_by_key id)) m) as [r1 m2] eqn:Hb.
  destruct r1 as [o|e|x|].
  - rewrite (bind_ok _ _ _ _ _ Hb), bind_assoc. destruct o as [lc|]; cbn [ok_or].
    + erewrite bind_lift by done. rewrite bind_assoc.
      destruct (fp32_mul_floor _ _) as [q|] eqn:Hq; cbn [ok_or].
      * erewrite bind_lift by done. cbn. split.
        -- intros [= <- <-]. eauto 10.
        -- intros (lc'&q'&[= <- <-]&Hq'&->). rewrite Hq in Hq'. by simplify_eq.
      * cbn. split; [done|]. intros (lc'&q'&[= <- <-]&Hq'&->). congruence.
    + cbn. split; [done|]. by intros (lc'&q'&[=]&_).
  - rewrite (bind_err _ _ _ _ _ Hb). split; [done|]. by intros (lc'&q'&[=]&_).
  - rewrite (bind_panic _ _ _ _ _ Hb). split; [done|]. by intros (lc'&q'&[=]&_).
  - unfold bind at 1. rewrite Hb. split; [done|]. by intros (lc'&q'&[=]&_).
Qed.
Lemma mass_loop_seq : forall ids m tb tq tb' tq' m',
  mass_cancel_loop ids tb tq m = (Ok (tb', tq'), m') <->
  exists sms, cancels same_id m ids sms m' /\
    tb' = tb + sumN total_base_qty sms /\ tq' = tq + sumN total_quote_qty sms /\
    (ids <> [] -> tb' < p64 /\ tq' < p64).
Proof.
  induction ids as [|id ids IH]; intros m tb tq tb' tq' m'; cbn [mass_cancel_loop].
  { unfold ret. split.
    - intros [= <- <- <-]. exists []. cbn. split_and!; [constructor|lia|lia|done].
    - intros (sms&Hc&->&->&_). inversion Hc; subst. cbn. f_equal. f_equal. f_equal; lia. }
  destruct (on_book (on_tree (side_of_id id) (remove_by_key id)) m) as [r1 m1] eqn:Hb.
  assert (Hfail : (forall lc, r1 <> Ok (Some lc)) ->
    ~ exists sms, cancels same_id m (id :: ids) sms m' /\
      tb' = tb + sumN total_base_qty sms /\ tq' = tq + sumN total_quote_qty sms /\
      (id :: ids <> [] -> tb' < p64 /\ tq' < p64)).
  { intros Hn (sms&Hc&_). inversion Hc as [|? ? ? ? ? ? ? H1]; subst.
    apply cancel_process in H1 as (lc&q&H1&_). rewrite H1 in Hb. simplify_eq. by eapply Hn. }
  destruct r1 as [o|e|x|].
  2:{ rewrite (bind_err _ _ _ _ _ Hb). split; [done|]. intros H. exfalso. by eapply Hfail. }
  2:{ rewrite (bind_panic _ _ _ _ _ Hb). split; [done|]. intros H. exfalso. by eapply Hfail. }
  2:{ unfold bind at 1. rewrite Hb. split; [done|]. intros H. exfalso. by eapply Hfail. }
  rewrite (bind_ok _ _ _ _ _ Hb). destruct o as [lc|]; cbn [ok_or].
  2:{ cbn. split; [done|]. intros H. exfalso. by eapply Hfail. }
  erewrite bind_lift by done. cbn zeta. unfold checked_add, to_u64.
  clear Hfail. split.
  - destruct (N.ltb_spec (tb + lf_qty (fst lc)) p64) as [Hlt|]; [|done]. cbn [unwrap].
    erewrite bind_lift by done.
    destruct (fp32_mul_floor _ _) as [q|] eqn:Hq; [|done].
    destruct (N.ltb_spec (q + tq) p64) as [Hltq|]; [|done]. cbn [unwrap].
    erewrite bind_lift by done. intros H. apply IH in H as (sms&Hc&->&->&Hlim).
    exists (mk_summary None (lf_qty (fst lc)) q 0 :: sms). cbn [sumN total_base_qty total_quote_qty].
    split_and!; [|lia|lia|].
    + econstructor; [|done]. apply cancel_process. eauto 10.
    + intros _. destruct ids as [|id' ids].
      * inversion Hc; subst. cbn. lia.
      * specialize (Hlim ltac:(done)). lia.
  - intros (sms&Hc&->&->&Hlim). specialize (Hlim ltac:(done)).
    inversion Hc as [|? ? sm m2 ? sms' ? H1 H2]; subst.
    apply cancel_process in H1 as (lc'&q&H1&Hq&[= ->]). rewrite H1 in Hb. simplify_eq.
    cbn [sumN total_base_qty total_quote_qty] in Hlim |- *.
    destruct (N.ltb_spec (tb + lf_qty (fst lc)) p64) as [Hlt|]; [|lia]. cbn [unwrap].
    erewrite bind_lift by done. rewrite Hq.
    destruct (N.ltb_spec (q + tq) p64) as [Hltq|]; [|lia]. cbn [unwrap].
    erewrite bind_lift by done. apply IH. exists sms'. split_and!; [done|lia|lia|].
    intros _. lia.
Qed.
Lemma mass_cancel_seq m ids r m' :
  exec same_id (MassCancelOrders ids) m = (Ok r, m') <->
  exists sms, cancels same_id m ids sms m' /\
    sumN total_base_qty sms < p64 /\ sumN total_quote_qty sms < p64 /\
    r = Some (mk_summary None (sumN total_base_qty sms) (sumN total_quote_qty sms) 0).
Proof.
  assert (Hx : exec same_id (MassCancelOrders ids) m = (Ok r, m') <->
    exists tb tq, mass_cancel_loop ids 0 0 m = (Ok (tb, tq), m') /\ r = Some (mk_summary None tb tq 0)).
  { unfold exec, process, process_mass_cancel. rewrite bind_assoc.
    destruct (mass_cancel_loop ids 0 0 m) as [r1 m1] eqn:Hl. destruct r1 as [[tb tq]|e|x|].
    - rewrite (bind_ok _ _ _ _ _ Hl). cbn. split.
      + intros [= <- <-]. eauto.
      + intros (?&?&[= <- <- <-]&->). done.
    - rewrite (bind_err _ _ _ _ _ Hl). split; [done|]. by intros (?&?&[=]&_).
    - rewrite (bind_panic _ _ _ _ _ Hl). split; [done|]. by intros (?&?&[=]&_).
    - unfold bind at 1. rewrite Hl. split; [done|]. by intros (?&?&[=]&_). }
  rewrite Hx. split.
  - intros (tb&tq&Hl&->). apply mass_loop_seq in Hl as (sms&Hc&->&->&Hlim). exists sms.
    rewrite !N.add_0_l in *. split_and!; try done.
    + destruct ids; [inversion Hc; subst; cbn; lia|]. by apply Hlim.
    + destruct ids; [inversion Hc; subst; cbn; lia|]. by apply Hlim.
  - intros (sms&Hc&H1&H2&->). eexists _, _. split; [|done]. apply mass_loop_seq.
    exists sms. rewrite !N.add_0_l. done.
Qed.

(** Reachability is kept by instructions while the history is short enough. *)
Definition delS (ids : list N) L : side -> list (order C) := fun sd => delete_ids ids (L sd).
Lemma delete_ids_cons id ids os : delete_ids (id :: ids) os = delete_ids ids (del id os).
Proof.
  unfold delete_ids, del. induction os as [|o os IH]; [done|].
  cbn [List.filter existsb]. destruct (o_id o =? id); cbn [orb negb List.filter]; [done|].
  cbn [existsb] in IH. by rewrite IH.
Qed.
Lemma delL_eq id L sd : (forall sd o, o ∈ L sd -> side_of_id (o_id o) = sd) ->
  delL id L sd = del id (L sd).
Proof.
  intros H. unfold delL.
  assert (sd = side_of_id id \/ sd = opposite (side_of_id id)) as [Hs|Hs]
    by (destruct sd, (side_of_id id); auto).
  - rewrite Hs. by rewrite sides_own.
  - rewrite Hs, sides_opp. symmetry. apply del_notin. intros Hin.
    apply elem_of_list_fmap in Hin as (o&->&Ho). specialize (H _ _ Ho).
    by destruct (side_of_id (o_id o)).
Qed.
Lemma qty_in_del os id id' : id <> id' -> qty_in (del id os) id' = qty_in os id'.
Proof.
  intros Hne. induction os as [|o os IH]; [done|]. cbn.
  destruct (N.eqb_spec (o_id o) id) as [He|He]; cbn; rewrite !qty_in_cons.
  - destruct (N.eqb_spec (o_id o) id'); [congruence|]. done.
  - by rewrite <- IH.
Qed.
Definition baseL L (id : N) : N := qty_in (L (side_of_id id)) id.
Definition quoteL L (id : N) : N := baseL L id * price_from_key id / p32.
Lemma sumN_ext {A} (f g : A -> N) l : (forall x, x ∈ l -> f x = g x) -> sumN f l = sumN g l.
Proof.
  induction l as [|x l IH]; intros H; [done|]. cbn. rewrite H by left. rewrite IH; [done|].
  intros y Hy. apply H. by right.
Qed.
Lemma emass_done : forall ids L tb tq L' tb' tq',
  (forall sd o, o ∈ L sd -> side_of_id (o_id o) = sd) -> (forall sd, NoDup (map o_id (L sd))) ->
  tb < p64 -> tq < p64 ->
  (emass ids L tb tq = MDone L' tb' tq' ->
     NoDup ids /\ (forall id, id ∈ ids -> id ∈ map o_id (L (side_of_id id))) /\
     tb' = tb + sumN (baseL L) ids /\ tq' = tq + sumN (quoteL L) ids /\ tb' < p64 /\ tq' < p64 /\
     forall sd, L' sd = delete_ids ids (L sd)) /\
  (NoDup ids -> (forall id, id ∈ ids -> id ∈ map o_id (L (side_of_id id))) ->
   tb + sumN (baseL L) ids < p64 -> tq + sumN (quoteL L) ids < p64 ->
   exists L' tb' tq', emass ids L tb tq = MDone L' tb' tq').
Proof.
  induction ids as [|id ids IH]; intros L tb tq L' tb' tq' Hsd Hnd Htb Htq; cbn [emass].
  { split.
    - intros [= <- <- <-]. cbn. split_and!; try done; try lia.
      + constructor.
      + intros id Hid. by apply elem_of_nil in Hid.
      + intros sd. unfold delete_ids. symmetry. by apply filter_true.
    - intros _ _ _ _. eauto. }
  assert (Hsd' : forall sd o, o ∈ delL id L sd -> side_of_id (o_id o) = sd).
  { intros sd o. rewrite delL_eq by done. intros Ho. apply elem_del in Ho as [Ho _]. by apply Hsd. }
  assert (Hnd' : forall sd, NoDup (map o_id (delL id L sd))).
  { intros sd. rewrite delL_eq by done. specialize (Hnd sd). unfold del.
    induction (L sd) as [|o os IHo]; [constructor|]. cbn in *. apply NoDup_cons in Hnd as [H1 H2].
    destruct (negb _); [|by apply IHo]. cbn. constructor; [|by apply IHo].
    intros Hin. apply H1. apply elem_of_list_fmap in Hin as (x&->&Hx).
    apply elem_of_list_fmap_1. rewrite elem_of_list_In, filter_In in Hx.
    apply elem_of_list_In. by destruct Hx. }
  assert (Hother : forall id', id' <> id ->
    (id' ∈ map o_id (delL id L (side_of_id id')) <-> id' ∈ map o_id (L (side_of_id id')))).
  { intros id' Hne. rewrite delL_eq by done. rewrite !elem_of_list_fmap.
    split; intros (o&->&Ho).
    - apply elem_del in Ho as [Ho _]. eauto.
    - exists o. split; [done|]. by apply elem_del. }
  assert (Hself : id ∉ map o_id (delL id L (side_of_id id))).
  { rewrite delL_eq by done. intros Hin. apply elem_of_list_fmap in Hin as (o&He&Ho).
    apply elem_del in Ho as [_ Ho]. congruence. }
  assert (Hb' : forall id', id' <> id -> baseL (delL id L) id' = baseL L id').
  { intros id' Hne. unfold baseL. rewrite delL_eq by done. by apply qty_in_del. }
  destruct (find_order id (L (side_of_id id))) as [o|] eqn:Hf.
  2:{ apply find_order_None in Hf. split; [done|]. intros _ Hall. exfalso. apply Hf, Hall. left. }
  apply find_order_Some in Hf as [Ho Hid].
  assert (Hbase : baseL L id = o_qty o).
  { unfold baseL. rewrite <- Hid. apply qty_in_in; [apply Hnd|]. by rewrite Hid. }
  assert (Hquote : quoteL L id = order_quote o).
  { unfold quoteL, order_quote, o_price. by rewrite Hbase, Hid. }
  cbn [sumN]. rewrite Hbase, Hquote.
  destruct ((tb + o_qty o <? p64) && (order_quote o + tq <? p64)) eqn:Hlim.
  2:{ split; [done|]. intros. lia. }
  apply andb_true_iff in Hlim as [Hl1 Hl2].
  specialize (IH (delL id L) (tb + o_qty o) (order_quote o + tq) L' tb' tq' Hsd' Hnd'
    ltac:(lia) ltac:(lia)) as [IH1 IH2].
  split.
  - intros He. destruct (IH1 He) as (H1&H2&H3&H4&H5&H6&H7).
    assert (Hni : id ∉ ids) by (intros Hin; by apply Hself, H2).
    assert (Hsum : forall f : (side -> list (order C)) -> N -> N,
      (forall id', id' <> id -> f (delL id L) id' = f L id') ->
      sumN (f (delL id L)) ids = sumN (f L) ids).
    { intros f Hfe. apply sumN_ext. intros x Hx. apply Hfe. intros ->. done. }
    rewrite (Hsum baseL) in H3 by done.
    rewrite (Hsum quoteL) in H4 by (intros; unfold quoteL; by rewrite Hb').
    split_and!; try done; try lia.
    + by constructor.
    + intros x Hx. apply elem_of_cons in Hx as [->|Hx].
      * rewrite <- Hid at 1. by apply elem_of_list_fmap_1.
      * apply Hother; [by intros ->|]. by apply H2.
    + intros sd. rewrite H7, delL_eq, delete_ids_cons by done. done.
  - intros Hnd0 Hall H1 H2. apply NoDup_cons in Hnd0 as [Hni Hnd0].
    assert (Hsum : forall f : (side -> list (order C)) -> N -> N,
      (forall id', id' <> id -> f (delL id L) id' = f L id') ->
      sumN (f (delL id L)) ids = sumN (f L) ids).
    { intros f Hfe. apply sumN_ext. intros x Hx. apply Hfe. intros ->. done. }
    apply IH2; [done| | |].
    + intros x Hx. apply Hother; [by intros ->|]. apply Hall. by right.
    + rewrite (Hsum baseL) by done. lia.
    + rewrite (Hsum quoteL) by (intros; unfold quoteL; by rewrite Hb'). lia.
Qed.

Definition base_L_m c m L pend : minv c m L pend -> forall id, base_of m id = baseL L id.
Proof.
  intros Hm id. unfold base_of, baseL. rewrite (minv_resting _ _ _ _ _ Hm).
  apply qty_in_prio. by eapply minv_nodup.
Qed.
Lemma mass_cancel_exact c m ids : reachable same_id c m ->
  (NoDup ids /\ (forall id, id ∈ ids -> id ∈ map o_id (resting m (side_of_id id))) /\
   sumN (base_of m) ids < p64 /\ sumN (quote_of_id m) ids < p64 /\
   exists m', exec same_id (MassCancelOrders ids) m =
     (Ok (Some (mk_summary None (sumN (base_of m) ids) (sumN (quote_of_id m) ids) 0)), m') /\
     (forall sd, resting m' sd = delete_ids ids (resting m sd)) /\
     evq (m_book m') = evq (m_book m)) \/
  (~ (NoDup ids /\ (forall id, id ∈ ids -> id ∈ map o_id (resting m (side_of_id id))) /\
      sumN (base_of m) ids < p64 /\ sumN (quote_of_id m) ids < p64) /\
   exists r, exec same_id (MassCancelOrders ids) m = (r, m) /\
     (r = Err OrderNotFound \/ r = Panic PIndex \/ r = Panic PUnwrap)).
Proof.
  intros Hr. destruct (reachable_minv _ _ _ Hr) as (L&pend&Hm&Hsq).
  assert (Hsd : forall sd o, o ∈ L sd -> side_of_id (o_id o) = sd).
  { intros sd o Ho. eapply book_facts; [exact Hr|]. by rewrite (in_resting _ _ _ _ _ _ Hm). }
  assert (Hnd : forall sd, NoDup (map o_id (L sd))) by (intros; by eapply minv_nodup).
  assert (Hin : (forall id, id ∈ ids -> id ∈ map o_id (resting m (side_of_id id))) <->
    (forall id, id ∈ ids -> id ∈ map o_id (L (side_of_id id)))).
  { split; intros H id Hid; specialize (H id Hid);
      by rewrite (in_resting_ids _ _ _ _ _ _ Hm) in *. }
  rewrite Hin.
  assert (Hbs : sumN (base_of m) ids = sumN (baseL L) ids)
    by (apply sumN_ext; intros; by eapply base_L_m).
  assert (Hqs : (forall id, id ∈ ids -> id ∈ map o_id (L (side_of_id id))) ->
    sumN (quote_of_id m) ids = sumN (quoteL L) ids).
  { intros Hall. apply sumN_ext. intros id Hid. unfold quote_of_id, quoteL.
    rewrite (base_L_m _ _ _ _ Hm). apply Hall in Hid. apply elem_of_list_fmap in Hid as (o&->&Ho).
    rewrite id_price_key; [done|]. eapply book_facts; [exact Hr|].
    by rewrite (in_resting _ _ _ _ _ _ Hm). }
  rewrite Hbs.
  destruct (emass ids L 0 0) as [L' tb tq| |] eqn:He.
  - left. destruct (emass_done ids L 0 0 L' tb tq Hsd Hnd ltac:(lia) ltac:(lia)) as [Hd _].
    destruct (Hd He) as (H1&H2&H3&H4&H5&H6&H7). rewrite (Hqs H2).
    pose proof (exec_mass_cancel same_id c m L pend ids Hm Hsq) as Hx. rewrite He in Hx.
    destruct Hx as (m'&Hx&Hm'&Hev). rewrite N.add_0_l in H3, H4. subst tb tq.
    split_and!; try done. exists m'. split_and!; try done.
    intros sd. rewrite (minv_resting _ _ _ _ _ Hm'), (minv_resting _ _ _ _ _ Hm), H7.
    unfold delete_ids. by rewrite prio_filter.
  - right. pose proof (exec_mass_cancel same_id c m L pend ids Hm Hsq) as Hx. rewrite He in Hx. split.
    + intros (H1&H2&H3&H4). rewrite (Hqs H2) in H4.
      destruct (emass_done ids L 0 0 L 0 0 Hsd Hnd ltac:(lia) ltac:(lia)) as [_ Hd].
      destruct (Hd H1 H2 ltac:(lia) ltac:(lia)) as (?&?&?&Hd'). congruence.
    + destruct Hx as [Hx|Hx]; eauto 10.
  - right. pose proof (exec_mass_cancel same_id c m L pend ids Hm Hsq) as Hx. rewrite He in Hx. split.
    + intros (H1&H2&H3&H4). rewrite (Hqs H2) in H4.
      destruct (emass_done ids L 0 0 L 0 0 Hsd Hnd ltac:(lia) ltac:(lia)) as [_ Hd].
      destruct (Hd H1 H2 ltac:(lia) ltac:(lia)) as (?&?&?&Hd'). congruence.
    + eauto 10.
Qed.

(** ** Failures *)
Lemma exec_failed o m r m' : exec same_id o m = (r, m') -> is_ok r = false -> m' = m.
Proof.
  unfold exec. destruct (process same_id o m) as [[] ?]; intros [= <- <-]; done.
Qed.
End Instr.
