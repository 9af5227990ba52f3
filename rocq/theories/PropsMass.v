(** * PropsMass.v: which id makes a mass cancel fail, and how (C31)

    Vocabulary: Spec.v.  C31_mass_cancel (PropsMarket.v) says when a mass cancel
    succeeds; these theorems say what a failing one returns: it is what the single
    cancellation of the first offending id returns, or an overflow of the totals. *)
From Verif Require Import Machine Bytes Critbit EventQueue OrderBook Market Spec ExampleRuns.
From Verif Require Import MachineProofs Engine BookProofs EngineProofs MarketProofs MarketFacts
  HistoryProps InstrProps StaleProofs PropsMarket.
From Coq Require Import ZifyBool ZifyNat ZifyN.

Section Mass.
Context {C : Type} (same_id : C -> C -> bool).
Implicit Types m : market C.
Implicit Types c : config C.
Implicit Types L : side -> list (order C).

Lemma mass_loop_app : forall pre post tb tq m,
  mass_cancel_loop (pre ++ post) tb tq m =
  bind (mass_cancel_loop pre tb tq) (fun t => mass_cancel_loop post (fst t) (snd t)) m.
Proof.
  induction pre as [|id pre IH]; intros post tb tq m; [done|].
  cbn [app mass_cancel_loop]. rewrite bind_assoc. unfold bind at 1 5.
  destruct (on_book (on_tree (side_of_id id) (remove_by_key id)) m) as [[o|e|x|] m1]; [|done..].
  rewrite bind_assoc. unfold bind at 1 4. destruct (lift (ok_or o OrderNotFound) m1) as [[lc|e|x|] m2]; [|done..].
  cbn zeta. rewrite bind_assoc. unfold bind at 1 3.
  destruct (lift (unwrap (checked_add tb (lf_qty (fst lc)))) m2) as [[tb'|e|x|] m3]; [|done..].
  rewrite bind_assoc. unfold bind at 1 2.
  match goal with |- context [lift ?u m3] => destruct (lift u m3) as [[tq'|e|x|] m4] end; [|done..].
  apply IH.
Qed.
Lemma cancels_minv c : forall m ids sms m1, cancels same_id m ids sms m1 ->
  forall L pend, minv c m L pend -> seq_of m < p63 ->
  exists L1, minv c m1 L1 pend /\ seq_of m1 < p63.
Proof.
  induction 1 as [m|m id sm m1 ids sms m' H1 H2 IH]; intros L pend Hm Hsq; [eauto|].
  pose proof (exec_cancel same_id c m L pend id Hm Hsq) as Hx. cbn zeta in Hx.
  destruct (find_order id (L (side_of_id id))) as [o|].
  - destruct Hx as (m2&Hx&Hm2&Hs2). rewrite Hx in H1. simplify_eq.
    eapply IH; [exact Hm2|]. unfold seq_of in *. by rewrite Hs2.
  - rewrite Hx in H1. destruct (stale m (side_of_id id) id); simplify_eq.
Qed.
(** What the loop does at the first id after a prefix that went well. *)
Lemma mass_loop_step c m L pend id post tb tq : minv c m L pend -> seq_of m < p63 ->
  match exec same_id (CancelOrder id) m with
  | (Ok (Some sm), m2) =>
      if (tb + total_base_qty sm <? p64) && (tq + total_quote_qty sm <? p64)
      then mass_cancel_loop (id :: post) tb tq m =
             mass_cancel_loop post (tb + total_base_qty sm) (tq + total_quote_qty sm) m2
      else fst (mass_cancel_loop (id :: post) tb tq m) = Panic PUnwrap
  | (Ok None, _) => False
  | (Err e, m2) => m2 = m /\ e = OrderNotFound /\
      fst (mass_cancel_loop (id :: post) tb tq m) = Err OrderNotFound
  | (Panic x, m2) => m2 = m /\ x = PIndex /\
      fst (mass_cancel_loop (id :: post) tb tq m) = Panic PIndex
  | (Diverge, _) => False
  end.
Proof.
  intros Hm Hsq. pose proof (exec_cancel same_id c m L pend id Hm Hsq) as Hx. cbn zeta in Hx.
  pose proof (remove_ok _ _ _ _ id Hm Hsq) as Hr. cbn zeta in Hr.
  destruct (find_order id (L (side_of_id id))) as [o|] eqn:Hf.
  - destruct Hx as (m2&Hx&Hm2&Hs2). rewrite Hx. cbn [total_base_qty total_quote_qty].
    destruct Hr as (m1&Hr&_).
    assert (Hm12 : m1 = m2).
    { pose proof Hx as Hx'. apply cancel_process in Hx' as (lc&q&Hx'&_). congruence. }
    subst m1. apply find_order_Some in Hf as [Hin _].
    pose proof (mi_ok _ _ _ _ Hm (side_of_id id)) as Hok. rewrite Forall_forall in Hok.
    pose proof (order_quote_fp _ _ _ _ Hsq (Hok o Hin)) as Hq.
    unfold o_price, o_qty, o_id in Hq. cbn [mass_cancel_loop].
    rewrite (bind_ok _ _ _ _ _ Hr). cbn [ok_or]. erewrite bind_lift by done. cbn zeta.
    rewrite Hq. change (lf_qty (fst o)) with (o_qty o). unfold checked_add, to_u64.
    rewrite (N.add_comm tq).
    destruct (N.ltb_spec (tb + o_qty o) p64); cbn [andb]; [|done].
    cbn [unwrap]. erewrite bind_lift by done.
    destruct (N.ltb_spec (order_quote o + tq) p64); [|done].
    cbn [unwrap]. by erewrite bind_lift by done.
  - rewrite Hx. cbn [mass_cancel_loop]. destruct (stale m (side_of_id id) id).
    + by rewrite (bind_panic _ _ _ _ _ Hr).
    + by rewrite (bind_ok _ _ _ _ _ Hr).
Qed.
Lemma exec_mass_fail m ids r : (forall x, r <> Ok x) ->
  fst (mass_cancel_loop ids 0 0 m) = r ->
  exec same_id (MassCancelOrders ids) m =
    (match r with Ok _ => Diverge | Err e => Err e | Panic x => Panic x | Diverge => Diverge end, m).
Proof.
  intros Hn Hr. unfold exec, process, process_mass_cancel. rewrite bind_assoc. unfold bind at 1.
  destruct (mass_cancel_loop ids 0 0 m) as [[x|e|x|] m1]; cbn in Hr; subst r; [by destruct (Hn x)|done..].
Qed.
Lemma mass_prefix m pre sms m1 post : cancels same_id m pre sms m1 ->
  sumN total_base_qty sms < p64 -> sumN total_quote_qty sms < p64 ->
  mass_cancel_loop (pre ++ post) 0 0 m =
  mass_cancel_loop post (sumN total_base_qty sms) (sumN total_quote_qty sms) m1.
Proof.
  intros Hc H1 H2. rewrite mass_loop_app.
  assert (Hl : mass_cancel_loop pre 0 0 m =
    (Ok (sumN total_base_qty sms, sumN total_quote_qty sms), m1)).
  { apply (mass_loop_seq same_id). exists sms. rewrite !N.add_0_l. done. }
  by rewrite (bind_ok _ _ _ _ _ Hl).
Qed.
Lemma mass_first_failure c m pre sms m1 id post : reachable same_id c m ->
  cancels same_id m pre sms m1 ->
  sumN total_base_qty sms < p64 -> sumN total_quote_qty sms < p64 ->
  match exec same_id (CancelOrder id) m1 with
  | (Ok None, _) | (Diverge, _) => False
  | (Ok (Some sm), _) =>
      p64 <= sumN total_base_qty sms + total_base_qty sm \/
      p64 <= sumN total_quote_qty sms + total_quote_qty sm ->
      exec same_id (MassCancelOrders (pre ++ id :: post)) m = (Panic PUnwrap, m)
  | (Err e, _) => e = OrderNotFound /\
      exec same_id (MassCancelOrders (pre ++ id :: post)) m = (Err OrderNotFound, m)
  | (Panic x, _) => x = PIndex /\
      exec same_id (MassCancelOrders (pre ++ id :: post)) m = (Panic PIndex, m)
  end.
Proof.
  intros Hr Hc H1 H2. destruct (reachable_minv _ _ _ Hr) as (L&pend&Hm&Hsq).
  destruct (cancels_minv c _ _ _ _ Hc L pend Hm Hsq) as (L1&Hm1&Hsq1).
  pose proof (mass_loop_step c m1 L1 pend id post (sumN total_base_qty sms) (sumN total_quote_qty sms)
    Hm1 Hsq1) as Hs.
  rewrite <- (mass_prefix m pre sms m1 (id :: post) Hc H1 H2) in Hs.
  destruct (exec same_id (CancelOrder id) m1) as [[[sm|]|e|x|] m2]; [| |..].
  - intros Hov. replace ((_ <? p64) && (_ <? p64)) with false in Hs by lia.
    by apply (exec_mass_fail m _ (Panic PUnwrap)).
  - done.
  - destruct Hs as (_&->&Hs). split; [done|]. by apply (exec_mass_fail m _ (Err OrderNotFound)).
  - destruct Hs as (_&->&Hs). split; [done|]. by apply (exec_mass_fail m _ (Panic PIndex)).
  - done.
Qed.
Lemma mass_loop_failing c : forall ids m L pend tb tq, minv c m L pend -> seq_of m < p63 ->
  tb < p64 -> tq < p64 ->
  (forall x, fst (mass_cancel_loop ids tb tq m) <> Ok x) ->
  exists pre id post sms m1, ids = pre ++ id :: post /\ cancels same_id m pre sms m1 /\
    tb + sumN total_base_qty sms < p64 /\ tq + sumN total_quote_qty sms < p64 /\
    (forall sm, fst (exec same_id (CancelOrder id) m1) = Ok (Some sm) ->
       p64 <= tb + sumN total_base_qty sms + total_base_qty sm \/
       p64 <= tq + sumN total_quote_qty sms + total_quote_qty sm).
Proof.
  induction ids as [|id ids IH]; intros m L pend tb tq Hm Hsq Htb Htq Hn.
  { by destruct (Hn (tb, tq)). }
  pose proof (mass_loop_step c m L pend id ids tb tq Hm Hsq) as Hs.
  assert (Hhere : (forall sm, fst (exec same_id (CancelOrder id) m) = Ok (Some sm) ->
       p64 <= tb + total_base_qty sm \/ p64 <= tq + total_quote_qty sm) ->
    exists pre id0 post sms m1, id :: ids = pre ++ id0 :: post /\ cancels same_id m pre sms m1 /\
    tb + sumN total_base_qty sms < p64 /\ tq + sumN total_quote_qty sms < p64 /\
    (forall sm, fst (exec same_id (CancelOrder id0) m1) = Ok (Some sm) ->
       p64 <= tb + sumN total_base_qty sms + total_base_qty sm \/
       p64 <= tq + sumN total_quote_qty sms + total_quote_qty sm)).
  { intros H. exists [], id, ids, [], m. cbn. rewrite !N.add_0_r. split_and!; try done. constructor. }
  destruct (exec same_id (CancelOrder id) m) as [[[sm|]|e|x|] m2] eqn:He; [|done| | |done].
  2:{ by apply Hhere. }
  2:{ by apply Hhere. }
  destruct ((tb + total_base_qty sm <? p64) && (tq + total_quote_qty sm <? p64)) eqn:Hfit.
  2:{ apply Hhere. intros sm' Hsm. cbn [fst] in Hsm. injection Hsm as <-. clear -Hfit. lia. }
  rewrite Hs in Hn.
  assert (Hc1 : cancels same_id m [id] [sm] m2) by (econstructor; [exact He|constructor]).
  destruct (cancels_minv c _ _ _ _ Hc1 L pend Hm Hsq) as (L2&Hm2&Hsq2).
  destruct (IH m2 L2 pend (tb + total_base_qty sm) (tq + total_quote_qty sm) Hm2 Hsq2 ltac:(lia) ltac:(lia) Hn)
    as (pre&id'&post&sms&m1&->&Hc&H1&H2&H3).
  exists (id :: pre), id', post, (sm :: sms), m1. cbn [sumN app].
  split_and!; [done|by econstructor|lia|lia|]. intros sm' Hsm. specialize (H3 sm' Hsm). lia.
Qed.
Lemma mass_failing c m ids r m' : reachable same_id c m ->
  exec same_id (MassCancelOrders ids) m = (r, m') -> (forall x, r <> Ok x) ->
  m' = m /\
  exists pre id post sms m1, ids = pre ++ id :: post /\ cancels same_id m pre sms m1 /\
    sumN total_base_qty sms < p64 /\ sumN total_quote_qty sms < p64 /\
    ((fst (exec same_id (CancelOrder id) m1) = r /\ (r = Err OrderNotFound \/ r = Panic PIndex)) \/
     (r = Panic PUnwrap /\ exists sm, fst (exec same_id (CancelOrder id) m1) = Ok (Some sm) /\
        (p64 <= sumN total_base_qty sms + total_base_qty sm \/
         p64 <= sumN total_quote_qty sms + total_quote_qty sm))).
Proof.
  intros Hr He Hn. destruct (reachable_minv _ _ _ Hr) as (L&pend&Hm&Hsq).
  assert (Hl : forall x, fst (mass_cancel_loop ids 0 0 m) <> Ok x).
  { intros [tb tq] Hx. unfold exec, process, process_mass_cancel in He. rewrite bind_assoc in He.
    unfold bind at 1 in He. destruct (mass_cancel_loop ids 0 0 m) as [y m1]. cbn in Hx. subst y.
    cbn in He. injection He as <- _. by eapply Hn. }
  destruct (mass_loop_failing c ids m L pend 0 0 Hm Hsq ltac:(lia) ltac:(lia) Hl)
    as (pre&id&post&sms&m1&->&Hc&H1&H2&H3). rewrite !N.add_0_l in *.
  pose proof (mass_first_failure c m pre sms m1 id post Hr Hc H1 H2) as Hf.
  destruct (exec same_id (CancelOrder id) m1) as [[[sm|]|e|x|] m2] eqn:He1; [|done| | |done].
  - specialize (H3 sm eq_refl). rewrite (Hf H3) in He. injection He as <- <-. split; [done|].
    exists pre, id, post, sms, m1. split_and!; try done. right. split; [done|]. exists sm. by rewrite He1.
  - destruct Hf as (->&Hf). rewrite Hf in He. injection He as <- <-. split; [done|].
    exists pre, id, post, sms, m1. split_and!; try done. left. rewrite He1. auto.
  - destruct Hf as (->&Hf). rewrite Hf in He. injection He as <- <-. split; [done|].
    exists pre, id, post, sms, m1. split_and!; try done. left. rewrite He1. auto.
Qed.
End Mass.

(** ** C31: the failures *)
(** A mass cancel that fails changes nothing, and names the first id whose turn fails:
    the ids before it could be cancelled one after the other; on the state they lead
    to, cancelling this id fails with the very result of the mass cancel, or it
    succeeds but one of the two totals no longer fits 64 bits. *)
Theorem C31_failure : forall (C : Type) (same_id : C -> C -> bool) c m ids r m',
  reachable same_id c m ->
  exec same_id (MassCancelOrders ids) m = (r, m') -> (forall x, r <> Ok x) ->
  m' = m /\
  exists pre id post sms m1, ids = pre ++ id :: post /\ cancels same_id m pre sms m1 /\
    sumN total_base_qty sms < p64 /\ sumN total_quote_qty sms < p64 /\
    ((fst (exec same_id (CancelOrder id) m1) = r /\ (r = Err OrderNotFound \/ r = Panic PIndex)) \/
     (r = Panic PUnwrap /\ exists sm, fst (exec same_id (CancelOrder id) m1) = Ok (Some sm) /\
        (p64 <= sumN total_base_qty sms + total_base_qty sm \/
         p64 <= sumN total_quote_qty sms + total_quote_qty sm))).
Proof. exact @mass_failing. Qed.
Print Assumptions C31_failure.
(** Conversely, an id that cannot be cancelled when its turn comes decides the result. *)
Theorem C31_first_failure : forall (C : Type) (same_id : C -> C -> bool) c m pre sms m1 id post r m2,
  reachable same_id c m -> cancels same_id m pre sms m1 ->
  sumN total_base_qty sms < p64 -> sumN total_quote_qty sms < p64 ->
  exec same_id (CancelOrder id) m1 = (r, m2) -> (forall x, r <> Ok x) ->
  exec same_id (MassCancelOrders (pre ++ id :: post)) m = (r, m).
Proof.
  intros C same_id c m pre sms m1 id post r m2 Hr Hc H1 H2 He Hn.
  pose proof (mass_first_failure same_id c m pre sms m1 id post Hr Hc H1 H2) as Hf. rewrite He in Hf.
  destruct r as [x|e|x|]; [by destruct (Hn x)| | |done].
  - by destruct Hf as [-> ?].
  - by destruct Hf as [-> ?].
Qed.
Print Assumptions C31_first_failure.
(** In particular an id that never rested on the market makes the mass cancel return
    the error OrderNotFound, not a panic, provided the ids before it are fine. *)
Theorem C31_never_posted : forall (C : Type) (same_id : C -> C -> bool) c log m pre id post,
  config_ok c -> history same_id c log m -> N.of_nat (length log) + 1 < p63 ->
  Forall (fun x => x < p128) pre ->
  NoDup pre -> (forall x, x ∈ pre -> x ∈ map o_id (resting m (side_of_id x))) ->
  sumN (base_of m) pre < p64 -> sumN (quote_of_id m) pre < p64 ->
  id ∉ posted_ids log ->
  exec same_id (MassCancelOrders (pre ++ id :: post)) m = (Err OrderNotFound, m).
Proof.
  intros C same_id c log m pre id post Hc Hh Hl Hty Hnd Hin H1 H2 Hni.
  assert (Hr : reachable same_id c m) by (split; [done|]; exists log; split; [done|lia]).
  destruct (C31_mass_cancel C same_id c m pre Hr) as [(_&_&_&_&m1&He&_)|[Hx _]];
    [|by destruct Hx].
  pose proof He as Hs. apply mass_cancel_seq in Hs as (sms&Hs&H3&H4&_).
  eapply C31_first_failure; [done|exact Hs|done|done| |done].
  eapply (cancel_never_posted same_id c (log ++ [mk_entry (MassCancelOrders pre) _ (emitted m m1)]));
    [done| | |].
  - eapply steps_snoc; [exact Hh| |exact He]. exact Hty.
  - rewrite app_length. cbn [length]. lia.
  - unfold posted_ids. rewrite omap_app. cbn. by rewrite app_nil_r.
Qed.
Print Assumptions C31_never_posted.
(** Both kinds of failure occur.  On the running example, cancelling the ask, then the
    bid, then an id that is gone: the first two cancellations are fine. *)
Definition g_big : N := 9223372036854775808.
Definition g_ops : list (op N) := [
  ex_new Bid g_big g_big 1 10 1 false true DecrementTake;
  ex_new Bid g_big g_big 1 10 2 false true DecrementTake].
Definition g_m : market N := Eval vm_compute in after N.eqb ex_cfg g_ops.
Definition g_ids : list N := Eval vm_compute in map o_id (resting g_m Bid).
Example C31_example_failure :
  reachable N.eqb ex_cfg h_m /\
  fst (exec N.eqb (MassCancelOrders [h_id_a3; h_id_b1; h_id_b2]) h_m) = Err OrderNotFound /\
  fst (exec N.eqb (CancelOrder h_id_b2)
         (snd (exec N.eqb (CancelOrder h_id_b1) (snd (exec N.eqb (CancelOrder h_id_a3) h_m))))) =
    Err OrderNotFound /\
  reachable N.eqb ex_cfg g_m /\ length g_ids = 2%nat /\
  fst (exec N.eqb (MassCancelOrders (take 1 g_ids)) g_m) =
    Ok (Some (mk_summary None g_big (g_big / 2) 0)) /\
  fst (exec N.eqb (MassCancelOrders g_ids) g_m) = Panic PUnwrap /\
  77 ∉ posted_ids h_log /\
  fst (exec N.eqb (MassCancelOrders [h_id_a3; 77; h_id_b1]) h_m) = Err OrderNotFound.
Proof.
  split; [exact h_reachable|]. split; [by vm_compute|]. split; [by vm_compute|].
  split; [change g_m with (after N.eqb ex_cfg g_ops); apply after_reachable;
          [exact ex_cfg_ok|vm_compute; reflexivity..]|].
  split; [by vm_compute|]. split; [by vm_compute|]. split; [by vm_compute|].
  split; [rewrite <- (bool_decide_spec (_ ∈ _)); vm_compute; auto|by vm_compute].
Qed.
