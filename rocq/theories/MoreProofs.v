(** * MoreProofs.v: winding down, independence from the crank, observable state
    (proofs of C55, C56, C57) *)
From stdpp Require Import gmap.
From Verif Require Import Machine Critbit EventQueue OrderBook Market Spec MachineProofs.
From Verif Require Import TreeProofs SlabProofs SlabProofs2 QueueProofs Engine BookProofs EngineProofs.
From Verif Require Import MarketProofs MarketFacts InstrProps HistoryProps MarketReads CrankProofs MoreSpec.
From Coq Require Import ZifyBool ZifyNat ZifyN.

Section More.
Context {C : Type} (same_id : C -> C -> bool).
Implicit Types m : market C.
Implicit Types c : config C.
Implicit Types log : list (entry C).

(** ** Reachability after one more instruction *)
Lemma reachable_step c m o r m' log : config_ok c -> history same_id c log m ->
  N.of_nat (length log) + 1 < p63 -> op_typed o -> exec same_id o m = (r, m') ->
  history same_id c (log ++ [mk_entry o r (emitted m m')]) m'.
Proof. intros Hc Hh Hl Hty He. unfold history. by econstructor. Qed.

(** ** C56: one instruction *)
Lemma minv_same c m L pend m' L' pend' : minv c m L pend -> minv c m' L' pend' ->
  bids (m_book m) = bids (m_book m') -> asks (m_book m) = asks (m_book m') ->
  seq_of m = seq_of m' -> msame pend pend' [] m m'.
Proof.
  intros Hm Hm' Hb Ha Hs. split.
  - by rewrite (mi_min _ _ _ _ Hm), (mi_min _ _ _ _ Hm').
  - by rewrite (mi_tick _ _ _ _ Hm), (mi_tick _ _ _ _ Hm').
  - split; try done.
    + by rewrite (mi_qcap _ _ _ _ Hm), (mi_qcap _ _ _ _ Hm').
    + rewrite app_nil_r. apply Hm.
    + rewrite app_nil_r. apply Hm'.
Qed.
Lemma pending_qrep m pend : qrep (evq (m_book m)) pend -> pending m = pend.
Proof. intros H. unfold pending. by rewrite (queue_iter_ok _ _ H). Qed.
Lemma msame_resting d d' F m m' sd : msame d d' F m m' -> resting m sd = resting m' sd.
Proof.
  intros [_ _ [H1 H2 _ _ _ _]]. unfold resting, tree. by destruct sd; rewrite ?H1, ?H2.
Qed.
Lemma msame_pending d d' F m m' : msame d d' F m m' -> pending m = d ++ F /\ pending m' = d' ++ F.
Proof. intros [_ _ [_ _ _ _ H1 H2]]. split; by apply pending_qrep. Qed.
Lemma msame_move d d' F m m' : msame d d' F m m' -> msame (d ++ F) (d' ++ F) [] m m'.
Proof. intros [H1 H2 [H3 H4 H5 H6 H7 H8]]. split; [done..|]. split; rewrite ?app_nil_r; done. Qed.

(** A trade on two markets that differ in the queue only. *)
Lemma trade_same d d' F m m' o r m1 r' m1' : trades o = true -> msame d d' F m m' ->
  exec same_id o m = (r, m1) -> exec same_id o m' = (r', m1') ->
  r = Err EventQueueFull \/
  (r' = Err EventQueueFull /\ (length (pending m) < length (pending m'))%nat) \/
  (r = r' /\ emitted m m1 = emitted m' m1' /\ exists F1, msame d d' F1 m1 m1').
Proof.
  intros Ho H He He'. apply msame_pending in H as Hpp. destruct Hpp as [P P'].
  apply msame_move in H. pose proof (mpar_exec same_id _ _ o [] m m' Ho H) as Hx.
  rewrite He, He' in Hx. cbn [fst snd] in Hx. rewrite P, P'.
  destruct Hx as [E|[[E L]|[E (F1 & R)]]]; [by left|right; left; done|].
  right; right. split; [done|]. apply msame_pending in R as Hpp. destruct Hpp as [P1 P1'].
  unfold emitted. rewrite P, P', P1, P1', !drop_app. split; [done|].
  exists (F ++ F1). destruct R as [R1 R2 [R3 R4 R5 R6 R7 R8]]. split; [done..|].
  split; rewrite ?app_assoc; done.
Qed.

Lemma crank_one c m n mc o r m1 r' m1' :
  reachable same_id c m -> op_typed o ->
  exec same_id (ConsumeEvents n) m = (Ok None, mc) ->
  exec same_id o m = (r, m1) -> exec same_id o mc = (r', m1') ->
  r <> Err EventQueueFull ->
  r' = r /\ emitted mc m1' = emitted m m1 /\ (forall sd, resting m1' sd = resting m1 sd) /\
  q_seq (evq (m_book m1')) = q_seq (evq (m_book m1)).
Proof.
  intros Hr Hty Hc He He' Hne. destruct (reachable_minv _ _ _ Hr) as (L & pend & Hm & Hsq).
  destruct (exec_consume same_id c m L pend n Hm) as (mc0 & Hc0 & Hmc & Hs & Hb & Ha).
  rewrite Hc0 in Hc. injection Hc as ->. unfold seq_of in Hs.
  destruct (trades o) eqn:Ho.
  - pose proof (minv_same _ _ _ _ _ _ _ Hm Hmc (eq_sym Hb) (eq_sym Ha) (eq_sym Hs)) as Hsame.
    destruct (trade_same _ _ _ _ _ _ _ _ _ _ Ho Hsame He He') as [E|[[E Hl]|(E & Hem & F1 & R)]].
    + done.
    + exfalso. rewrite (minv_pending _ _ _ _ Hm), (minv_pending _ _ _ _ Hmc), drop_length in Hl. lia.
    + split_and!; try done. { intros sd. by rewrite (msame_resting _ _ _ _ _ sd R). }
      symmetry. apply R.
  - destruct o as [| | |k]; try discriminate Ho.
    destruct (exec_consume same_id c m L pend k Hm) as (x & Hx & Hmx & Sx & Bx & Ax).
    destruct (exec_consume same_id c mc L _ k Hmc) as (y & Hy & Hmy & Sy & By & Ay).
    rewrite Hx in He. rewrite Hy in He'. simplify_eq. split; [done|]. split.
    + rewrite !(emitted_drop _ _ (N.to_nat k)); [done|..].
      * by rewrite (minv_pending _ _ _ _ Hm), (minv_pending _ _ _ _ Hmx).
      * by rewrite (minv_pending _ _ _ _ Hmc), (minv_pending _ _ _ _ Hmy).
    + split; [|unfold seq_of in *; congruence].
      intros sd. by rewrite (minv_resting _ _ _ _ sd Hmx), (minv_resting _ _ _ _ sd Hmy).
Qed.

(** ** C56: histories *)
Lemma msame_consume c m m' d d' F n m1 : reachable same_id c m -> msame d d' F m m' ->
  exec same_id (ConsumeEvents n) m = (Ok None, m1) -> exists d1 d1' F1, msame d1 d1' F1 m1 m'.
Proof.
  intros Hr H He. destruct (reachable_minv _ _ _ Hr) as (L & pend & Hm & Hsq).
  destruct (exec_consume same_id c m L pend n Hm) as (x & Hx & Hmx & Sx & Bx & Ax).
  rewrite Hx in He. injection He as ->. apply msame_pending in H as Hpp. destruct Hpp as [P P'].
  rewrite (minv_pending _ _ _ _ Hm) in P. subst pend. set (k := N.to_nat n) in *.
  pose proof (mi_q _ _ _ _ Hmx) as Q. rewrite skipn_app in Q.
  destruct H as [R1 R2 [R3 R4 R5 R6 R7 R8]]. unfold seq_of in Sx.
  exists (drop k d), (d' ++ take (k - length d) F), (drop (k - length d) F). split.
  - by rewrite (mi_min _ _ _ _ Hmx), <- (mi_min _ _ _ _ Hm).
  - by rewrite (mi_tick _ _ _ _ Hmx), <- (mi_tick _ _ _ _ Hm).
  - split.
    + congruence.
    + congruence.
    + congruence.
    + by rewrite (mi_qcap _ _ _ _ Hmx), <- (mi_qcap _ _ _ _ Hm).
    + done.
    + by rewrite <- app_assoc, take_drop.
Qed.
Lemma msame_sym d d' F m m' : msame d d' F m m' -> msame d' d F m' m.
Proof. intros [H1 H2 [H3 H4 H5 H6 H7 H8]]. split; [done..|]. by split. Qed.

Lemma trading_app log1 log2 : trading (log1 ++ log2) = trading log1 ++ trading log2.
Proof. unfold trading. apply List.filter_app. Qed.
Lemma trading_one (e : entry C) : trading [e] = if trades (en_op e) then [e] else [].
Proof. unfold trading. cbn. by destruct (en_op e). Qed.
Lemma init_same c : config_ok c -> msame [] [] [] (init_market c) (init_market c).
Proof. intros Hc. by eapply minv_same; [apply init_minv|apply init_minv|..]. Qed.
(** Dropping the last instruction of a history. *)
Lemma history_snoc c log e m : history same_id c (log ++ [e]) m ->
  exists m0, history same_id c log m0 /\ op_typed (en_op e) /\
    exec same_id (en_op e) m0 = (en_res e, m) /\ en_events e = emitted m0 m.
Proof.
  intros H. inversion H as [Hnil|log0 m0 o r m' Hs Hty He Heq]; [by destruct log|].
  subst m'. apply app_inj_tail in Heq as [-> <-]. by exists m0.
Qed.
Lemma crank_history c : config_ok c -> forall n log m log' m',
  (length log + length log' <= n)%nat ->
  history same_id c log m -> history same_id c log' m' ->
  N.of_nat (length log) < p63 -> N.of_nat (length log') < p63 ->
  map en_op (trading log) = map en_op (trading log') ->
  (forall e, e ∈ log -> en_res e <> Err EventQueueFull) ->
  (forall e, e ∈ log' -> en_res e <> Err EventQueueFull) ->
  trading log = trading log' /\ exists d d' F, msame d d' F m m'.
Proof.
  intros Hc. induction n as [|n IH]; intros log m log' m' Hn Hh Hh' Hl Hl' Hops Hok Hok'.
  - destruct log; [|cbn in Hn; lia]. destruct log'; [|cbn in Hn; lia].
    inversion Hh as [|? ? ? ? ? ? ? ? Hx]; subst; [|by destruct log].
    inversion Hh' as [|? ? ? ? ? ? ? ? Hx]; subst; [|by destruct log].
    split; [done|]. exists [], [], []. by apply init_same.
  - assert (Hcons : forall log m log' m',
      (length log + length log' <= S n)%nat -> history same_id c log m -> history same_id c log' m' ->
      N.of_nat (length log) < p63 -> N.of_nat (length log') < p63 ->
      map en_op (trading log) = map en_op (trading log') ->
      (forall e, e ∈ log -> en_res e <> Err EventQueueFull) ->
      (forall e, e ∈ log' -> en_res e <> Err EventQueueFull) ->
      (exists log0 e k, log = log0 ++ [e] /\ en_op e = ConsumeEvents k) ->
      trading log = trading log' /\ exists d d' F, msame d d' F m m').
    { clear log m log' m' Hn Hh Hh' Hl Hl' Hops Hok Hok'.
      intros log m log' m' Hn Hh Hh' Hl Hl' Hops Hok Hok' (log0 & e & k & -> & Hek).
      apply history_snoc in Hh as (m0 & Hh0 & Hty & He & Hev). rewrite Hek in He.
      rewrite app_length in Hn, Hl. cbn [length] in Hn, Hl.
      assert (Htr : trading (log0 ++ [e]) = trading log0).
      { by rewrite trading_app, trading_one, Hek, app_nil_r. }
      rewrite Htr in *.
      assert (Hr0 : reachable same_id c m0) by (split; [done|]; exists log0; split; [done|lia]).
      destruct (IH log0 m0 log' m' ltac:(lia) Hh0 Hh' ltac:(lia) Hl' Hops) as (E & d & d' & F & R); [|done|].
      { intros x Hx. apply Hok. apply elem_of_app. by left. }
      split; [done|]. destruct (consume_ok same_id c m0 k Hr0) as (m1 & Hx & _).
      rewrite Hx in He. injection He as _ ->. by apply (msame_consume c m0 m' d d' F k). }
    destruct log as [|e log _] using rev_ind.
    { destruct log' as [|e' log' _] using rev_ind; [apply (IH [] m [] m'); try done; cbn; lia|].
      destruct (trades (en_op e')) eqn:T.
      { exfalso. rewrite trading_app, map_app, trading_one, T in Hops.
        by destruct (map en_op (trading log')). }
      destruct (en_op e') as [| | |k] eqn:Eo; try discriminate T.
      destruct (Hcons (log' ++ [e']) m' [] m) as (E & d & d' & F & R); try done.
      { rewrite app_length in *. cbn in *. lia. }
      { by exists log', e', k. }
      split; [done|]. exists d', d, F. by apply msame_sym. }
    destruct (trades (en_op e)) eqn:T.
    2:{ destruct (en_op e) as [| | |k] eqn:Eo; try discriminate T.
        apply (Hcons (log ++ [e]) m log' m'); try done. by exists log, e, k. }
    destruct log' as [|e' log' _] using rev_ind.
    { exfalso. rewrite trading_app, map_app, trading_one, T in Hops. by destruct (map en_op (trading log)). }
    destruct (trades (en_op e')) eqn:T'.
    2:{ destruct (en_op e') as [| | |k] eqn:Eo; try discriminate T'.
        destruct (Hcons (log' ++ [e']) m' (log ++ [e]) m) as (E & d & d' & F & R); try done; [lia|by exists log', e', k|].
        split; [done|]. exists d', d, F. by apply msame_sym. }
    rewrite !trading_app in *. rewrite !map_app in Hops.
    assert (X : trading [e] = [e]) by (by rewrite trading_one, T).
    assert (X' : trading [e'] = [e']) by (by rewrite trading_one, T').
    rewrite X, X' in *. cbn [map] in Hops. apply app_inj_tail in Hops as [Hops Hop].
    apply history_snoc in Hh as (m0 & Hh0 & Hty & He & Hev).
    apply history_snoc in Hh' as (m0' & Hh0' & Hty' & He' & Hev').
    rewrite app_length in Hn, Hl, Hl'. rewrite app_length in Hn. cbn [length] in Hn, Hl, Hl'.
    destruct (IH log m0 log' m0' ltac:(lia) Hh0 Hh0' ltac:(lia) ltac:(lia) Hops) as (E & d & d' & F & R).
    { intros x Hx. apply Hok. apply elem_of_app. by left. }
    { intros x Hx. apply Hok'. apply elem_of_app. by left. }
    rewrite <- Hop in He'.
    destruct (trade_same _ _ _ _ _ _ _ _ _ _ T R He He') as [E1|[[E1 _]|(E1 & Hem & F1 & R1)]].
    { exfalso. apply (Hok e); [|done]. apply elem_of_app. right. left. }
    { exfalso. apply (Hok' e'); [|done]. apply elem_of_app. right. left. }
    split; [|by exists d, d', F1]. f_equal; [done|]. f_equal.
    destruct e as [eo er ee], e' as [eo' er' ee']. cbn in *. congruence.
Qed.
Lemma crank_free c log m log' m' : config_ok c ->
  history same_id c log m -> history same_id c log' m' ->
  N.of_nat (length log) < p63 -> N.of_nat (length log') < p63 ->
  map en_op (trading log) = map en_op (trading log') ->
  (forall e, e ∈ log ++ log' -> en_res e <> Err EventQueueFull) ->
  trading log = trading log' /\ (forall sd, resting m sd = resting m' sd) /\
  (exists gone gone' left_, pending m = gone ++ left_ /\ pending m' = gone' ++ left_).
Proof.
  intros Hc Hh Hh' Hl Hl' Hops Hok.
  destruct (crank_history c Hc _ log m log' m' (le_n _) Hh Hh' Hl Hl' Hops) as (E & d & d' & F & R).
  { intros e He. apply Hok. apply elem_of_app. by left. }
  { intros e He. apply Hok. apply elem_of_app. by right. }
  split; [done|]. split; [intros sd; by apply (msame_resting _ _ _ _ _ sd R)|].
  exists d, d', F. by apply msame_pending.
Qed.

(** ** C57 *)
Lemma view_minv c m1 m2 L1 L2 p1 p2 : minv c m1 L1 p1 -> minv c m2 L2 p2 -> same_view m1 m2 ->
  (forall sd, L1 sd = L2 sd) /\ p1 = p2 /\ seq_of m1 = seq_of m2.
Proof.
  intros H1 H2 (Hb & Hp & Hs). split_and!.
  - intros sd. specialize (Hb sd). rewrite (minv_resting _ _ _ _ sd H1), (minv_resting _ _ _ _ sd H2) in Hb.
    rewrite <- (prio_prio sd (L1 sd)), Hb. apply prio_prio.
  - by rewrite (minv_pending _ _ _ _ H1), (minv_pending _ _ _ _ H2) in Hp.
  - done.
Qed.
Lemma minv_view c m1 m2 L1 L2 p1 p2 : minv c m1 L1 p1 -> minv c m2 L2 p2 ->
  (forall sd, L1 sd = L2 sd) -> p1 = p2 -> seq_of m1 = seq_of m2 -> same_view m1 m2.
Proof.
  intros H1 H2 HL -> Hs. split_and!.
  - intros sd. by rewrite (minv_resting _ _ _ _ sd H1), (minv_resting _ _ _ _ sd H2), HL.
  - by rewrite (minv_pending _ _ _ _ H1), (minv_pending _ _ _ _ H2).
  - done.
Qed.
Lemma emass_ext : forall ids (L1 L2 : side -> list (order C)) tb tq, (forall sd, L1 sd = L2 sd) ->
  match emass ids L1 tb tq, emass ids L2 tb tq with
  | MDone L1' t1 q1, MDone L2' t2 q2 => (forall sd, L1' sd = L2' sd) /\ t1 = t2 /\ q1 = q2
  | MMissing, MMissing => True
  | MOver, MOver => True
  | _, _ => False
  end.
Proof.
  induction ids as [|id ids IH]; intros L1 L2 tb tq HL; cbn [emass]; [done|].
  rewrite HL. destruct (find_order id (L2 (side_of_id id))) as [o|]; [|done].
  destruct (_ && _); [|done]. apply IH. intros sd. unfold delL. by rewrite !HL.
Qed.
Lemma view_step c m1 m2 o r1 m1' r2 m2' :
  reachable same_id c m1 -> reachable same_id c m2 -> same_view m1 m2 -> op_typed o ->
  exec same_id o m1 = (r1, m1') -> exec same_id o m2 = (r2, m2') ->
  same_answer r1 r2 /\ same_view m1' m2'.
Proof.
  intros R1 R2 V Hty E1 E2. pose proof R1 as (Hc & _).
  destruct (reachable_minv _ _ _ R1) as (L1 & p1 & I1 & S1).
  destruct (reachable_minv _ _ _ R2) as (L2 & p2 & I2 & S2).
  destruct (view_minv _ _ _ _ _ _ _ I1 I2 V) as (HL & Hp & Hs). subst p2.
  destruct o as [p|id|ids|n].
  - pose proof (exec_new_order same_id c m1 L1 p1 p Hc I1 Hty S1) as H1.
    pose proof (exec_new_order same_id c m2 L2 p1 p Hc I2 Hty S2) as H2.
    cbn zeta in H1, H2. destruct (price_bad c p).
    { rewrite H1 in E1. rewrite H2 in E2. simplify_eq. split; [by left|done]. }
    rewrite !HL, Hs in H1.
    destruct (enew same_id p (c_min c) (L2 (p_side p)) (L2 (opposite (p_side p))) (caps c (p_side p)) (seq_of m2))
      as [E [[[[sm own'] opp'] seq']|]].
    + destruct (fits c p1 E).
      * destruct H1 as (x1 & H1 & J1 & Q1). destruct H2 as (x2 & H2 & J2 & Q2).
        rewrite H1 in E1. rewrite H2 in E2. simplify_eq. split; [by left|].
        apply (minv_view _ _ _ _ _ _ _ J1 J2); done.
      * rewrite H1 in E1. rewrite H2 in E2. simplify_eq. split; [by left|done].
    + destruct (fits c p1 E); rewrite H1 in E1; rewrite H2 in E2; simplify_eq; (split; [by left|done]).
  - pose proof (exec_cancel same_id c m1 L1 p1 id I1 S1) as H1.
    pose proof (exec_cancel same_id c m2 L2 p1 id I2 S2) as H2. cbn zeta in H1, H2.
    rewrite !HL in H1. destruct (find_order id (L2 (side_of_id id))) as [o|].
    + destruct H1 as (x1 & H1 & J1 & Q1). destruct H2 as (x2 & H2 & J2 & Q2).
      rewrite H1 in E1. rewrite H2 in E2. simplify_eq. split; [by left|].
      apply (minv_view _ _ _ _ _ _ _ J1 J2); try done. unfold seq_of in *. congruence.
    + rewrite H1 in E1. rewrite H2 in E2. simplify_eq. split; [|done].
      repeat match goal with |- context [if ?b then _ else _] => destruct b end; unfold same_answer; auto.
  - pose proof (exec_mass_cancel same_id c m1 L1 p1 ids I1 S1) as H1.
    pose proof (exec_mass_cancel same_id c m2 L2 p1 ids I2 S2) as H2.
    pose proof (emass_ext ids L1 L2 0 0 HL) as HX.
    destruct (emass ids L1 0 0) as [L1' t1 q1| |], (emass ids L2 0 0) as [L2' t2 q2| |]; try done.
    + destruct HX as (HL' & -> & ->).
      destruct H1 as (x1 & H1 & J1 & Q1). destruct H2 as (x2 & H2 & J2 & Q2).
      rewrite H1 in E1. rewrite H2 in E2. simplify_eq. split; [by left|].
      apply (minv_view _ _ _ _ _ _ _ J1 J2); try done. unfold seq_of in *. congruence.
    + destruct H1 as [H1|H1], H2 as [H2|H2]; rewrite H1 in E1; rewrite H2 in E2; simplify_eq;
        (split; [unfold same_answer; auto|done]).
    + rewrite H1 in E1. rewrite H2 in E2. simplify_eq. split; [by left|done].
  - destruct (exec_consume same_id c m1 L1 p1 n I1) as (x1 & H1 & J1 & Q1 & _).
    destruct (exec_consume same_id c m2 L2 p1 n I2) as (x2 & H2 & J2 & Q2 & _).
    rewrite H1 in E1. rewrite H2 in E2. simplify_eq. split; [by left|].
    apply (minv_view _ _ _ _ _ _ _ J1 J2); try done. congruence.
Qed.
Lemma view_emitted m1 m2 m1' m2' : same_view m1 m2 -> same_view m1' m2' -> emitted m1 m1' = emitted m2 m2'.
Proof. intros (_ & P & _) (_ & P' & _). unfold emitted. by rewrite P, P'. Qed.

(** ** C55 *)
Lemma qty_filter_ne (os : list (order C)) id id' : id <> id' ->
  qty_in (List.filter (fun x => negb (o_id x =? id)) os) id' = qty_in os id'.
Proof.
  intros H. unfold qty_in. induction os as [|x os IH]; [done|]. cbn.
  destruct (N.eqb_spec (o_id x) id) as [E|E]; cbn.
  - rewrite IH. destruct (N.eqb_spec (o_id x) id'); [congruence|done].
  - destruct (N.eqb_spec (o_id x) id'); [done|]. apply IH.
Qed.
Lemma wind_down c : forall ids m log, config_ok c -> history same_id c log m ->
  N.of_nat (length log + length ids) < p63 -> NoDup ids ->
  (forall id, id ∈ ids -> exists sd, id ∈ map o_id (resting m sd)) ->
  exists m' log', cancels same_id m ids
      (map (fun id => mk_summary None (base_of m id) (quote_of_id m id) 0) ids) m' /\
    history same_id c (log ++ log') m' /\ length log' = length ids /\
    (forall sd, resting m' sd = delete_ids ids (resting m sd)) /\ pending m' = pending m.
Proof.
  induction ids as [|id ids IH]; intros m log Hc Hh Hl Hnd Hin.
  - exists m, []. rewrite app_nil_r. split_and!; try done; [constructor|].
    intros sd. unfold delete_ids. symmetry. by apply filter_true.
  - cbn [length] in Hl. assert (Hr : reachable same_id c m).
    { split; [done|]. exists log. split; [done|lia]. }
    destruct (Hin id) as [sd Hid]; [left|]. apply elem_of_list_fmap in Hid as (o & -> & Ho).
    destruct (book_facts _ _ _ _ _ Hr Ho) as (Hsd & _ & _ & _ & _ & Hlt & _).
    destruct (cancel_present _ _ _ _ _ Hr Ho) as (m1 & He & _).
    destruct (cancel_ok_inv _ _ _ _ _ _ Hr He) as (o' & Ho' & Eid & Esm & Hrest & Hq).
    assert (Hbase : base_of m (o_id o) = o_qty o').
    { unfold base_of, qty_in. pose proof (resting_nodup _ _ _ (side_of_id (o_id o)) Hr) as Hnd0.
      pose proof (find_order_in (o_id o) _ o' Hnd0 Ho' Eid) as Hf. unfold find_order in Hf. by rewrite Hf. }
    apply NoDup_cons in Hnd as [Hni Hnd].
    assert (Hh1 : history same_id c (log ++ [mk_entry (CancelOrder (o_id o))
       (Ok (Some (mk_summary None (o_qty o) (o_qty o * id_price (o_id o) / p32) 0))) (emitted m m1)]) m1).
    { unfold history. by econstructor. }
    destruct (IH m1 _ Hc Hh1) as (m2 & log2 & Hcs & Hh2 & Hlen & Hdel & Hp2); [|done|..].
    { rewrite app_length. cbn. lia. }
    { intros id Hid. destruct (Hin id) as [sd' Hid']; [by right|]. exists sd'. rewrite Hrest.
      apply elem_of_list_fmap in Hid' as (x & -> & Hx). apply elem_of_list_fmap. exists x.
      split; [done|]. apply elem_of_list_In, filter_In. split; [by apply elem_of_list_In|].
      apply negb_true_iff, N.eqb_neq. intros E. rewrite E in Hid. done. }
    exists m2, (mk_entry (CancelOrder (o_id o))
       (Ok (Some (mk_summary None (o_qty o) (o_qty o * id_price (o_id o) / p32) 0))) (emitted m m1) :: log2).
    split_and!.
    + cbn [map]. econstructor.
      * rewrite He, Esm. unfold quote_of_id. by rewrite Hbase.
      * rewrite (map_ext_in _ (fun id => mk_summary None (base_of m1 id) (quote_of_id m1 id) 0)); [done|].
        intros id Hid%elem_of_list_In.
        assert (Eb : base_of m1 id = base_of m id).
        { unfold base_of. rewrite Hrest. apply qty_filter_ne. intros E. rewrite <- E in Hid. done. }
        unfold quote_of_id. by rewrite Eb.
    + by rewrite <- app_assoc in Hh2.
    + cbn. by rewrite Hlen.
    + intros sd'. rewrite Hdel, Hrest. by rewrite delete_ids_cons.
    + rewrite Hp2. by apply pending_evq.
Qed.
End More.
