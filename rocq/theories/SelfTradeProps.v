(** * SelfTradeProps.v: the three self-trade behaviors *)
From Verif Require Import Machine Bytes Critbit EventQueue OrderBook Market Spec MachineProofs
  TreeProofs SlabProofs SlabProofs2 QueueProofs IdProofs Engine BookProofs EngineProofs
  MarketProofs MarketFacts NewOrderProps NewOrderProps2.
From Coq Require Import ZifyBool ZifyNat ZifyN.
From Coq Require Import Sorting.Sorted.

Section SelfTrade.
Context {C : Type} (same_id : C -> C -> bool).
Implicit Types m : market C.
Implicit Types c : config C.
Implicit Types p : params C.
Implicit Types os : list (order C).
Implicit Types E : list (event_ref C).

Ltac placed H :=
  let Hn := fresh "Hn" in
  apply accepted_newo in H as (L&pend&l1&l&E1&E2&own'&opp'&Hn).

(** DecrementTake ignores identities. *)
Lemma decrement_take_blind (same_id' : C -> C -> bool) p m : stb p = DecrementTake ->
  exec same_id (NewOrder p) m = exec same_id' (NewOrder p) m.
Proof. destruct p. cbn. intros ->. reflexivity. Qed.

(** No self fill otherwise. *)
Lemma esteps_no_self p min l os E l' os' : esteps same_id p min l os E l' os' ->
  stb p <> DecrementTake ->
  forall e mk tk, EvFill e mk tk ∈ E -> same_id tk mk = false.
Proof.
  induction 1 as [|l os l1 os1 E1 E2 l2 os2 Hs _ IH]; intros Hb e mk tk Hin.
  { by apply elem_of_nil in Hin. }
  apply elem_of_app in Hin as [Hin|Hin]; [|by eapply IH].
  apply estep_next in Hs as [Hs _].
  inversion Hs as [? ? ?|? ? ? ? Hno|? ? ? ? Hno]; subst.
  - apply elem_of_list_singleton in Hin. done.
  - apply elem_of_cons in Hin as [Hin|Hin]; [|by apply elem_of_list_singleton in Hin].
    unfold ev_fill in Hin. simplify_eq. by destruct Hno.
  - apply elem_of_list_singleton in Hin. unfold ev_fill in Hin. simplify_eq. by destruct Hno.
Qed.
Lemma no_self_fill c m p sm m' : accepted same_id c m p sm m' -> stb p <> DecrementTake ->
  forall e mk tk, EvFill e mk tk ∈ emitted m m' -> same_id tk mk = false.
Proof.
  intros H Hb e mk tk Hin. placed H.
  rewrite (no_emit _ _ _ _ _ _ _ _ _ _ _ _ _ _ Hn) in Hin.
  apply elem_of_app in Hin as [Hin|Hin].
  - eapply esteps_no_self; [apply Hn|done|done].
  - destruct (no_E2 _ _ _ _ _ _ _ _ _ _ _ _ _ _ Hn) as [->|(w&own0&->&_)].
    + by apply elem_of_nil in Hin.
    + by apply elem_of_list_singleton in Hin.
Qed.

Lemma bind_lift_run {S A B} (r : res A) (f : A -> M S B) s :
  bind (lift r) f s =
  match r with Ok a => f a s | Err e => (Err e, s) | Panic x => (Panic x, s) | Diverge => (Diverge, s) end.
Proof. by destruct r. Qed.

(** ** AbortTransaction against DecrementTake *)
(** The run of the aborting order follows the other one until a self fill. *)
Lemma match_step_abort p min l b r b' :
  match_step same_id (with_stb p AbortTransaction) min l b = (r, b') ->
  r <> Err WouldSelfTrade ->
  match_step same_id (with_stb p DecrementTake) min l b = (r, b').
Proof.
  unfold match_step. cbn [with_stb limit_price p_side match_limit p_callback post_only stb].
  destruct (l_limit l =? 0); [done|]. rewrite !bind_get, !bind_lift_run.
  destruct (find_bbo b (opposite (p_side p))) as [[h|]|e|x|]; try done.
  rewrite !bind_lift_run.
  destruct (idx (leaf_nodes (tree b (opposite (p_side p)))) h) as [best|e|x|]; try done.
  destruct (post_only p || _); [done|].
  destruct (_ =? 0); [done|].
  rewrite !bind_lift_run.
  destruct (ok_or _ _) as [quote|e|x|]; try done.
  destruct (N.min quote (l_quote l) =? 0); [done|].
  rewrite !bind_lift_run.
  destruct (idx (callback_infos (tree b (opposite (p_side p)))) h) as [cb|e|x|]; try done.
  destruct (same_id (p_callback p) cb); [|done].
  unfold fail. intros [= <- <-]. done.
Qed.

Lemma loop_abort p min : forall n l b r b',
  loop_nat n (fun lb : locals * book C =>
       match match_step same_id (with_stb p AbortTransaction) min (fst lb) (snd lb) with
       | (Ok (ItNext l), b') => Continue (l, b')
       | (Ok (ItBreak l), b') => Done (Ok l, b')
       | (Err e, b') => Done (Err e, b')
       | (Panic x, b') => Done (Panic x, b')
       | (Diverge, b') => Done (Diverge, b')
       end) (l, b) = Done (Ok r, b') ->
  loop_nat n (fun lb : locals * book C =>
       match match_step same_id (with_stb p DecrementTake) min (fst lb) (snd lb) with
       | (Ok (ItNext l), b') => Continue (l, b')
       | (Ok (ItBreak l), b') => Done (Ok l, b')
       | (Err e, b') => Done (Err e, b')
       | (Panic x, b') => Done (Panic x, b')
       | (Diverge, b') => Done (Diverge, b')
       end) (l, b) = Done (Ok r, b').
Proof.
  induction n as [|n IH]; intros l b r b'; cbn [loop_nat fst snd]; [done|].
  destruct (match_step same_id (with_stb p AbortTransaction) min l b) as [r1 b1] eqn:Hs.
  destruct r1 as [[]| | |]; try done.
  - rewrite (match_step_abort _ _ _ _ _ _ Hs) by done. done.
  - rewrite (match_step_abort _ _ _ _ _ _ Hs) by done. apply IH.
Qed.
Lemma exec_abort_ok p m sm m' :
  exec same_id (NewOrder (with_stb p AbortTransaction)) m = (Ok (Some sm), m') ->
  exec same_id (NewOrder (with_stb p DecrementTake)) m = (Ok (Some sm), m').
Proof.
  intros H. unfold exec in *.
  destruct (process same_id (NewOrder (with_stb p AbortTransaction)) m) as [r1 m1] eqn:Hp.
  destruct r1; simplify_eq.
  assert (Hq : process same_id (NewOrder (with_stb p DecrementTake)) m = (Ok (Some sm), m'));
    [|by rewrite Hq].
  unfold process in *.
  assert (Hpn : process_new_order same_id (with_stb p AbortTransaction) m = (Ok sm, m')).
  { destruct (process_new_order same_id (with_stb p AbortTransaction) m) as [r2 m2] eqn:Hp2.
    unfold bind in Hp. rewrite Hp2 in Hp. unfold ret in Hp. destruct r2; by simplify_eq. }
  assert (Hq : process_new_order same_id (with_stb p DecrementTake) m = (Ok sm, m'));
    [|by rewrite (bind_ok _ _ _ _ _ Hq)].
  unfold process_new_order in *. rewrite bind_get in *.
  cbn [with_stb limit_price post_allowed] in *.
  destruct (m_tick m =? 0); [done|]. destruct (negb _); [done|]. destruct (_ && _); [done|].
  destruct (new_order same_id (with_stb p AbortTransaction) (m_min m) (m_book m)) as [r2 b2] eqn:Hn.
  rewrite (on_book_ok _ _ _ _ Hn) in Hpn. simplify_eq. apply on_book_ok.
  unfold new_order in *.
  destruct (match_loop same_id (with_stb p AbortTransaction) (m_min m) (m_book m)) as [r3 b3] eqn:Hl.
  destruct r3 as [l| | |];
    [|by rewrite (bind_err _ _ _ _ _ Hl) in Hn|by rewrite (bind_panic _ _ _ _ _ Hl) in Hn
     |unfold bind at 1 in Hn; by rewrite Hl in Hn].
  assert (Hl0 : match_loop same_id (with_stb p DecrementTake) (m_min m) (m_book m) = (Ok l, b3)).
  { unfold match_loop in *. rewrite loop_loop_nat in *.
    cbn [with_stb match_limit max_base_qty max_quote_qty] in *.
    destruct (loop_nat _ _ _) as [[]|r] eqn:He in Hl; [done|]. subst r.
    apply loop_abort in He. unfold with_stb in *. by rewrite He. }
  rewrite (bind_ok _ _ _ _ _ Hl) in Hn. rewrite (bind_ok _ _ _ _ _ Hl0). exact Hn.
Qed.


Lemma estep_stb p b min l os :
  estep same_id (with_stb p b) min l os =
  match estep same_id (with_stb p DecrementTake) min l os, os with
  | ENext l' os' E, o :: rest =>
      if same_id (p_callback p) (o_cb o) then
        match b with
        | DecrementTake => ENext l' os' E
        | AbortTransaction => EAbort
        | CancelProvide => ENext (mk_locals (l_limit l - 1) (l_base l) (l_quote l) true) rest
                             [ev_out (opposite (p_side p)) o (o_qty o)]
        end
      else ENext l' os' E
  | r, _ => r
  end.
Proof.
  unfold estep. cbn [with_stb limit_price p_side post_only].
  destruct (l_limit l =? 0); [done|]. destruct os as [|o rest]; [done|].
  destruct (post_only p || _) eqn:Hc; [done|].
  destruct (trade_base l o =? 0); [done|].
  destruct (quote_of _ _ _ =? 0); [done|].
  apply orb_false_iff in Hc as [_ Hc]. apply negb_false_iff in Hc. rewrite Hc.
  unfold is_self. cbn [with_stb stb p_callback].
  destruct b, (same_id (p_callback p) (o_cb o)), (_ <? min); done.
Qed.

Lemma eloop_abort_rel p min : forall fuel l os E0 r0 Ea ra,
  eloop same_id fuel (with_stb p DecrementTake) min l os = (E0, r0) ->
  eloop same_id fuel (with_stb p AbortTransaction) min l os = (Ea, ra) ->
  if existsb (self_fill same_id) E0 then ra = Abort /\ exists E', E0 = Ea ++ E'
  else Ea = E0 /\ ra = r0.
Proof.
  induction fuel as [|fuel IH]; intros l os E0 r0 Ea ra; cbn [eloop].
  { intros [= <- <-] [= <- <-]. done. }
  rewrite (estep_stb p AbortTransaction).
  destruct (estep same_id (with_stb p DecrementTake) min l os) as [l1| |l1 os1 E1] eqn:Es.
  - intros [= <- <-] [= <- <-]. done.
  - intros [= <- <-] [= <- <-]. done.
  - apply estep_next in Es as [Hm (o&rest&->&_)].
    destruct (eloop same_id fuel (with_stb p DecrementTake) min l1 os1) as [E2 r2] eqn:El.
    intros [= <- <-]. cbn [fst snd].
    assert (Hself : existsb (self_fill same_id) E1 = same_id (p_callback p) (o_cb o)).
    { inversion Hm as [? ? Hs|? ? ? ?|? ? ? ?]; subst; [done| |]; cbn; by rewrite ?orb_false_r. }
    rewrite existsb_app, Hself.
    destruct (same_id (p_callback p) (o_cb o)); cbn [orb].
    + intros [= <- <-]. split; [done|]. by exists (E1 ++ E2).
    + destruct (eloop same_id fuel (with_stb p AbortTransaction) min l1 os1) as [E3 r3] eqn:El3.
      intros [= <- <-]. cbn [fst snd]. specialize (IH _ _ _ _ _ _ El El3).
      destruct (existsb (self_fill same_id) E2).
      * destruct IH as [-> (E'&->)]. split; [done|]. exists E'. by rewrite app_assoc.
      * destruct IH as [-> ->]. done.
Qed.

Lemma existsb_false_out (E1 E2 : list (event_ref C)) :
  (E2 = [] \/ exists sd w q, E2 = [ev_out sd w q]) ->
  existsb (self_fill same_id) (E1 ++ E2) = existsb (self_fill same_id) E1.
Proof.
  intros H. rewrite existsb_app. destruct H as [->|(sd&w&q&->)]; cbn; by rewrite orb_false_r.
Qed.

Lemma abort_transaction c m p sm m' :
  reachable same_id c m -> op_typed (NewOrder p) ->
  exec same_id (NewOrder (with_stb p DecrementTake)) m = (Ok (Some sm), m') ->
  exec same_id (NewOrder (with_stb p AbortTransaction)) m =
    if existsb (self_fill same_id) (emitted m m') then (Err WouldSelfTrade, m) else (Ok (Some sm), m').
Proof.
  intros Hr Hty H0.
  set (p0 := with_stb p DecrementTake) in *. set (pa := with_stb p AbortTransaction) in *.
  assert (Hacc : accepted same_id c m p0 sm m') by done.
  destruct (reachable_minv _ _ _ Hr) as (L&pend&Hm&Hsq).
  pose proof Hr as (Hc&_).
  pose proof (exec_new_order same_id c m L pend p0 Hc Hm Hty Hsq) as X0.
  pose proof (exec_new_order same_id c m L pend pa Hc Hm Hty Hsq) as Xa.
  cbn zeta in X0, Xa.
  change (price_bad c pa) with (price_bad c p0) in Xa.
  destruct (price_bad c p0); [by rewrite X0 in H0|].
  change (p_side pa) with (p_side p) in Xa. change (p_side p0) with (p_side p) in X0.
  destruct (enew same_id p0 _ _ _ _ _) as [E0 r0] eqn:He0.
  destruct (enew same_id pa _ _ _ _ _) as [Ea ra] eqn:Hea.
  destruct (fits c pend E0) eqn:Hf0; [|by rewrite X0 in H0].
  destruct r0 as [[[[sm0 own0] opp0] seq0]|]; [|by rewrite X0 in H0].
  destruct X0 as (m0&X0&Hm0&_). rewrite X0 in H0. simplify_eq.
  assert (Hrel : if existsb (self_fill same_id) E0 then ra = None /\ exists E', E0 = Ea ++ E'
                 else Ea = E0 /\ ra = Some (sm, own0, opp0, seq0)).
  { unfold enew in He0, Hea.
    destruct (ematch same_id p0 (c_min c) (L (opposite (p_side p)))) as [E01 r01] eqn:Hm1.
    destruct (ematch same_id pa (c_min c) (L (opposite (p_side p)))) as [Ea1 ra1] eqn:Hm2.
    pose proof (eloop_abort_rel p (c_min c) _ _ _ _ _ _ _ Hm1 Hm2) as Hrel.
    destruct r01 as [l0 os0|]; [|done].
    destruct (epost p0 (c_min c) l0 (L (p_side p)) (caps c (p_side p)) (seq_of m))
      as [[[own1 E2] sm1] seq1] eqn:Hep. simplify_eq.
    rewrite existsb_false_out.
    2:{ apply epost_cases in Hep. destruct Hep; eauto. }
    destruct (existsb (self_fill same_id) E01).
    - destruct Hrel as [-> (E'&->)]. simplify_eq. split; [done|]. exists (E' ++ E2). by rewrite app_assoc.
    - destruct Hrel as [-> ->].
      change (epost pa) with (epost p0) in Hea. rewrite Hep in Hea. by simplify_eq. }
  assert (HE : emitted m m' = E0).
  { eapply emitted_app; done. }
  rewrite HE.
  destruct (existsb (self_fill same_id) E0).
  - destruct Hrel as [-> (E'&->)].
    assert (Hfa : fits c pend Ea = true).
    { unfold fits in *. rewrite app_length in Hf0. lia. }
    by rewrite Hfa in Xa.
  - destruct Hrel as [-> ->]. rewrite Hf0 in Xa. destruct Xa as (ma&Xa&_).
    pose proof (exec_abort_ok _ _ _ _ Xa) as Xd. fold p0 in Xd. rewrite X0 in Xd. by simplify_eq.
Qed.

Lemma decrement_never_self c m p m' :
  reachable same_id c m -> op_typed (NewOrder p) -> stb p = DecrementTake ->
  exec same_id (NewOrder p) m <> (Err WouldSelfTrade, m').
Proof.
  intros Hr Hty Hs He. destruct (new_order_cases _ _ _ _ _ _ Hr Hty He) as
    [(?&_)|(L&pend&_&Hm&Hsq&_&H)]; [done|].
  destruct (enew _ _ _ _ _ _ _) as [E x] eqn:Hen.
  destruct H as [(?&_)|[(_&_&_&->)|(sm&l1&l&E1&E2&own'&opp'&?&_)]]; try done.
  unfold enew in Hen.
  destruct (ematch same_id p (c_min c) (L (opposite (p_side p)))) as [E1 r] eqn:Hem.
  destruct r as [l os|]; [by destruct (epost _ _ _ _ _ _) as [[[? ?] ?] ?]|].
  apply eloop_abort in Hem as (l1&os1&_&Hab).
  - unfold estep, is_self in Hab. rewrite Hs in Hab. repeat case_match; done.
  - cbn. lia.
  - by apply l_init_typed.
  - by eapply minv_typed.
Qed.

Lemma abort_failure c m p e m' :
  reachable same_id c m -> op_typed (NewOrder p) ->
  exec same_id (NewOrder (with_stb p DecrementTake)) m = (Err e, m') ->
  exec same_id (NewOrder (with_stb p AbortTransaction)) m = (Err e, m) \/
  exec same_id (NewOrder (with_stb p AbortTransaction)) m = (Err WouldSelfTrade, m).
Proof.
  intros Hr Hty H0.
  set (p0 := with_stb p DecrementTake) in *. set (pa := with_stb p AbortTransaction) in *.
  destruct (exec same_id (NewOrder pa) m) as [ra ma] eqn:Ha.
  pose proof (new_order_price same_id c m p0 _ _ Hr Hty H0) as P0.
  pose proof (new_order_price same_id c m pa _ _ Hr Hty Ha) as Pa.
  cbn in P0, Pa. rewrite <- P0 in Pa.
  destruct (new_order_outcomes same_id c m pa _ _ Hr Hty Ha) as [(sm&->)|(->&Hra)].
  { apply exec_abort_ok in Ha. fold p0 in Ha. congruence. }
  destruct (new_order_outcomes same_id c m p0 _ _ Hr Hty H0) as [(sm&?)|(_&Hre)]; [done|].
  destruct Hra as [->|[->| ->]]; [|by right|].
  - left. by rewrite (proj1 Pa eq_refl).
  - destruct Hre as [Hre|[Hre|Hre]]; simplify_eq.
    + exfalso. by specialize (proj2 Pa eq_refl).
    + (* DecrementTake never self trades *)
      exfalso. exact (decrement_never_self c m p0 m' Hr Hty eq_refl H0).
    + by left.
Qed.

(** ** CancelProvide *)
Lemma esteps_own_out p min l os E l' os' : esteps same_id p min l os E l' os' ->
  stb p = CancelProvide ->
  forall o, o ∈ os -> same_id (p_callback p) (o_cb o) = true -> NoDup (map o_id os) ->
  (about (o_id o) E = [] /\ o ∈ os') \/
  (about (o_id o) E = [ev_out (opposite (p_side p)) o (o_qty o)] /\ o_id o ∉ map o_id os').
Proof.
  induction 1 as [|l os l1 os1 E1 E2 l2 os2 Hs Hes IH]; intros Hb o Ho Hsame Hnd.
  { by left. }
  apply estep_next in Hs as [Hs _].
  assert (Hgo : forall x : order C, o_id x <> o_id o ->
    (forall ev, ev ∈ E1 -> event_id ev = o_id x) -> o ∈ os1 -> NoDup (map o_id os1) ->
    (about (o_id o) (E1 ++ E2) = [] /\ o ∈ os2) \/
    (about (o_id o) (E1 ++ E2) = [ev_out (opposite (p_side p)) o (o_qty o)] /\ o_id o ∉ map o_id os2)).
  { intros x Hne Hev Ho1 Hnd1. rewrite about_app, (about_nil _ E1).
    - by apply IH.
    - intros ev Hin. rewrite Hev by done. done. }
  inversion Hs as [x rest Hcp Hsx|x rest base quote Hno ? ? Hq|x rest base quote Hno ? ? Hq]; subst;
    cbn in Hnd; apply NoDup_cons in Hnd as [Hx Hnd].
  - apply elem_of_cons in Ho as [->|Ho].
    + right. rewrite about_app. cbn. rewrite N.eqb_refl.
      pose proof (esteps_eats _ _ _ _ _ _ _ _ Hes) as He.
      rewrite about_nil.
      * split; [done|]. destruct (eats_ids _ _ _ He) as [d Hd]. rewrite Hd in Hx.
        intros Hin. apply Hx. apply elem_of_app. by right.
      * intros ev Hev Heq. apply Hx. rewrite <- Heq. by eapply eats_event_ids.
    + eapply (Hgo x); try done.
      * intros Heq. apply Hx. rewrite Heq. by apply elem_of_list_fmap_1.
      * intros ev Hev. by apply elem_of_list_singleton in Hev as ->.
  - assert (o <> x) by (intros ->; destruct Hno; congruence).
    apply elem_of_cons in Ho as [?|Ho]; [done|]. eapply (Hgo x); try done.
    + intros Heq. apply Hx. rewrite Heq. by apply elem_of_list_fmap_1.
    + intros ev Hev. apply elem_of_cons in Hev as [->|Hev]; [done|].
      by apply elem_of_list_singleton in Hev as ->.
  - assert (o <> x) by (intros ->; destruct Hno; congruence).
    apply elem_of_cons in Ho as [?|Ho]; [done|]. eapply (Hgo x); try done.
    + intros Heq. apply Hx. rewrite Heq. by apply elem_of_list_fmap_1.
    + intros ev Hev. by apply elem_of_list_singleton in Hev as ->.
    + by right.
    + cbn. by constructor.
Qed.

Lemma cancel_provide c m p sm m' : accepted same_id c m p sm m' -> stb p = CancelProvide ->
  forall o, o ∈ resting m (opposite (p_side p)) -> same_id (p_callback p) (o_cb o) = true ->
  (about (o_id o) (emitted m m') = [] /\ o ∈ resting m' (opposite (p_side p))) \/
  (about (o_id o) (emitted m m') =
     [EvOut (mk_out_event tag_out (side_u8 (opposite (p_side p))) 0 (o_id o) (o_qty o)) (o_cb o)] /\
   o_id o ∉ map o_id (resting m' (opposite (p_side p)))).
Proof.
  intros H Hb o Ho Hs. placed H.
  rewrite (in_resting _ _ _ _ _ _ (no_inv _ _ _ _ _ _ _ _ _ _ _ _ _ _ Hn)) in Ho.
  assert (Hnd : NoDup (map o_id (L (opposite (p_side p))))) by (eapply minv_nodup, Hn).
  rewrite (no_emit _ _ _ _ _ _ _ _ _ _ _ _ _ _ Hn), (no_rest_opp _ _ _ _ _ _ _ _ _ _ _ _ _ _ Hn).
  rewrite about_app, (about_nil _ E2), app_nil_r.
  - rewrite <- prio_map, !prio_elem.
    eapply esteps_own_out; [apply Hn|done|done|done|done].
  - intros ev Hev Heq. eapply no_E2_own in Hev as [Hev _]; [|exact Hn].
    eapply no_disjoint; [exact Hn|exact Hev|]. rewrite Heq. by apply elem_of_list_fmap_1.
Qed.
(** An own order with better priority than an order touched by the new order is cancelled. *)
Lemma cancel_provide_ahead c m p sm m' : accepted same_id c m p sm m' -> stb p = CancelProvide ->
  forall o ev, o ∈ resting m (opposite (p_side p)) -> same_id (p_callback p) (o_cb o) = true ->
  ev ∈ emitted m m' -> event_id ev ∈ map o_id (resting m (opposite (p_side p))) ->
  ~ ahead (opposite (p_side p)) (event_id ev) (o_id o) ->
  about (o_id o) (emitted m m') =
    [EvOut (mk_out_event tag_out (side_u8 (opposite (p_side p))) 0 (o_id o) (o_qty o)) (o_cb o)].
Proof.
  intros H Hb o ev Ho Hs Hev Hid Hna.
  destruct (cancel_provide _ _ _ _ _ H Hb o Ho Hs) as [[Hab _]|[Hab _]]; [|done].
  exfalso. apply Hna. by eapply untouched_behind.
Qed.

(** Other orders are only cancelled for the remainder of a fill. *)
Lemma out_after_fill p min l os E l' os' : esteps same_id p min l os E l' os' ->
  forall F1 e cb F2, E = F1 ++ EvOut e cb :: F2 ->
  (stb p = CancelProvide /\ same_id (p_callback p) cb = true) \/
  exists F0 e0 mk tk, F1 = F0 ++ [EvFill e0 mk tk] /\ fe_maker_id e0 = oe_id e /\
    oe_base e < min.
Proof.
  induction 1 as [|l os l1 os1 E1 E2 l2 os2 Hs Hes IH]; intros F1 e cb F2 HE.
  { by destruct F1. }
  apply estep_next in Hs as [Hs _].
  inversion Hs as [x rest Hcp Hsx|x rest base quote Hno ? ? Hq|x rest base quote Hno ? ? Hq]; subst;
    cbn in HE.
  - destruct F1 as [|f F1]; cbn in HE; [unfold ev_out in HE; simplify_eq; by left|]. injection HE as <- HE.
    destruct (IH _ _ _ _ HE) as [?|(F0&e0&mk&tk&->&?)]; [by left|right].
    by exists (ev_out (opposite (p_side p)) x (o_qty x) :: F0), e0, mk, tk.
  - destruct F1 as [|f F1]; cbn in HE; [done|]. injection HE as <- HE.
    destruct F1 as [|f F1]; cbn in HE.
    + unfold ev_out in HE. simplify_eq. right. by eexists [], _, _, _.
    + injection HE as <- HE. destruct (IH _ _ _ _ HE) as [?|(F0&e0&mk&tk&->&?)]; [by left|right].
      by eexists (_ :: _ :: F0), e0, mk, tk.
  - destruct F1 as [|f F1]; cbn in HE; [done|]. injection HE as <- HE.
    destruct (IH _ _ _ _ HE) as [?|(F0&e0&mk&tk&->&?)]; [by left|right].
    by eexists (_ :: F0), e0, mk, tk.
Qed.
Lemma out_reason c m p sm m' : accepted same_id c m p sm m' ->
  forall F1 e cb F2, emitted m m' = F1 ++ EvOut e cb :: F2 ->
  (stb p = CancelProvide /\ same_id (p_callback p) cb = true /\
   oe_id e ∈ map o_id (resting m (opposite (p_side p)))) \/
  (exists F0 e0 mk tk, F1 = F0 ++ [EvFill e0 mk tk] /\ fe_maker_id e0 = oe_id e /\
     oe_base e < c_min c) \/
  (F2 = [] /\ posted_order_id sm <> None /\ oe_id e ∈ map o_id (resting m (p_side p))).
Proof.
  intros H F1 e cb F2 HE. placed H.
  rewrite !(in_resting_ids _ _ _ _ _ _ (no_inv _ _ _ _ _ _ _ _ _ _ _ _ _ _ Hn)).
  rewrite (no_emit _ _ _ _ _ _ _ _ _ _ _ _ _ _ Hn) in HE.
  assert (Hcase : (exists F3, E1 = F1 ++ EvOut e cb :: F3) \/ (E2 = [EvOut e cb] /\ F2 = [])).
  { destruct (no_E2 _ _ _ _ _ _ _ _ _ _ _ _ _ _ Hn) as [->|(w&own0&HE2&_)].
    - rewrite app_nil_r in HE. eauto.
    - rewrite HE2 in HE |- *. destruct F2 as [|x F2 _] using rev_ind.
      + apply app_inj_tail in HE as [_ ->]. by right.
      + left. exists F2. rewrite app_comm_cons, app_assoc in HE. by apply app_inj_tail in HE as [? _]. }
  destruct Hcase as [(F3&HE1)|[HE2 ->]].
  - destruct (out_after_fill _ _ _ _ _ _ _ (no_steps _ _ _ _ _ _ _ _ _ _ _ _ _ _ Hn) _ _ _ _ HE1)
      as [[? ?]|?]; [|by right; left].
    left. split_and!; try done.
    eapply (no_E1_opp _ _ _ _ _ _ _ _ _ _ _ _ _ _ Hn (EvOut e cb)). rewrite HE1. apply elem_of_app. right. left.
  - right. right. split; [done|].
    assert (Hin : EvOut e cb ∈ E2) by (rewrite HE2; left).
    split; [|by eapply no_E2_own in Hin as [Hin _]].
    destruct (no_post _ _ _ _ _ _ _ _ _ _ _ _ _ _ Hn); done.
Qed.
End SelfTrade.
