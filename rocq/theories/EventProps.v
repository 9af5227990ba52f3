(** * EventProps.v: the events of the queue are sane *)
From Verif Require Import Machine Bytes Critbit EventQueue OrderBook Market Spec MachineProofs
  TreeProofs SlabProofs SlabProofs2 QueueProofs IdProofs Engine BookProofs EngineProofs
  MarketProofs MarketFacts NewOrderProps NewOrderProps2 InstrProps HistoryProps JsClient ClientSpec.
From Coq Require Import ZifyBool ZifyNat ZifyN.

Section Events.
Context {C : Type} (same_id : C -> C -> bool).
Implicit Types m : market C.
Implicit Types c : config C.

Definition out_u64 (ev : event_ref C) : Prop :=
  match ev with EvOut e _ => oe_base e < p64 | EvFill _ _ _ => True end.
Lemma esteps_outs p min l os E l' os' : esteps same_id p min l os E l' os' ->
  locals_typed l -> Forall order_typed os -> Forall out_u64 E.
Proof.
  induction 1 as [|l os l1 os1 E1 E2 l2 os2 Hs _ IH]; intros Hl Ht; [constructor|].
  destruct (estep_typed _ _ _ _ _ _ _ _ Hs Hl Ht) as (Hl1&Ht1&_).
  apply Forall_app. split; [|by apply IH]. clear IH.
  apply estep_next in Hs as [Hs _].
  inversion Hs; subst; apply Forall_cons in Ht as [[??] Ht]; repeat constructor; cbn; lia.
Qed.

Lemma emitted_sane c m p sm m' : accepted same_id c m p sm m' ->
  pending m' = pending m ++ emitted m m' /\ Forall (event_sane c) (emitted m m').
Proof.
  intros H. apply accepted_newo in H as (L&pend&l1&l&E1&E2&own'&opp'&Hn).
  pose proof (no_inv _ _ _ _ _ _ _ _ _ _ _ _ _ _ Hn) as Hm.
  pose proof (no_inv' _ _ _ _ _ _ _ _ _ _ _ _ _ _ Hn) as Hm'.
  pose proof (no_seq _ _ _ _ _ _ _ _ _ _ _ _ _ _ Hn) as Hsq.
  assert (Hp : forall sd o, o ∈ L sd ->
    0 < id_price (o_id o) /\ (c_tick c | id_price (o_id o)) /\ side_of_id (o_id o) = sd /\
    o_id o < p128 /\ o_qty o < p64).
  { intros sd o Ho.
    pose proof (minv_ok _ _ _ _ _ _ Hm Ho) as Hok.
    pose proof (order_ok_price _ _ _ _ Hsq Hok) as (Hx&?&?&?&?&?&?&?&?).
    rewrite <- Hx. split_and!; try done; lia. }
  assert (HE : emitted m m' = E1 ++ E2) by exact (emitted_app _ _ _ _ _ _ _ _ Hm Hm').
  rewrite HE. split.
  { rewrite (minv_pending _ _ _ _ Hm), (minv_pending _ _ _ _ Hm'). done. }
  apply Forall_app. split; apply Forall_forall; intros ev Hev.
  - pose proof (no_event _ _ _ _ _ _ _ _ _ _ _ _ _ _ Hn _ Hev) as Hok.
    pose proof (no_E1_opp _ _ _ _ _ _ _ _ _ _ _ _ _ _ Hn _ Hev) as Hid.
    apply elem_of_list_fmap in Hid as (o&Hid&Ho).
    destruct (Hp _ _ Ho) as (P1&P2&P3&P4&P5). rewrite <- Hid in P1, P2, P3, P4.
    split; [done|]. split; [done|]. destruct ev as [e mk tk|e cb]; cbn in Hok |- *; cbn in P1, P2, P3, P4.
    + destruct Hok as (?&?&?&?&?&?&Hq&_&_). exists (p_side p).
      rewrite (id_price_key _ P4) in Hq. change (quote_of (p_side p)) with (quote_amount (p_side p)) in Hq.
      split_and!; try done; try lia.
      destruct e; cbn in *. unfold tag_fill, tag_out, side_u8, side_byte in *. congruence.
    + destruct Hok as (?&?&?&_).
      assert (Ho64 : out_u64 (EvOut e cb)).
      { pose proof (esteps_outs _ _ _ _ _ _ _ (no_steps _ _ _ _ _ _ _ _ _ _ _ _ _ _ Hn)
          (l_init_typed _ (no_ty _ _ _ _ _ _ _ _ _ _ _ _ _ _ Hn))
          (no_typed_opp _ _ _ _ _ _ _ _ _ _ _ _ _ _ Hn)) as Hf.
        rewrite Forall_forall in Hf. by apply Hf. }
      split; [|exact Ho64]. rewrite P3. destruct e; cbn in *. unfold tag_fill, tag_out, side_u8, side_byte in *. congruence.
  - destruct (no_E2 _ _ _ _ _ _ _ _ _ _ _ _ _ _ Hn) as [->|(w&own0&->&Hw)].
    { by apply elem_of_nil in Hev. }
    apply elem_of_list_singleton in Hev as ->.
    destruct (Hp (p_side p) w) as (P1&P2&P3&P4&P5); [rewrite Hw; set_solver|].
    split; [done|]. split; [done|]. cbn. rewrite P3. done.
Qed.

Lemma pending_sane c m : reachable same_id c m -> Forall (event_sane c) (pending m).
Proof.
  intros (Hc&log&Hh&Hl). revert Hl. unfold history in Hh.
  induction Hh as [|log m o r m' Hh IH Hty He]; intros Hl.
  - rewrite (minv_pending _ _ _ _ (init_minv c Hc)). constructor.
  - rewrite app_length in Hl. cbn in Hl. specialize (IH ltac:(lia)).
    assert (Hr : reachable same_id c m) by (split; [done|]; exists log; split; [done|lia]).
    destruct (is_ok r) eqn:Hok; [|by rewrite (exec_failed _ _ _ _ _ He Hok)].
    destruct r as [r| | |]; try done. clear Hok.
    destruct (reachable_minv _ _ _ Hr) as (L&pend&Hm&Hs).
    destruct o as [p|id|ids|n].
    + destruct (new_order_outcomes _ _ _ _ _ _ Hr Hty He) as [(sm&[= ->])|(_&[?|[?|?]])]; try done.
      destruct (emitted_sane c m p sm m') as [-> HE]; [done|]. by apply Forall_app.
    + pose proof (exec_cancel same_id c m L pend id Hm Hs) as H. cbn zeta in H.
      destruct (find_order id (L (side_of_id id))); [|rewrite H in He; by destruct (stale _ _ _)].
      destruct H as (m1&H&_&Hq). rewrite H in He. simplify_eq. by rewrite (pending_evq _ _ Hq).
    + pose proof (exec_mass_cancel same_id c m L pend ids Hm Hs) as H.
      destruct (emass ids L 0 0).
      * destruct H as (m1&H&_&Hq). rewrite H in He. simplify_eq. by rewrite (pending_evq _ _ Hq).
      * destruct H as [H|H]; rewrite H in He; simplify_eq.
      * rewrite H in He; simplify_eq.
    + destruct (exec_consume same_id c m L pend n Hm) as (m1&H&Hm1&_). rewrite H in He. simplify_eq.
      rewrite (minv_pending _ _ _ _ Hm) in IH. rewrite (minv_pending _ _ _ _ Hm1).
      by apply Forall_drop.
Qed.
End Events.
