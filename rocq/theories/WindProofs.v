(** * WindProofs.v: every market can be emptied and closed (C55, on the ledger) *)
From Verif Require Import Machine Bytes Critbit EventQueue OrderBook Market Spec MachineProofs QueueProofs
  Layout LayoutProofs Borsh BorshProofs Ledger LedgerSpec LedgerProofs WorldProofs
  FollowProofs LedgerFacts LedgerFacts2 InstrProps MarketFacts HistoryProps MoreSpec MoreProofs.
From Coq Require Import ZifyBool ZifyNat ZifyN.

Section Empty.
Context {C : Type} (same_id : C -> C -> bool).
Lemma delete_all ids (os : list (order C)) : (forall o, o ∈ os -> o_id o ∈ ids) -> delete_ids ids os = [].
Proof.
  unfold delete_ids. induction os as [|o os IH]; intros H; [done|]. cbn.
  replace (existsb (N.eqb (o_id o)) ids) with true.
  - cbn. apply IH. intros x Hx. apply H. by right.
  - symmetry. apply existsb_exists. exists (o_id o). rewrite N.eqb_refl. split; [|done].
    apply elem_of_list_In, H. left.
Qed.
(** Cancel every order, in any order, then consume every event. *)
Lemma wind_down_all c ids m log n : config_ok c -> history same_id c log m ->
  N.of_nat (length log + length ids + 1) < p63 -> NoDup ids ->
  (forall id, id ∈ ids <-> exists sd, id ∈ map o_id (resting m sd)) ->
  N.of_nat (length (pending m)) <= n -> n < p64 ->
  exists m1 m' log', cancels same_id m ids
      (map (fun id => mk_summary None (base_of m id) (quote_of_id m id) 0) ids) m1 /\
    exec same_id (ConsumeEvents n) m1 = (Ok None, m') /\
    history same_id c (log ++ log') m' /\ length log' = S (length ids) /\
    (forall sd, resting m' sd = []) /\ pending m' = [].
Proof.
  intros Hc Hh Hl Hnd Hids Hn Hn64.
  destruct (wind_down same_id c ids m log Hc Hh ltac:(lia) Hnd) as (m1 & log1 & Hcs & Hh1 & Hlen & Hdel & Hp).
  { intros id Hid. by apply Hids. }
  assert (Hr1 : reachable same_id c m1).
  { split; [done|]. exists (log ++ log1). split; [done|]. rewrite app_length. lia. }
  destruct (consume_ok same_id c m1 n Hr1) as (m2 & He & Hp2 & Hb & Ha & _).
  exists m1, m2, (log1 ++ [mk_entry (ConsumeEvents n) (Ok None) (emitted m1 m2)]). split_and!; try done.
  - rewrite app_assoc. unfold history. by econstructor.
  - rewrite app_length. cbn. lia.
  - intros sd. unfold resting, tree. destruct sd; rewrite ?Hb, ?Ha.
    + change (resting m1 Bid = []). rewrite Hdel. apply delete_all. intros o Ho. apply Hids. exists Bid.
      apply elem_of_list_fmap. by exists o.
    + change (resting m1 Ask = []). rewrite Hdel. apply delete_all. intros o Ho. apply Hids. exists Ask.
      apply elem_of_list_fmap. by exists o.
  - rewrite Hp2, Hp. apply drop_ge. lia.
Qed.
End Empty.

Section Wind.
Context (cs : nat) (same_id : bytes -> bytes -> bool) (rent_exempt : N -> nat -> bool) (pid : N).
Context (Hrent : forall n, rent_exempt 0 n = false).
Notation instr := (process_instruction cs same_id rent_exempt pid).
Notation opens := (opens cs pid).
Notation step := (ledger_step cs same_id rent_exempt pid).
Notation trace := (trace cs same_id rent_exempt pid).

Lemma trace_app l tr1 l1 tr2 l2 : trace l tr1 l1 -> trace l1 tr2 l2 -> trace l (tr1 ++ tr2) l2.
Proof.
  intros H1 H2. induction H2 as [|tr l' lb l'' _ IH Hs]; [by rewrite app_nil_r|].
  rewrite app_assoc. by econstructor.
Qed.
Lemma trace_one l lb l1 : step l lb l1 -> trace l [lb] l1.
Proof. intros H. apply (trace_snoc _ _ _ _ l [] l); [constructor|done]. Qed.

Lemma op_step l a m o r m' : wf_ledger cs pid l -> opens l a m -> Forall (fun k => k < 256 ^ 32) (keys a) ->
  op_bytes_typed cs o -> exec same_id o m = (Ok r, m') ->
  exists l', step l (Call (op_keys a o) (op_data o) r) l' /\ opens l' a m' /\
    (forall k, a_lamports (l' k) = a_lamports (l k)).
Proof.
  intros W Ho Hk Ht He. pose proof (w_ok _ _ _ W) as Hok.
  destruct (op_run cs same_id rent_exempt pid l a m o [] Hok Ho Ht) as (l' & E & Hw).
  unfold exec in He. destruct (process same_id o m) as [[r0| | |] m0] eqn:Ep; cbn [fst snd is_ok] in He, E, Hw; try done.
  injection He as -> ->. specialize (Hw eq_refl). rewrite app_nil_r in E.
  assert (Hl : forall k, a_lamports (l' k) = a_lamports (l k)).
  { intros k. rewrite Hw. repeat (destruct (_ =? _); [done|]). done. }
  exists l'. split_and!; [|pose proof (op_opens cs same_id pid l a m o l' Hok Ho Ht) as H; rewrite Ep in H; by apply H|done].
  constructor; try done.
  - intros k [Hd|Hd]; [|specialize (Hl k); lia].
    apply (o_owned _ _ _ _ _ Ho). rewrite Hw in Hd. unfold keys.
    destruct (N.eqb_spec k (ac_bids a)) as [Ek0|_]; [rewrite Ek0; set_solver|].
    destruct (N.eqb_spec k (ac_asks a)) as [Ek1|_]; [rewrite Ek1; set_solver|].
    destruct (N.eqb_spec k (ac_queue a)) as [Ek2|_]; [rewrite Ek2; set_solver|]. done.
  - destruct o; cbn [op_keys]; try done. unfold keys in Hk. repeat (apply Forall_cons in Hk as [? Hk]). auto.
  - by apply (op_data_ok cs).
Qed.

Definition cancel_call (a : accounts) (m : market bytes) (id : N) : label :=
  Call (keys a) (op_data (CancelOrder id)) (Some (mk_summary None (base_of m id) (quote_of_id m id) 0)).

Lemma cancels_trace a ids sms m m1 : cancels same_id m ids sms m1 -> forall l,
  wf_ledger cs pid l -> opens l a m -> Forall (fun k => k < 256 ^ 32) (keys a) ->
  Forall (fun id => id < p128) ids ->
  exists l1, trace l (zip_with (fun id sm => Call (keys a) (op_data (CancelOrder id)) (Some sm)) ids sms) l1 /\
    opens l1 a m1 /\ (forall k, a_lamports (l1 k) = a_lamports (l k)).
Proof.
  intros H. induction H as [m|m id sm m1 ids sms m2 He _ IH]; intros l W Ho Hk Hids.
  - exists l. split_and!; try done. constructor.
  - apply Forall_cons in Hids as [Hid Hids].
    destruct (op_step l a m (CancelOrder id) (Some sm) m1 W Ho Hk Hid He) as (l1 & Hs & Ho1 & Hl1).
    destruct (IH l1 (step_wf _ _ _ _ Hrent _ _ _ W Hs) Ho1 Hk Hids) as (l2 & Ht & Ho2 & Hl2).
    exists l2. split_and!; try done.
    + cbn [zip_with]. exact (trace_app _ [_] _ _ _ (trace_one _ _ _ Hs) Ht).
    + intros k. by rewrite Hl2.
Qed.

Lemma can_close l a m c log ids n t : wf_ledger cs pid l -> opens l a m ->
  config_ok c -> history same_id c log m -> N.of_nat (length log + length ids + 1) < p63 ->
  Forall (fun k => k < 256 ^ 32) (keys a ++ [t]) -> t ∉ keys a ->
  a_lamports (l t) + close_total l a < p64 ->
  NoDup ids -> (forall id, id ∈ ids <-> exists sd, id ∈ map o_id (resting m sd)) ->
  N.of_nat (length (pending m)) <= n -> n < p64 ->
  exists l',
    trace l (map (cancel_call a m) ids ++
             [Call [ac_market a; ac_queue a] (op_data (ConsumeEvents n)) None;
              Call (keys a ++ [t]) [ix_close_market] None]) l' /\
    (forall k, k ∈ keys a -> disabled pid l' k /\ a_lamports (l' k) = 0) /\
    a_lamports (l' t) = a_lamports (l t) + close_total l a.
Proof.
  intros W Ho Hc Hh Hl Hk Ht Hlam Hnd Hids Hn Hn64.
  destruct (wind_down_all same_id c ids m log n) as (m1 & m2 & log' & Hcs & He & Hh2 & Hlen & Hempty & Hp2); try done.
  apply Forall_app in Hk as [Hka Hkt].
  assert (Hr : reachable same_id c m) by (split; [done|]; exists log; split; [done|lia]).
  assert (Hid128 : Forall (fun id => id < p128) ids).
  { apply Forall_forall. intros id Hid. apply Hids in Hid as [sd Hid]. apply elem_of_list_fmap in Hid as (o & -> & Hin).
    by destruct (book_facts _ _ _ _ _ Hr Hin) as (_ & _ & _ & _ & _ & Hlt & _). }
  destruct (cancels_trace a _ _ _ _ Hcs l W Ho Hka Hid128) as (l1 & T1 & Ho1 & Hl1).
  pose proof (trace_wf _ _ _ _ Hrent _ _ _ W T1) as W1.
  destruct (op_step l1 a m1 (ConsumeEvents n) None m2 W1 Ho1 Hka Hn64 He) as (l2 & S2 & Ho2 & Hl2).
  pose proof (step_wf _ _ _ _ Hrent _ _ _ W1 S2) as W2. pose proof (w_ok _ _ _ W2) as Hok2.
  assert (Hr2 : reachable same_id c m2).
  { split; [done|]. exists (log ++ log'). split; [done|]. rewrite app_length. lia. }
  assert (Hlam2 : forall k, a_lamports (l2 k) = a_lamports (l k)) by (intros k; by rewrite Hl2, Hl1).
  assert (Htot : close_total l2 a = close_total l a) by (unfold close_total; by rewrite !Hlam2).
  destruct (proj2 (close_exact cs same_id rent_exempt pid c l2 a m2 t [] [] Hok2 Ho2 Hr2)) as (l3 & H3).
  { split_and!; try done. by rewrite Hlam2, Htot. }
  pose proof H3 as H3'. apply close_instr in H3' as [_ Hclose].
  pose proof (close_effect _ _ _ _ _ _ Hok2 Hclose) as Hcl.
  assert (Hown : forall k, k ∈ keys a -> a_owner (l2 k) = pid) by apply (o_owned _ _ _ _ _ Ho2).
  exists l3. split_and!.
  - apply (trace_app _ _ l1).
    + replace (map (cancel_call a m) ids) with
        (zip_with (fun id sm => Call (keys a) (op_data (CancelOrder id)) (Some sm)) ids
           (map (fun id => mk_summary None (base_of m id) (quote_of_id m id) 0) ids)); [done|].
      clear. induction ids; cbn; [done|]. by f_equal.
    + apply (trace_app _ [_] l2 [_]); apply trace_one; [done|]. constructor; [done|..].
      * intros k Hd. destruct (existsb (N.eqb k) (keys a)) eqn:E.
        { apply Hown. apply existsb_exists in E as (x & Hx & ->%N.eqb_eq). by apply elem_of_list_In. }
        exfalso. rewrite Hcl, E in Hd. destruct (k =? t); cbn in Hd; destruct Hd as [Hd|Hd]; try done; lia.
      * by apply Forall_app.
      * apply Forall_cons; split; [done|constructor].
  - intros k Hkk. unfold disabled. rewrite Hcl.
    destruct (existsb (N.eqb k) (keys a)) eqn:E; [|by apply not_held in E]. cbn. split_and!; try done. by apply Hown.
  - rewrite Hcl. apply not_held in Ht. by rewrite Ht, N.eqb_refl, <- Hlam2, <- Htot.
Qed.
End Wind.
