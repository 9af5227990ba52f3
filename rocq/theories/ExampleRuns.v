(** * ExampleRuns.v: computing concrete runs, to show that the hypotheses of the
    properties are met by non-trivial states *)
From stdpp Require Import gmap.
From Verif Require Import Machine Critbit EventQueue OrderBook Market Spec DataSpec.

(** ** Slab runs *)
Definition op_key {C} (o : slab_op C) : N :=
  match o with SInsert k _ _ | SSetQty k _ | SSetCallback k _ | SRemove k => k end.
(** Performs the operations in order; [None] when one of them panics or is ill-typed. *)
Fixpoint slab_log {C} (os : list (slab_op C)) (acc : list (slab_op C * res (slab_answer C)))
    (s : slab C) : option (list (slab_op C * res (slab_answer C)) * slab C) :=
  match os with
  | [] => Some (acc, s)
  | o :: os =>
      if op_key o <? p128 then
        match slab_exec o s with
        | (Panic _, _) => None
        | (r, s') => slab_log os (acc ++ [(o, r)]) s'
        end
      else None
  end.
Lemma slab_log_run {C} (z : C) n x : forall os acc s log s', slab_run z n x acc s ->
  slab_log os acc s = Some (log, s') -> slab_run z n x log s'.
Proof.
  induction os as [|o os IH]; intros acc s log s' Hrun H; cbn [slab_log] in H.
  - injection H as <- <-. exact Hrun.
  - destruct (N.ltb_spec (op_key o) p128) as [Hk|]; [|discriminate].
    destruct (slab_exec o s) as [r s1] eqn:He.
    assert (Hty : slab_op_typed o) by (destruct o; exact Hk).
    destruct r as [a|e|pn|]; [| |discriminate|];
      (eapply IH; [|exact H]; econstructor; [exact Hrun|exact Hty|exact He|discriminate]).
Qed.
Definition slab_run_of {C} (z : C) n x os : option _ := slab_log os [] (empty_slab z n x).
Lemma slab_run_of_run {C} (z : C) n x os log s :
  slab_run_of z n x os = Some (log, s) -> slab_run z n x log s.
Proof. intros H. eapply slab_log_run; [constructor|exact H]. Qed.

(** ** Queue runs *)
Definition queue_op_typedb {C} (o : queue_op C) : bool :=
  match o with
  | QFill e _ _ => (fe_taker_side e <? 256) && (fe_pad e <? 281474976710656) && (fe_quote e <? p64) &&
      (fe_maker_id e <? p128) && (fe_base e <? p64)
  | QOut e _ => (oe_tag e <? 256) && (oe_side e <? 256) &&
      (oe_pad e <? 5192296858534827628530496329220096) && (oe_id e <? p128) && (oe_base e <? p64)
  | QPop n => n <? p64
  | QSeq => true
  end.
Lemma queue_op_typedb_ok {C} (o : queue_op C) : queue_op_typedb o = true -> queue_op_typed o.
Proof.
  destruct o; cbn [queue_op_typedb queue_op_typed]; intros H; repeat apply andb_prop in H as [H ?];
    repeat match goal with H : (_ <? _) = true |- _ => apply N.ltb_lt in H end; auto.
Qed.
Fixpoint queue_log {C} (os : list (queue_op C)) (acc : list (queue_op C * res N)) (q : queue C)
    : option (list (queue_op C * res N) * queue C) :=
  match os with
  | [] => Some (acc, q)
  | o :: os =>
      if queue_op_typedb o then
        let '(r, q') := queue_exec o q in queue_log os (acc ++ [(o, r)]) q'
      else None
  end.
Lemma queue_log_run {C} (z : C) n : forall os acc q log q', queue_run z n acc q ->
  queue_log os acc q = Some (log, q') -> queue_run z n log q'.
Proof.
  induction os as [|o os IH]; intros acc q log q' Hrun H; cbn [queue_log] in H.
  - injection H as <- <-. exact Hrun.
  - destruct (queue_op_typedb o) eqn:Hty; [|discriminate]. apply queue_op_typedb_ok in Hty.
    destruct (queue_exec o q) as [r q1] eqn:He.
    eapply IH; [|exact H]. econstructor; eassumption.
Qed.
Definition queue_run_of {C} (z : C) n os : option _ := queue_log os [] (empty_queue z n).
Lemma queue_run_of_run {C} (z : C) n os log q :
  queue_run_of z n os = Some (log, q) -> queue_run z n log q.
Proof. intros H. eapply queue_log_run; [constructor|exact H]. Qed.

(** ** Market histories *)
Section Hist.
Context {C : Type} (same_id : C -> C -> bool).
Definition op_typedb (o : op C) : bool :=
  match o with
  | NewOrder p => (max_base_qty p <? p64) && (max_quote_qty p <? p64) && (limit_price p <? p64) &&
      (match_limit p <? p64)
  | CancelOrder id => id <? p128
  | MassCancelOrders ids => forallb (fun id => id <? p128) ids
  | ConsumeEvents n => n <? p64
  end.
Lemma op_typedb_ok o : op_typedb o = true -> op_typed o.
Proof.
  destruct o as [p|id|ids|n]; cbn [op_typedb op_typed]; intros H.
  - repeat apply andb_prop in H as [H ?].
    repeat match goal with H : (_ <? _) = true |- _ => apply N.ltb_lt in H end; auto.
  - by apply N.ltb_lt.
  - apply Forall_forall. intros id Hid. apply elem_of_list_In in Hid.
    rewrite forallb_forall in H. apply H in Hid. by apply N.ltb_lt.
  - by apply N.ltb_lt.
Qed.
(** Executes the instructions, keeping the log of Spec.v. *)
Fixpoint run_log (os : list (op C)) (acc : list (entry C)) (m : market C)
    : list (entry C) * market C :=
  match os with
  | [] => (acc, m)
  | o :: os =>
      let '(r, m') := exec same_id o m in
      run_log os (acc ++ [mk_entry o r (emitted m m')]) m'
  end.
Lemma run_log_steps m0 : forall os acc m, forallb op_typedb os = true ->
  steps same_id m0 acc m ->
  steps same_id m0 (fst (run_log os acc m)) (snd (run_log os acc m)) /\
  length (fst (run_log os acc m)) = (length acc + length os)%nat.
Proof.
  induction os as [|o os IH]; intros acc m Hty Hst; cbn [run_log forallb] in *.
  - cbn. split; [done|lia].
  - apply andb_prop in Hty as [Ho Hos]. destruct (exec same_id o m) as [r m'] eqn:He.
    destruct (IH (acc ++ [mk_entry o r (emitted m m')]) m' Hos) as [H1 H2].
    + econstructor; [exact Hst|by apply op_typedb_ok|exact He].
    + split; [done|]. rewrite H2, app_length. cbn. lia.
Qed.
Definition after (c : config C) (os : list (op C)) : market C := snd (run_log os [] (init_market c)).
Definition log_of (c : config C) (os : list (op C)) : list (entry C) :=
  fst (run_log os [] (init_market c)).
Lemma after_history c os : forallb op_typedb os = true -> history same_id c (log_of c os) (after c os).
Proof. intros H. apply run_log_steps; [done|constructor]. Qed.
Lemma log_of_length c os : forallb op_typedb os = true -> length (log_of c os) = length os.
Proof. intros H. unfold log_of. eapply run_log_steps; [done|constructor]. Qed.
Lemma after_reachable c os : config_ok c -> forallb op_typedb os = true ->
  N.of_nat (length os) < p63 -> reachable same_id c (after c os).
Proof.
  intros Hc Hty Hlen. split; [done|]. exists (log_of c os). rewrite log_of_length by done.
  split; [by apply after_history|done].
Qed.
End Hist.

(** A small market used in the examples: minimum size 10, tick 2^31 (half a quote
    unit), room for 2 bids, 3 asks and 12 events; callback infos are numbers and the
    callback id is the number itself. *)
Definition ex_cfg : config N := mk_config 10 2147483648 0 2 3 12 0 0.
Lemma ex_cfg_ok : config_ok ex_cfg.
Proof. unfold config_ok; cbn; lia. Qed.
(** [price] counts half quote units. *)
Definition ex_new (sd : side) (base quote price ml cb : N) (po pa : bool) (b : self_trade) : op N :=
  NewOrder (mk_params base quote (price * 2147483648) sd ml cb po pa b).
