(** * PropsOpaque.v: callback infos are opaque to the order book (C60) *)
From stdpp Require Import list.
From Verif Require Import Machine Critbit EventQueue OrderBook Market Spec ExampleRuns OpaqueSpec OpaqueProofs.

(** ** C60. Apply any function [f] to every callback info, in the accounts and in the
    request.  If [f] preserves the outcome of the owner comparison then the instruction
    returns exactly the same result, and what it leaves, shows and emits is the same
    again with [f] applied to the callback infos.  The only thing the order book can tell
    about a callback info is how that comparison comes out. *)
Theorem C60_opaque : forall {C D : Type} (f : C -> D) same_id same_id',
  (forall x y, same_id' (f x) (f y) = same_id x y) ->
  forall (o : op C) (m : market C) r m', exec same_id o m = (r, m') ->
  exec same_id' (op_with f o) (market_with f m) = (r, market_with f m') /\
  (forall sd, resting (market_with f m') sd = map (order_with f) (resting m' sd)) /\
  pending (market_with f m') = map (event_with f) (pending m') /\
  emitted (market_with f m) (market_with f m') = map (event_with f) (emitted m m') /\
  get_spread (m_book (market_with f m')) = get_spread (m_book m').
Proof.
  intros C D f same same' H o m r m' He. split; [|split; [|split; [|split]]].
  - rewrite exec_with with (same := same); [by rewrite He|]. destruct o; cbn; [by right|done..].
  - intros. apply resting_with.
  - apply pending_with.
  - apply emitted_with.
  - apply get_spread_with.
Qed.
Print Assumptions C60_opaque.
(** The same for the program without the runtime's rollback: the states it leaves when it
    fails correspond as well. *)
Theorem C60_opaque_raw : forall {C D : Type} (f : C -> D) same_id same_id',
  (forall x y, same_id' (f x) (f y) = same_id x y) ->
  forall (o : op C) (m : market C) r m', process same_id o m = (r, m') ->
  process same_id' (op_with f o) (market_with f m) = (r, market_with f m').
Proof.
  intros C D f same same' H o m r m' He. rewrite (process_hom f same same'); [by rewrite He; destruct r|].
  destruct o; cbn; [by right|done..].
Qed.
Print Assumptions C60_opaque_raw.
(** Whole histories: every instruction has the same result and emits the same events. *)
Theorem C60_history : forall {C D : Type} (f : C -> D) same_id same_id',
  (forall x y, same_id' (f x) (f y) = same_id x y) ->
  forall c log (m : market C), history same_id c log m ->
  history same_id' (config_with f c) (map (entry_with f) log) (market_with f m).
Proof.
  intros C D f same same' H c log m Hh. apply (history_with f same same'); [|done].
  apply Forall_forall. intros e _. destruct (en_op e); cbn; [by right|done..].
Qed.
Print Assumptions C60_history.
(** An order with [DecrementTake] never asks who owns what: with such orders the results
    do not depend on the callback infos, nor on the comparison, in any way. *)
Theorem C60_decrement_take_blind : forall {C D : Type} (f : C -> D) same_id same_id' c log (m : market C),
  (forall e p, In e log -> en_op e = NewOrder p -> stb p = DecrementTake) ->
  history same_id c log m ->
  history same_id' (config_with f c) (map (entry_with f) log) (market_with f m).
Proof.
  intros C D f same same' c log m H Hh. apply (history_with f same same'); [|done].
  apply Forall_forall. intros e He%elem_of_list_In. destruct (en_op e) as [p| | |] eqn:Eo; cbn; [|done..].
  left. by eapply H.
Qed.
Print Assumptions C60_decrement_take_blind.
(** For the other two behaviours the comparison does matter: the hypothesis on [f] cannot
    be dropped. *)
Definition op_cfg : config N := mk_config 1 1 0 4 4 8 0 0.
Definition op_ops (b : self_trade) : list (op N) :=
  [NewOrder (mk_params 10 1000 (2 * p32) Ask 5 1 false true b);
   NewOrder (mk_params 10 1000 (3 * p32) Ask 5 2 false true b);
   NewOrder (mk_params 12 1000 (3 * p32) Bid 5 2 false true b)].
Theorem C60_comparison_needed :
  exists (f : N -> N) (o : op N) (c : config N) (m : market N), reachable N.eqb c m /\
  (exists s, fst (exec N.eqb o m) = Ok s) /\
  fst (exec N.eqb (op_with f o) (market_with f m)) = Err WouldSelfTrade.
Proof.
  exists (fun x => 7), (NewOrder (mk_params 12 1000 (3 * p32) Bid 5 2 false true AbortTransaction)), op_cfg,
    (after N.eqb op_cfg [NewOrder (mk_params 10 1000 (2 * p32) Ask 5 1 false true DecrementTake)]).
  split; [apply after_reachable; [unfold config_ok; cbn; lia|by vm_compute..]|].
  split; [eexists|]; by vm_compute.
Qed.
Print Assumptions C60_comparison_needed.
(** A run in which the comparison finds a self-trade, a fill happens and an order is
    posted; shifting every callback info by 100 shifts the events' infos and nothing else. *)
Example C60_example :
  let m := after N.eqb op_cfg (take 2 (op_ops CancelProvide)) in
  let o := NewOrder (mk_params 12 1000 (3 * p32) Bid 5 2 false true CancelProvide) in
  (forall x y, N.eqb (x + 100) (y + 100) = N.eqb x y) /\
  (exists s, fst (exec N.eqb o m) = Ok (Some s) /\ posted_order_id s <> None) /\
  (exists mk1 mk2 tk e1 e2 e3, emitted m (snd (exec N.eqb o m)) = [EvFill e1 mk1 tk; EvOut e2 mk1; EvOut e3 mk2] /\
     mk1 = 1 /\ mk2 = 2 /\ tk = 2 /\
     emitted (market_with (fun x => x + 100) m)
       (snd (exec N.eqb (op_with (fun x => x + 100) o) (market_with (fun x => x + 100) m)))
     = [EvFill e1 101 102; EvOut e2 101; EvOut e3 102]).
Proof.
  split; [|split].
  - intros x y. destruct (N.eqb_spec x y), (N.eqb_spec (x + 100) (y + 100)); lia.
  - eexists. vm_compute. split; [reflexivity|discriminate].
  - do 6 eexists. split; [by vm_compute|]. split; [done|]. split; [done|]. split; [done|]. by vm_compute.
Qed.
