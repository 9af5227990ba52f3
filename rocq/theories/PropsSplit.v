(** * PropsSplit.v: continuing an order that its match limit cut short (C76) *)
From Verif Require Import Machine Critbit EventQueue OrderBook Market Spec ExchangeSpec SplitSpec SplitProofs ExampleRuns.

(** An order is accepted with match limit [k1] and may have been cut short by it.  Sending
    what is left of it (by the summary) with match limit [k2] right after gives what
    sending it with [k1 + k2] would have given: the same order id and posted size, totals
    that add up, and a market that reads the same, its order ids and events included.  If
    the second part is refused, the whole order would have been refused for the same
    reason.  Nothing of the first part was posted. *)
Theorem C76_continue : forall (C : Type) (same_id : C -> C -> bool) c m m1 p k1 k2 s1 r m' r2 m2,
  accepted same_id c m (with_limit p k1) s1 m1 -> reachable same_id c m1 ->
  cut_short same_id p k1 m m1 -> k1 + k2 < p64 ->
  exec same_id (NewOrder (with_limit p (k1 + k2))) m = (r, m') ->
  exec same_id (NewOrder (rest_of p s1 k2)) m1 = (r2, m2) ->
  match answer_of r2 with
  | Some (Accepted id b q posted) =>
      answer_of r = Some (Accepted id (total_base_qty s1 + b) (total_quote_qty s1 + q) posted) /\ view m' = view m2
  | _ => answer_of r = answer_of r2 /\ view m' = view m
  end /\ posted_order_id s1 = None.
Proof. intros. by eapply continue_market. Qed.

(** The summary alone does not tell whether this happened: the same order, with the same
    answer, in one market leaves an order within its price limit; in the other it was not
    cut short, and nothing is left. *)
Definition sp_few : list (op N) :=
  [ex_new Ask 10 100000 6 10 1 false true DecrementTake; ex_new Ask 10 100000 6 10 2 false true DecrementTake;
   ex_new Ask 10 100000 6 10 3 false true DecrementTake].
Definition sp_one : list (op N) := [ex_new Ask 20 100000 6 10 1 false true DecrementTake].
Definition sp_order : params N := mk_params 40 100000 (6 * 2147483648) Bid 2 7 false false DecrementTake.
Lemma sp_reach os : forallb op_typedb os = true -> N.of_nat (length os) < p63 -> reachable N.eqb ex_cfg (after N.eqb ex_cfg os).
Proof. intros. apply after_reachable; [exact ex_cfg_ok|done..]. Qed.
Theorem C76_summary_tells_refuted : exists (c : config N) ma mb p sm ma' mb',
  accepted N.eqb c ma p sm ma' /\ accepted N.eqb c mb p sm mb' /\
  posted_order_id sm = None /\ total_base_qty sm < max_base_qty p /\
  (exists o, o ∈ resting ma' Ask /\ crossing (p_side p) (limit_price p) (id_price (o_id o))) /\
  ~ cut_short N.eqb p (match_limit p) mb mb' /\ resting mb' Ask = [].
Proof.
  set (ma := after N.eqb ex_cfg sp_few). set (mb := after N.eqb ex_cfg sp_one).
  exists ex_cfg, ma, mb, sp_order, (mk_summary None 20 60 0), (snd (exec N.eqb (NewOrder sp_order) ma)), (snd (exec N.eqb (NewOrder sp_order) mb)).
  assert (Hp : op_typed (NewOrder sp_order)) by (by apply op_typedb_ok; vm_compute).
  split. { split; [by apply sp_reach; vm_compute|]. split; [done|by vm_compute]. }
  split. { split; [by apply sp_reach; vm_compute|]. split; [done|by vm_compute]. }
  split_and!; try done.
  - set (l := resting _ _). vm_compute in l. eexists. split; [apply elem_of_list_here|]. by vm_compute.
  - intros [H|(o&H&_)]; [by vm_compute in H|]. set (l := resting _ _) in H. vm_compute in l. by apply elem_of_nil in H.
Qed.

(** A bid for 40 against three asks of 10, in two parts that may deal with two and
    three orders: 20, then 10, and the last 10 join the book. *)
Definition sp_bid : params N := mk_params 40 100000 (6 * 2147483648) Bid 0 7 false true DecrementTake.
Definition sp_m : market N := Eval vm_compute in after N.eqb ex_cfg sp_few.
Definition sp_m1 : market N := Eval vm_compute in snd (exec N.eqb (NewOrder (with_limit sp_bid 2)) sp_m).
Definition sp_s1 : summary := mk_summary None 20 60 0.
Example C76_example :
  accepted N.eqb ex_cfg sp_m (with_limit sp_bid 2) sp_s1 sp_m1 /\ reachable N.eqb ex_cfg sp_m1 /\
  cut_short N.eqb sp_bid 2 sp_m sp_m1 /\
  answer_of (fst (exec N.eqb (NewOrder (rest_of sp_bid sp_s1 3)) sp_m1)) =
    Some (Accepted (Some (6 * 2147483648 * 2 ^ 64 + (2 ^ 64 - 1 - 3))) 20 60 10) /\
  answer_of (fst (exec N.eqb (NewOrder (with_limit sp_bid 5)) sp_m)) =
    Some (Accepted (Some (6 * 2147483648 * 2 ^ 64 + (2 ^ 64 - 1 - 3))) 40 120 10).
Proof.
  assert (H : reachable N.eqb ex_cfg sp_m).
  { change sp_m with (after N.eqb ex_cfg sp_few). by apply sp_reach; vm_compute. }
  split. { split; [done|]. split; [by apply op_typedb_ok; vm_compute|by vm_compute]. }
  split. { change sp_m1 with (after N.eqb ex_cfg (sp_few ++ [NewOrder (with_limit sp_bid 2)])). by apply sp_reach; vm_compute. }
  split; [left; by vm_compute|]. by vm_compute.
Qed.
(** The second part may be refused: an order of the same owner is met, and the whole order
    is refused for that. *)
Definition sp_abort : params N := mk_params 40 100000 (6 * 2147483648) Bid 0 3 false true AbortTransaction.
Example C76_refused :
  let m1 := snd (exec N.eqb (NewOrder (with_limit sp_abort 2)) sp_m) in
  answer_of (fst (exec N.eqb (NewOrder (with_limit sp_abort 2)) sp_m)) = Some (Accepted None 20 60 0) /\
  answer_of (fst (exec N.eqb (NewOrder (rest_of sp_abort sp_s1 1)) m1)) = Some SelfTrade /\
  answer_of (fst (exec N.eqb (NewOrder (with_limit sp_abort 3)) sp_m)) = Some SelfTrade.
Proof. by vm_compute. Qed.

Print Assumptions C76_continue.
Print Assumptions C76_summary_tells_refuted.
