(** * PropsInterleave.v: orders that only take, in any order (C95)

    Vocabulary: InterleaveSpec.v ([only_takes]: a new order not allowed to join the book;
    [part sd log]: what a log says about the new orders of one side; [granted]: it was
    accepted). *)
From Verif Require Import Machine Critbit EventQueue OrderBook Market Spec HistoryProps InterleaveSpec InterleaveProofs ExampleRuns.
From Coq Require Import ZifyBool ZifyNat ZifyN.

(** Orders that only take: if all of them are accepted in one sequence, then in any other
    sequence that keeps the order among the bids and the order among the asks, every one of
    them has the same answer and the same events, and the book is the same in the end. *)
Theorem C95_any_interleaving : forall (C : Type) (same_id : C -> C -> bool) c log m log1 m1 log2 m2,
  config_ok c -> history same_id c log m -> steps same_id m log1 m1 -> steps same_id m log2 m2 ->
  N.of_nat (length (log ++ log1)) < p63 -> N.of_nat (length (log ++ log2)) < p63 ->
  Forall (fun e => only_takes (en_op e)) log1 -> Forall (fun e => only_takes (en_op e)) log2 ->
  Forall granted log1 ->
  (forall sd, map en_op (part sd log2) = map en_op (part sd log1)) ->
  forall sd, part sd log2 = part sd log1 /\ resting m2 sd = resting m1 sd.
Proof. exact @interleaving. Qed.
Print Assumptions C95_any_interleaving.

(** Posting and taking on the same side: when a post-only order has joined the book and an
    order that only takes follows, the taker could as well have come first. *)
Theorem C95_post_then_take : forall (C : Type) (same_id : C -> C -> bool) c log m q p s id m1 s2 m2,
  config_ok c -> history same_id c log m -> N.of_nat (length log) + 2 < p63 ->
  op_typed (NewOrder q) -> op_typed (NewOrder p) ->
  post_only q = true -> post_allowed p = false -> p_side p = p_side q ->
  exec same_id (NewOrder q) m = (Ok (Some s), m1) -> posted_order_id s = Some id ->
  exec same_id (NewOrder p) m1 = (Ok (Some s2), m2) ->
  exists n1 n2,
    exec same_id (NewOrder p) m = (Ok (Some s2), n1) /\ exec same_id (NewOrder q) n1 = (Ok (Some s), n2) /\
    emitted m n1 = emitted m1 m2 /\ emitted n1 n2 = emitted m m1 /\ forall sd, resting n2 sd = resting m2 sd.
Proof. exact @post_take. Qed.
Print Assumptions C95_post_then_take.

(** ** Concrete cases *)
Definition il_ops : list (op N) := [
  ex_new Ask 20 100000 6 10 1 false true DecrementTake; ex_new Ask 30 100000 8 10 2 false true DecrementTake;
  ex_new Bid 40 100000 4 10 3 false true DecrementTake].
Definition il_m : market N := Eval vm_compute in after N.eqb ex_cfg il_ops.
Definition il_b1 : op N := ex_new Bid 15 100000 8 10 7 false false DecrementTake.
Definition il_a1 : op N := ex_new Ask 25 100000 4 10 8 false false DecrementTake.
Definition il_b2 : op N := ex_new Bid 20 100000 8 10 9 false false DecrementTake.
Definition il_run (os : list (op N)) : list (entry N) * market N := run_log N.eqb os [] il_m.

(** Two bids and an ask that only take: the ask can come last or first. *)
Lemma il_log1 : exists l m1, il_run [il_b1; il_b2; il_a1] = (l, m1) /\ steps N.eqb il_m l m1 /\ Forall granted l /\
  Forall (fun e => only_takes (en_op e)) l /\ length l = 3%nat.
Proof.
  destruct (run_log_steps N.eqb il_m [il_b1; il_b2; il_a1] [] il_m ltac:(by vm_compute) (steps_nil _ _)) as [H _].
  fold (il_run [il_b1; il_b2; il_a1]) in H. destruct (il_run [il_b1; il_b2; il_a1]) as [l m1] eqn:E. exists l, m1. split; [done|]. split; [done|].
  vm_compute in E. injection E as <- <-. split; [|split; [by repeat constructor|done]]. repeat constructor; by eexists.
Qed.
Example C95_example :
  history N.eqb ex_cfg (log_of N.eqb ex_cfg il_ops) il_m /\
  let '(la, m1) := il_run [il_b1; il_b2; il_a1] in
  let '(lb, m2) := il_run [il_a1; il_b1; il_b2] in
  map en_res la =
    [Ok (Some (mk_summary None 15 45 0)); Ok (Some (mk_summary None 20 80 0)); Ok (Some (mk_summary None 25 50 0))] /\
  map (fun e => length (en_events e)) la = [2; 1; 1]%nat /\
  map en_op (part Bid lb) = [il_b1; il_b2] /\ map en_op (part Ask lb) = [il_a1] /\
  map o_qty (resting m1 Ask) = [10] /\ map o_qty (resting m1 Bid) = [15] /\
  m_book m1 <> m_book m2 (* the queues differ *).
Proof.
  split; [change il_m with (after N.eqb ex_cfg il_ops); apply after_history; by vm_compute|].
  vm_compute. split_and!; try done. 
Qed.

(** The other way round is refuted: an order that only takes can clear the way for a
    post-only order that could not have joined the book before it. *)
Theorem C95_take_then_post_refuted : exists (c : config N) m p q s m1 s2 m2 s3 n1,
  accepted N.eqb c m p s m1 /\ post_allowed p = false /\ post_only q = true /\ p_side p = p_side q /\
  exec N.eqb (NewOrder q) m1 = (Ok (Some s2), m2) /\ posted_order_id s2 <> None /\
  exec N.eqb (NewOrder q) m = (Ok (Some s3), n1) /\ posted_order_id s3 = None.
Proof.
  set (p := mk_params 20 100000 (6 * 2147483648) Bid 10 7 false false DecrementTake : params N).
  set (q := mk_params 20 100000 (6 * 2147483648) Bid 10 8 true true DecrementTake : params N).
  exists ex_cfg, il_m, p, q, (mk_summary None 20 60 0), (snd (exec N.eqb (NewOrder p) il_m)),
    (mk_summary (Some (6 * 2147483648 * 2 ^ 64 + (2 ^ 64 - 1 - 3))) 20 60 20), (snd (exec N.eqb (NewOrder q) (snd (exec N.eqb (NewOrder p) il_m)))),
    (mk_summary None 0 0 0), (snd (exec N.eqb (NewOrder q) il_m)).
  split. { split; [change il_m with (after N.eqb ex_cfg il_ops); apply after_reachable; [exact ex_cfg_ok|by vm_compute..]|].
    split; [apply op_typedb_ok; by vm_compute|by vm_compute]. }
  split; [done|]. split; [done|]. split; [done|]. split; [by vm_compute|]. split; [done|]. by vm_compute.
Qed.
Print Assumptions C95_take_then_post_refuted.
(** A post-only bid at 2.5 joins the book and a taker follows. *)
Definition il_q : params N := mk_params 10 100000 (5 * 2147483648) Bid 10 4 true true DecrementTake.
Definition il_p : params N := mk_params 15 100000 (8 * 2147483648) Bid 10 7 false false DecrementTake.
Example C95_post_then_take_example :
  op_typed (NewOrder il_q) /\ op_typed (NewOrder il_p) /\
  fst (exec N.eqb (NewOrder il_q) il_m) = Ok (Some (mk_summary (Some (5 * 2147483648 * 2 ^ 64 + (2 ^ 64 - 1 - 3))) 10 25 10)) /\
  fst (exec N.eqb (NewOrder il_p) (snd (exec N.eqb (NewOrder il_q) il_m))) = Ok (Some (mk_summary None 15 45 0)) /\
  fst (exec N.eqb (NewOrder il_p) il_m) = Ok (Some (mk_summary None 15 45 0)).
Proof. split; [apply op_typedb_ok; by vm_compute|]. split; [apply op_typedb_ok; by vm_compute|]. split_and!; by vm_compute. Qed.
