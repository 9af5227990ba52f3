(** * PropsProvide.v: CancelProvide is the same as cancelling first (C91) *)
From Verif Require Import Machine Critbit EventQueue OrderBook Market Spec LadderSpec SplitSpec ProvideSpec ProvideProofs
  ExampleRuns PropsMarket PropsOrder.
From Coq Require Import ZifyBool ZifyNat ZifyN.

(** An order with CancelProvide has the same answer, trades and final book as the same order
    sent after its owner has cancelled the orders that it withdraws, with a match limit
    reduced by their number; only the events about these orders are missing then. *)
Theorem C91_cancel_first : forall (C : Type) (same_id : C -> C -> bool) c log m p s m',
  config_ok c -> history same_id c log m -> op_typed (NewOrder p) ->
  exec same_id (NewOrder p) m = (Ok (Some s), m') -> stb p = CancelProvide ->
  let own := gone_own same_id p m m' in
  let number := N.of_nat (length own) in
  N.of_nat (length log) + number + 2 < p63 ->
  exists log0 m0 m1,
    steps same_id m log0 m0 /\ map en_op log0 = map CancelOrder own /\
    Forall (fun e => exists s0, en_res e = Ok (Some s0)) log0 /\
    number <= match_limit p /\
    exec same_id (NewOrder (with_limit p (match_limit p - number))) m0 = (Ok (Some s), m1) /\
    (forall sd, resting m1 sd = resting m' sd) /\
    emitted m0 m1 = not_about own (emitted m m').
Proof.
  intros C same_id c log m p s m' Hc Hh Hty He Hs own number Hl. apply (cancel_first same_id c log); try done. unfold number, own in Hl. lia.
Qed.
(** With the same match limit the order could do more: each withdrawal counts against it.
    Owner 3 bids 120 at 3.5 and may meet two orders: 50 are bought and an own order is
    withdrawn.  Had they cancelled it before, they would have bought 120. *)
Theorem C91_same_limit_refuted : exists (c : config N) m p s m' m0 s1 m1,
  accepted N.eqb c m p s m' /\ stb p = CancelProvide /\
  run N.eqb m (map CancelOrder (gone_own N.eqb p m m')) = m0 /\
  accepted N.eqb c m0 p s1 m1 /\ total_base_qty s < total_base_qty s1.
Proof.
  set (p := ex_params Bid 120 100000 7 2 3 false false CancelProvide).
  exists ex_cfg, ex_m, p, (mk_summary None 50 150 0), (next_of p), (after N.eqb ex_cfg (ex_ops ++ [CancelOrder id_a2])),
    (mk_summary None 120 395 0), (snd (exec N.eqb (NewOrder p) (after N.eqb ex_cfg (ex_ops ++ [CancelOrder id_a2])))).
  split; [apply ex_accepted; by vm_compute|]. split; [done|]. split; [by vm_compute|]. split.
  - split; [apply after_reachable; [exact ex_cfg_ok|by vm_compute..]|]. split; [apply op_typedb_ok; by vm_compute|by vm_compute].
  - by vm_compute.
Qed.
(** With a match limit of 10 it buys 50 from owner 2 and 70 from owner 1, and withdraws the
    own order in between. *)
Definition pv_p : params N := ex_params Bid 120 100000 7 10 3 false false CancelProvide.
Example C91_example :
  history N.eqb ex_cfg (log_of N.eqb ex_cfg ex_ops) ex_m /\ length (log_of N.eqb ex_cfg ex_ops) = 5%nat /\
  exec N.eqb (NewOrder pv_p) ex_m = (Ok (Some (mk_summary None 120 395 0)), next_of pv_p) /\
  gone_own N.eqb pv_p ex_m (next_of pv_p) = [id_a2] /\
  emitted ex_m (next_of pv_p) =
    [fill_ev Bid id_a1 50 150 2 3; out_ev Ask id_a1 0 2; out_ev Ask id_a2 60 3; fill_ev Bid id_a3 70 245 1 3].
Proof.
  split; [change ex_m with (after N.eqb ex_cfg ex_ops); apply after_history; by vm_compute|]. by vm_compute.
Qed.

Print Assumptions C91_cancel_first.
Print Assumptions C91_same_limit_refuted.
