(** * PropsBest.v: best execution (C87) *)
From Verif Require Import Machine Critbit EventQueue OrderBook Market Spec PartsSpec PartsProofs BestSpec BestProofs
  ExampleRuns PropsMarket PropsOrder.
From Coq Require Import ZifyBool ZifyNat ZifyN.

(** Whatever way there is to take the same number of base units from the orders of the
    other side, whole or in part: what the new order gets is worth at most as much when it
    buys, and at least as much when it sells (a seller must not be limited in quote
    units). *)
Theorem C87_best : forall (C : Type) (same_id : C -> C -> bool) c m p sm m' t,
  accepted same_id c m p sm m' -> (p_side p = Ask -> worth Bid m <= max_quote_qty p) ->
  way same_id m p (sumN fill_base (emitted m m')) t ->
  match p_side p with
  | Bid => fills_value (emitted m m') <= way_value m Ask t
  | Ask => way_value m Bid t <= fills_value (emitted m m')
  end.
Proof.
  intros C same_id c m p sm m' t H Hw Ht. pose proof (best _ _ _ _ _ _ _ H Hw Ht) as G.
  destruct (p_side p); exact G.
Qed.
(** What is paid and received in quote units differs from that by the rounding of each
    fill, less than one unit. *)
Theorem C87_quote : forall (C : Type) (same_id : C -> C -> bool) c m p sm m' t,
  accepted same_id c m p sm m' -> (p_side p = Ask -> worth Bid m <= max_quote_qty p) ->
  way same_id m p (sumN fill_base (emitted m m')) t ->
  match p_side p with
  | Bid => 2 ^ 32 * sumN fill_quote (emitted m m') <= way_value m Ask t + (2 ^ 32 - 1) * fills (emitted m m')
  | Ask => way_value m Bid t <= 2 ^ 32 * sumN fill_quote (emitted m m') + (2 ^ 32 - 1) * fills (emitted m m')
  end.
Proof.
  intros C same_id c m p sm m' t H Hw Ht. pose proof (C87_best _ _ _ _ _ _ _ _ H Hw Ht) as G.
  pose proof (fills_quote _ _ _ _ _ _ H) as Q. change (2 ^ 32) with p32.
  destruct (p_side p); cbn [worse_by] in Q; lia.
Qed.

(** Three sellers at 1, 1.5 and 1.5; 45 units are bought, and one way to take 45 units is
    15 from each. *)
Definition be_ops : list (op N) :=
  [ex_new Ask 20 1000 3 10 1 false true DecrementTake; ex_new Ask 20 1000 2 10 2 false true DecrementTake;
   ex_new Ask 20 1000 3 10 4 false true DecrementTake].
Definition be_m : market N := Eval vm_compute in after N.eqb ex_cfg be_ops.
Definition be_p : params N := mk_params 45 1000 (4 * 2147483648) Bid 10 3 false false DecrementTake.
Definition be_m1 : market N := Eval vm_compute in snd (exec N.eqb (NewOrder be_p) be_m).
Example C87_example : exists sm, accepted N.eqb ex_cfg be_m be_p sm be_m1 /\
  way N.eqb be_m be_p (sumN fill_base (emitted be_m be_m1)) (fun _ => 15) /\
  (fills_value (emitted be_m be_m1), way_value be_m Ask (fun _ => 15)) = (115 * 2 ^ 31, 120 * 2 ^ 31) /\
  (sumN fill_quote (emitted be_m be_m1), fills (emitted be_m be_m1)) = (58, 3).
Proof.
  eexists. split.
  - split; [|split; [apply op_typedb_ok; by vm_compute|vm_compute; reflexivity]].
    change be_m with (after N.eqb ex_cfg be_ops). apply after_reachable; [exact ex_cfg_ok|by vm_compute..].
  - split; [|by vm_compute]. constructor; [|done|by vm_compute].
    intros o Ho. assert (E : forallb (fun o => 15 <=? o_qty o) (resting be_m (opposite (p_side be_p))) = true) by by vm_compute.
    rewrite forallb_forall in E. apply elem_of_list_In in Ho. specialize (E o Ho). lia.
Qed.

(** A sell order that is limited in quote units does not get the best: 11 units are wanted
    at 1.75 and 20 at 1.  Limited to 5 quote units, an order sells 2 at 1.75 for 3; the
    remaining 9 units of that buyer are below the smallest order and leave the book; the
    other 2 quote units are for 2 units sold at 1.  4 units at 1.75 would have been worth
    7. *)
Definition be_ops2 : list (op N) := [ex_new2 Bid 11 1000 28 1 true; ex_new2 Bid 20 1000 16 2 true].
Definition be_m2 : market N := Eval vm_compute in after N.eqb ex_cfg2 be_ops2.
Definition be_p2 : params N := mk_params 100 5 (16 * 268435456) Ask 10 3 false false DecrementTake.
Definition be_m21 : market N := Eval vm_compute in snd (exec N.eqb (NewOrder be_p2) be_m2).
Definition be_t (o : order N) : N := if id_price (o_id o) =? 28 * 268435456 then 4 else 0.
Example C87_limited_example : exists sm, accepted N.eqb ex_cfg2 be_m2 be_p2 sm be_m21 /\
  way N.eqb be_m2 be_p2 (sumN fill_base (emitted be_m2 be_m21)) be_t /\
  (fills_value (emitted be_m2 be_m21), way_value be_m2 Bid be_t) = (88 * 268435456, 112 * 268435456).
Proof.
  eexists. split.
  - split; [|split; [apply op_typedb_ok; by vm_compute|vm_compute; reflexivity]].
    change be_m2 with (after N.eqb ex_cfg2 be_ops2). apply after_reachable; [unfold config_ok; cbn; lia|by vm_compute..].
  - split; [|by vm_compute]. constructor; [|done|by vm_compute].
    intros o Ho. assert (E : forallb (fun o => be_t o <=? o_qty o) (resting be_m2 (opposite (p_side be_p2))) = true) by by vm_compute.
    rewrite forallb_forall in E. apply elem_of_list_In in Ho. specialize (E o Ho). lia.
Qed.
Theorem C87_limited_sell_refuted : ~ forall (C : Type) (same_id : C -> C -> bool) c m p sm m' t,
  accepted same_id c m p sm m' -> p_side p = Ask ->
  way same_id m p (sumN fill_base (emitted m m')) t ->
  way_value m Bid t <= fills_value (emitted m m').
Proof.
  intros H. destruct C87_limited_example as (sm&Ha&Hw&_). specialize (H N N.eqb _ _ _ _ _ _ Ha eq_refl Hw).
  apply N.leb_le in H. by vm_compute in H.
Qed.

Print Assumptions C87_best.
Print Assumptions C87_quote.
Print Assumptions C87_limited_sell_refuted.
