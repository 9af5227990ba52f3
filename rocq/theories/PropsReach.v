(** * PropsReach.v: orders out of reach do not matter (C90) *)
From Verif Require Import Machine Critbit EventQueue OrderBook Market Spec ExchangeSpec LadderSpec ReachSpec InstrProps ReachProofs ProvideProofs
  ExampleRuns PropsMarket PropsOrder PropsBest PropsLadder.
From Coq Require Import ZifyBool ZifyNat ZifyN.

(** Two markets with the same tick and smallest order, in which the same orders are within
    reach of a new order, answer it alike, whatever else is in their books.  (If the order
    may join the book, its own side must have room; the event queues must not be full.) *)
Theorem C90_out_of_reach : forall (C : Type) (same_id : C -> C -> bool) c1 c2 m1 m2 p r1 r2 m1' m2',
  reachable same_id c1 m1 -> reachable same_id c2 m2 -> c_min c1 = c_min c2 -> c_tick c1 = c_tick c2 ->
  op_typed (NewOrder p) -> reach m1 p = reach m2 p ->
  (post_allowed p = true -> has_room c1 m1 (p_side p) /\ has_room c2 m2 (p_side p)) ->
  exec same_id (NewOrder p) m1 = (r1, m1') -> exec same_id (NewOrder p) m2 = (r2, m2') ->
  r1 <> Err EventQueueFull -> r2 <> Err EventQueueFull ->
  alike p m1 r1 m1' m2 r2 m2'.
Proof. intros C same_id c1 c2 m1 m2 p r1 r2 m1' m2'. apply out_of_reach. Qed.
(** When it is accepted the events are exactly the same. *)
Theorem C90_events : forall (C : Type) (same_id : C -> C -> bool) c1 c2 m1 m2 p s1 s2 m1' m2',
  accepted same_id c1 m1 p s1 m1' -> accepted same_id c2 m2 p s2 m2' -> reachable same_id c1 m1' -> reachable same_id c2 m2' ->
  c_min c1 = c_min c2 -> c_tick c1 = c_tick c2 -> reach m1 p = reach m2 p ->
  (post_allowed p = true -> has_room c1 m1 (p_side p) /\ has_room c2 m2 (p_side p)) ->
  emitted m1 m1' = emitted m2 m2'.
Proof.
  intros C same_id c1 c2 m1 m2 p s1 s2 m1' m2' (R1&T&X1) (R2&_&X2) R1' R2' Hc Ht Hre Hroom.
  destruct (C90_out_of_reach _ _ _ _ _ _ _ _ _ _ _ R1 R2 Hc Ht T Hre Hroom X1 X2 ltac:(done) ltac:(done)) as (_&_&En&_).
  eapply notices_inj; [by eapply emitted_sane..|exact En].
Qed.
(** So it makes no difference whether an order that is out of its reach is cancelled just
    before it, ... *)
Theorem C90_cancelled : forall (C : Type) (same_id : C -> C -> bool) c m m0 o p r0 r1 r2 m1' m2',
  reachable same_id c m -> o ∈ resting m (opposite (p_side p)) -> o ∉ reach m p ->
  exec same_id (CancelOrder (o_id o)) m = (r0, m0) -> reachable same_id c m0 -> op_typed (NewOrder p) ->
  (post_allowed p = true -> has_room c m (p_side p)) ->
  exec same_id (NewOrder p) m = (r1, m1') -> exec same_id (NewOrder p) m0 = (r2, m2') ->
  r1 <> Err EventQueueFull -> r2 <> Err EventQueueFull ->
  alike p m r1 m1' m0 r2 m2'.
Proof.
  intros C same_id c m m0 o p r0 r1 r2 m1' m2' Hr Ho Hn H0 Hr0 Hty Hroom X1 X2 F1 F2.
  destruct (C29_cancel C same_id c m _ o Hr Ho) as (m0'&E&Hf&Hown&_). rewrite H0 in E. injection E as _ <-.
  assert (Hop : resting m0 (p_side p) = resting m (p_side p)) by (by destruct (p_side p)).
  eapply (out_of_reach same_id c c m m0); try done.
  - symmetry. apply (reach_cancel _ _ _ _ Hf). intros Hin. apply elem_of_list_fmap in Hin as (o'&Eo&Hin'). apply Hn.
    assert (Hin2 : o' ∈ resting m (opposite (p_side p))).
    { unfold reach in Hin'. assert (Hin2 : o' ∈ List.filter (within_limit p) (facing m (p_side p))).
      { rewrite <- (take_drop (N.to_nat (match_limit p)) (List.filter _ _)). apply elem_of_app. by left. }
      apply elem_of_list_In, filter_In in Hin2 as [Hin2 _]. apply elem_of_list_In.
      destruct (p_side p); cbn [facing opposite] in *; [done|]. by apply in_rev. }
    by rewrite (one_order _ _ _ (book_sorted same_id c m _ Hr) Ho Hin2 Eo).
  - unfold has_room. rewrite Hop. intros Hp. split; by apply Hroom.
Qed.
(** ... or whether another order, of a price that it does not accept, has just joined the
    other side. *)
Theorem C90_posted : forall (C : Type) (same_id : C -> C -> bool) c m m0 q s p r1 r2 m1' m2',
  accepted same_id c m q s m0 -> reachable same_id c m0 -> emitted m m0 = [] ->
  p_side q = opposite (p_side p) -> ~ crossing (p_side p) (limit_price p) (limit_price q) ->
  op_typed (NewOrder p) -> (post_allowed p = true -> has_room c m (p_side p)) ->
  exec same_id (NewOrder p) m = (r1, m1') -> exec same_id (NewOrder p) m0 = (r2, m2') ->
  r1 <> Err EventQueueFull -> r2 <> Err EventQueueFull ->
  alike p m r1 m1' m0 r2 m2'.
Proof.
  intros C same_id c m m0 q s p r1 r2 m1' m2' H Hr0 He Hsd Hx Hty Hroom X1 X2 F1 F2. pose proof H as (Hr&_).
  eapply (out_of_reach same_id c c m m0); try done.
  - symmetry. by eapply reach_post.
  - pose proof (C18_opposite_replay _ _ _ _ _ _ _ H) as Hop. rewrite He, Hsd in Hop. cbn [apply_events fold_left] in Hop.
    intros Hp. specialize (Hroom Hp). split; [done|]. unfold has_room in *. by destruct (p_side p); cbn [opposite] in Hop; rewrite Hop.
Qed.

(** The sellers of C87_example: 20 at 1, 20 and 20 at 1.5.  A buyer who may meet two orders
    reaches the first two; the third is cancelled, or another seller comes at 2.5, and 30
    are bought as before. *)
Definition re_p : params N := mk_params 30 1000 (3 * 2147483648) Bid 2 3 false true DecrementTake.
Definition re_q : params N := mk_params 25 1000 (5 * 2147483648) Ask 10 4 false true DecrementTake.
Definition re_o : order N := Eval vm_compute in List.last (resting be_m Ask) (mk_leaf 0 0, 0).
Definition re_m0 : market N := Eval vm_compute in after N.eqb ex_cfg (be_ops ++ [CancelOrder (o_id re_o)]).
Definition re_m1 : market N := Eval vm_compute in after N.eqb ex_cfg (be_ops ++ [NewOrder re_q]).
Lemma re_reachable : reachable N.eqb ex_cfg re_m0 /\ reachable N.eqb ex_cfg re_m1.
Proof.
  change re_m0 with (after N.eqb ex_cfg (be_ops ++ [CancelOrder (o_id re_o)])). change re_m1 with (after N.eqb ex_cfg (be_ops ++ [NewOrder re_q])).
  split; (apply after_reachable; [exact ex_cfg_ok|by vm_compute..]).
Qed.
Example C90_example :
  re_o ∈ resting be_m (opposite (p_side re_p)) /\ re_o ∉ reach be_m re_p /\ length (reach be_m re_p) = 2%nat /\
  snd (exec N.eqb (CancelOrder (o_id re_o)) be_m) = re_m0 /\
  (exists s, accepted N.eqb ex_cfg be_m re_q s re_m1) /\ emitted be_m re_m1 = [] /\ p_side re_q = opposite (p_side re_p) /\
  ~ crossing (p_side re_p) (limit_price re_p) (limit_price re_q) /\ has_room ex_cfg be_m (p_side re_p) /\
  Forall (fun m => fst (exec N.eqb (NewOrder re_p) m) = Ok (Some (mk_summary None 30 35 0)) /\
     deals (emitted m (snd (exec N.eqb (NewOrder re_p) m))) = [(20, 2 * 2147483648); (10, 3 * 2147483648)]) [be_m; re_m0; re_m1].
Proof.
  assert (E : o_id re_o ∉ map o_id (reach be_m re_p)).
  { rewrite elem_of_list_In. intros H. assert (F : existsb (N.eqb (o_id re_o)) (map o_id (reach be_m re_p)) = true) by (apply existsb_exists; exists (o_id re_o); split; [done|apply N.eqb_refl]).
    by vm_compute in F. }
  split_and!.
  - apply elem_of_list_In. vm_compute. tauto.
  - intros H. apply E. by apply elem_of_list_fmap_1.
  - by vm_compute.
  - by vm_compute.
  - eexists. split; [exact be_reachable|split; [apply op_typedb_ok; by vm_compute|vm_compute; reflexivity]].
  - by vm_compute.
  - done.
  - vm_compute. tauto.
  - unfold has_room. vm_compute. lia.
  - repeat constructor; by vm_compute.
Qed.

Print Assumptions C90_out_of_reach.
Print Assumptions C90_events.
Print Assumptions C90_cancelled.
Print Assumptions C90_posted.
