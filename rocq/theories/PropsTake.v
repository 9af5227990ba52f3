(** * PropsTake.v: taking first, posting the rest afterwards (C94)

    Vocabulary: TakeSpec.v ([take_part]: the same order, not allowed to join the book;
    [post_part]: what a summary leaves of it, only to join the book), SplitSpec.v ([dealt]:
    how many orders it dealt with), ExchangeSpec.v ([answer_of], [view]: all that can be
    read from a market). *)
From Verif Require Import Machine Critbit EventQueue OrderBook Market Spec ExchangeSpec SplitSpec TakeSpec TakeProofs ExampleRuns.
From Verif Require Import EventProps ProvideProofs.
From Coq Require Import ZifyBool ZifyNat ZifyN.

(** Take first.  If that did not use up the match limit, posting what is left (with any
    match limit but 0) has, in all, the effect of the one order: the same order id and
    posted size, totals that add up, and a market that reads the same.  If the second part
    is refused, the one order is refused for the same reason. *)
Theorem C94_take_then_post : forall (C : Type) (same_id : C -> C -> bool) c m m1 p s1 k r m' r2 m2,
  accepted same_id c m (take_part p) s1 m1 -> reachable same_id c m1 -> post_allowed p = true -> 0 < k < p64 ->
  dealt same_id p (map notice_of (emitted m m1)) < match_limit p ->
  exec same_id (NewOrder p) m = (r, m') -> exec same_id (NewOrder (post_part p s1 k)) m1 = (r2, m2) ->
  match answer_of r2 with
  | Some (Accepted id b q posted) =>
      answer_of r = Some (Accepted id (total_base_qty s1 + b) (total_quote_qty s1 + q) posted) /\ view m' = view m2
  | _ => answer_of r = answer_of r2 /\ view m' = view m
  end.
Proof. exact @take_then_post. Qed.
Print Assumptions C94_take_then_post.

(** If the match limit was used up, taking is all that the one order does. *)
Theorem C94_limit_used : forall (C : Type) (same_id : C -> C -> bool) c m m1 p s1 r m',
  accepted same_id c m (take_part p) s1 m1 -> c_tick c <= limit_price p ->
  match_limit p <= dealt same_id p (map notice_of (emitted m m1)) ->
  exec same_id (NewOrder p) m = (r, m') ->
  answer_of r = Some (Accepted (posted_order_id s1) (total_base_qty s1) (total_quote_qty s1) (total_base_qty_posted s1)) /\
  view m' = view m1.
Proof. exact @limit_used. Qed.
Print Assumptions C94_limit_used.

(** When the one order is accepted, so is taking alone: it takes all that the one order
    does not post, and tells of the same events but for the last, if that is the eviction
    of an order to make room. *)
Theorem C94_taking_accepted : forall (C : Type) (same_id : C -> C -> bool) c m p sm m' r1 m1,
  accepted same_id c m p sm m' -> exec same_id (NewOrder (take_part p)) m = (r1, m1) ->
  exists s1 evs, r1 = Ok (Some s1) /\ posted_order_id s1 = None /\ total_base_qty_posted s1 = 0 /\
    total_base_qty s1 + total_base_qty_posted sm = total_base_qty sm /\
    emitted m m' = emitted m m1 ++ evs /\ (length evs <= 1)%nat.
Proof.
  intros C same_id c m p sm m' r1 m1 H He. destruct (take_accepted _ _ _ _ _ _ _ _ H He) as (b&q&l&Ha&Hb&En&Hl).
  assert (Hr1 : exists s1, r1 = Ok (Some s1)).
  { destruct r1 as [[s|]|[]|[]|]; try discriminate Ha. by eexists. }
  destruct Hr1 as (s1&->). cbn in Ha. injection Ha as Hp Hb1 Hq Hpb.
  assert (H1 : accepted same_id c m (take_part p) s1 m1) by (destruct H as (Hr&Hty&_); done).
  exists s1, (drop (length (emitted m m1)) (emitted m m')). split; [done|]. split; [done|]. split; [done|]. split; [lia|].
  assert (Hlen : (length (emitted m m') = length (emitted m m1) + length l)%nat).
  { apply (f_equal length) in En. rewrite app_length, !map_length in En. done. }
  split; [|rewrite drop_length; lia].
  rewrite <- (take_drop (length (emitted m m1)) (emitted m m')) at 1. f_equal.
  destruct (EventProps.emitted_sane _ _ _ _ _ _ H) as [_ S]. destruct (EventProps.emitted_sane _ _ _ _ _ _ H1) as [_ S1].
  eapply notices_inj; [by apply Forall_take|exact S1|]. rewrite <- firstn_map, En. apply take_app_alt. by rewrite map_length.
Qed.
Print Assumptions C94_taking_accepted.

(** ** Concrete cases
    Two asks of 10 and 20 at 3; a bid for 50 at 3 takes 30 and posts 20, in one order or in
    two.  With a match limit of 2 it takes 30 and posts nothing, though no seller is left. *)
Definition tk_ops : list (op N) := [
  ex_new Ask 10 100000 6 10 1 false true DecrementTake; ex_new Ask 20 100000 6 10 2 false true DecrementTake].
Definition tk_bid (k : N) : params N := mk_params 50 1000 (6 * 2147483648) Bid k 7 false true DecrementTake.
Definition tk_m : market N := Eval vm_compute in after N.eqb ex_cfg tk_ops.
Definition tk_m1 : market N := Eval vm_compute in snd (exec N.eqb (NewOrder (take_part (tk_bid 5))) tk_m).
Definition tk_s1 : summary := mk_summary None 30 90 0.
Definition tk_id : N := 6 * 2147483648 * 2 ^ 64 + (2 ^ 64 - 1 - 2).
Example C94_example :
  accepted N.eqb ex_cfg tk_m (take_part (tk_bid 5)) tk_s1 tk_m1 /\ reachable N.eqb ex_cfg tk_m1 /\
  dealt N.eqb (tk_bid 5) (map notice_of (emitted tk_m tk_m1)) = 2 /\
  answer_of (fst (exec N.eqb (NewOrder (post_part (tk_bid 5) tk_s1 1)) tk_m1)) = Some (Accepted (Some tk_id) 20 60 20) /\
  answer_of (fst (exec N.eqb (NewOrder (tk_bid 5)) tk_m)) = Some (Accepted (Some tk_id) 50 150 20) /\
  answer_of (fst (exec N.eqb (NewOrder (tk_bid 2)) tk_m)) = Some (Accepted None 30 90 0).
Proof.
  assert (R : forall os, forallb op_typedb os = true -> N.of_nat (length os) < p63 -> reachable N.eqb ex_cfg (after N.eqb ex_cfg os))
    by (intros; apply after_reachable; [exact ex_cfg_ok|assumption..]).
  split. { split; [change tk_m with (after N.eqb ex_cfg tk_ops); apply R; by vm_compute|]. split; [by apply op_typedb_ok; vm_compute|by vm_compute]. }
  split. { change tk_m1 with (after N.eqb ex_cfg (tk_ops ++ [NewOrder (take_part (tk_bid 5))])). apply R; by vm_compute. }
  split_and!; by vm_compute.
Qed.
