(** * PropsWork.v: the work of a request (C85)

    [process_k] (Count.v) is the program with a counter: every tree node that a descent
    looks at, every turn of the loops over resting orders and over order ids, and every
    event written count one.  [work same_id o m] is the count of request [o] on market
    [m]. *)
From Verif Require Import Machine Critbit EventQueue OrderBook Market Spec DataSpec MarketProofs MarketFacts HistoryProps
  QueueProofs Count CountProofs LedgerFacts2 ExampleRuns PropsMarket PropsOrder ReleaseFacts.
From Coq Require Import ZifyBool ZifyNat ZifyN.

(** What a request is allowed on a market with [slots] event slots: it depends on what is
    asked for and on the free event slots, not on how many orders the market has or can
    hold. *)
Definition allowance {C} (slots : nat) (m : market C) (o : op C) : N :=
  match o with
  | NewOrder p => 262 * (N.min (match_limit p) (N.of_nat (slots - length (pending m))) + 1) + 518
  | CancelOrder _ => 130
  | MassCancelOrders ids => 131 * N.of_nat (length ids)
  | ConsumeEvents _ => 0
  end.

(** The counting program is the program. *)
Theorem C85_same : forall (C : Type) (same_id : C -> C -> bool) o m,
  fst (process_k same_id o m) = process same_id o m.
Proof. intros C same_id o m. apply process_er. Qed.

(** The work is bounded, whether the request succeeds or not. *)
Theorem C85_work : forall (C : Type) (same_id : C -> C -> bool) c m o,
  reachable same_id c m -> work same_id o m <= allowance (c_events c) m o.
Proof.
  intros C same_id c m o Hr. unfold work. destruct o as [p|id|ids|n]; cbn [process_k allowance].
  - unfold kbind at 1. set (k := process_new_order_k same_id p).
    assert (H : snd (k m) <= 262 * (N.min (match_limit p) (N.of_nat (c_events c - length (pending m))) + 1) + 518).
    { pose proof (q_count_pending same_id c m Hr) as Hq. pose proof (reachable_minv same_id c m Hr) as (L & pend & Hm & _).
      pose proof (mi_qcap _ _ _ _ Hm) as Hcap. pose proof (mi_q _ _ _ _ Hm) as Hqr.
      assert (Hle : q_count (evq (m_book m)) <= q_cap (evq (m_book m))) by exact (qr_le _ _ Hqr).
      unfold k, process_new_order_k. unfold kbind, free, get.
      destruct (m_tick m =? 0); [cbn; lia|]. destruct (negb _); [cbn; lia|]. destruct (_ && _); [cbn; lia|].
      unfold on_book_k, kzoom. pose proof (new_order_w same_id p (m_min m) (m_book m) Hle) as Hw.
      destruct (new_order_k same_id p (m_min m) (m_book m)) as [[r b] w]. cbn [snd] in *. unfold room in Hw.
      rewrite Hcap, Hq in Hw. rewrite N.add_0_l. etransitivity; [exact Hw|]. lia. }
    destruct (k m) as [[[s| | |] m'] w]; unfold kret; cbn [snd] in *; lia.
  - apply (w_bind 130 0 130 (process_cancel_order_k id)); [|intros; apply w_ret|lia].
    unfold process_cancel_order_k. apply (w_bind 130 0); [apply w_zoom, remove_on_w|intros; apply w_free|lia].
  - apply (w_bind (131 * N.of_nat (length ids)) 0 _ (process_mass_cancel_k ids)); [|intros; apply w_ret|lia].
    unfold process_mass_cancel_k. apply (w_bind (131 * N.of_nat (length ids)) 0); [apply mass_cancel_w|intros; apply w_ret|lia].
  - apply (w_bind 0 0 0 (process_consume_events_k n)); [apply w_free|intros; apply w_ret|lia].
Qed.

(** Nor is the count an empty one: it is no less than the events that the request writes,
    and a cancelled order costs at least a node (and, among many, a turn of the loop). *)
Theorem C85_counts : forall (C : Type) (same_id : C -> C -> bool) c m o r m',
  reachable same_id c m -> op_typed o -> exec same_id o m = (Ok r, m') ->
  match o with
  | NewOrder _ => N.of_nat (length (emitted m m')) <= work same_id o m
  | CancelOrder _ => 1 <= work same_id o m
  | MassCancelOrders ids => 2 * N.of_nat (length ids) <= work same_id o m
  | ConsumeEvents _ => emitted m m' = []
  end.
Proof.
  intros C same_id c m o r m' Hr Ht He. pose proof (q_count_pending same_id c m Hr) as Hq.
  pose proof Hr as Hr'. pose proof (proj1 Hr) as Hc. apply reachable_minv in Hr as (L & pend & Hm & Hs).
  destruct (exec_minv same_id c m L pend o (Ok r) m' Hc Hm Ht Hs He) as (L' & pend' & Hm' & _).
  assert (Hq' : q_count (evq (m_book m')) = N.of_nat (length (pending m'))).
  { rewrite (minv_pending _ _ _ _ Hm'). by pose proof (mi_q _ _ _ _ Hm') as [_ _ _ Hx _ _]. }
  assert (Hp : process same_id o m = (Ok r, m')).
  { unfold exec in He. destruct (process same_id o m) as [[| | |] m1]; injection He as ??; congruence. }
  rewrite <- process_er in Hp. unfold work. destruct (process_k same_id o m) as [[r' m1] n] eqn:E. injection Hp as -> ->.
  unfold emitted. destruct o as [p|id|ids|k]; cbn [process_k snd] in *.
  - apply kinv_bind in E as (sm&m1&n1&n2&E&[= _ <- <-]&->). unfold process_new_order_k in E.
    apply kinv_bind in E as (m2&m3&n3&n4&[= <- <- <-]&E&->).
    destruct (_ =? 0); [done|]. destruct (negb _); [done|]. destruct (_ && _); [done|].
    unfold on_book_k, kzoom in E. destruct (new_order_k same_id p (m_min m) (m_book m)) as [[x b] c'] eqn:Eb. injection E as -> <- <-.
    apply new_order_p in Eb. unfold written in Eb. cbn in Hq', Eb. rewrite drop_length. lia.
  - apply kinv_bind in E as (sm&m1&n1&n2&E&[= _ <- <-]&->). unfold process_cancel_order_k in E.
    apply kinv_bind in E as (x&m2&n3&n4&E&E2&->). unfold free in E2. injection E2 as E2 <-. apply inv_lift in E2 as (lc & Hl & _).
    destruct x as [lc'|]; [|done]. unfold on_book_k, kzoom in E.
    destruct (on_tree_k _ (remove_by_key_k id) (m_book m)) as [[y b] c'] eqn:Eb. injection E as -> <- <-. apply remove_found in Eb. lia.
  - apply kinv_bind in E as (sm&m1&n1&n2&E&[= _ <- <-]&->). unfold process_mass_cancel_k in E.
    apply kinv_bind in E as (x&m2&n3&n4&E&_&->). apply mass_cancel_p in E. lia.
  - destruct (C32_consume C same_id c m k Hr') as (m2&He'&Hd&_). rewrite He in He'. injection He' as _ <-.
    rewrite Hd, drop_drop. apply drop_ge. lia.
Qed.

(** So no order, whatever its limits and whatever is in the books, costs more than a full
    event queue does. *)
Theorem C85_any_order : forall (C : Type) (same_id : C -> C -> bool) c m p,
  reachable same_id c m -> work same_id (NewOrder p) m <= 262 * (N.of_nat (c_events c) + 1) + 518.
Proof.
  intros C same_id c m p Hr. etransitivity; [by apply (C85_work C same_id c)|]. unfold allowance. lia.
Qed.

(** The descents are not cut off by the model's bound on them: every request ends. *)
Theorem C85_ends : forall (C : Type) (same_id : C -> C -> bool) c m o,
  reachable same_id c m -> op_typed o -> fst (process same_id o m) <> Diverge.
Proof.
  intros C same_id c m o Hr Ht. assert (H : fst (exec same_id o m) <> Diverge).
  { destruct o as [p|id|ids|n].
    - destruct (exec same_id (NewOrder p) m) as [r m'] eqn:E.
      destruct (C27_outcomes _ _ _ _ _ _ _ Hr Ht E) as [(sm&->)|(_&[->|[->| ->]])]; done.
    - destruct (decide (id ∈ map o_id (resting m (side_of_id id)))) as [Hi|Hi].
      + apply elem_of_list_fmap in Hi as (o&Hid&Ho). rewrite Hid.
        assert (Hs : side_of_id (o_id o) = side_of_id id) by by rewrite Hid.
        destruct (C29_cancel C same_id c m (side_of_id id) o Hr) as (m'&->&_); done.
      + destruct (C30_cancel_absent C same_id c m id Hr Hi) as [H1 H2].
        destruct (excluded_stale (tree (m_book m) (side_of_id id)) id) as [H|H]; [rewrite H2|rewrite H1]; done.
    - destruct (C31_mass_cancel C same_id c m ids Hr) as [(_&_&_&_&m'&->&_)|(_&r&->&[->|[->| ->]])]; done.
    - destruct (C32_consume C same_id c m n Hr) as (m'&->&_). done. }
  unfold exec in H. by destruct (process same_id o m) as [[| | |] m'].
Qed.

Print Assumptions C85_same.
Print Assumptions C85_work.
Print Assumptions C85_counts.
Print Assumptions C85_any_order.
Print Assumptions C85_ends.

(** ** A concrete market: three asks (7, 8 and 9), two bids, no event waiting, twelve event
    slots.  A bid for all three asks works more the more orders it may match, until there is
    no fourth; one for which nothing crosses works the same under every limit but 0. *)
Definition w_ops : list (op N) :=
  [ex_new Ask 100 100000 7 10 1 false true DecrementTake; ex_new Ask 100 100000 8 10 1 false true DecrementTake;
   ex_new Ask 100 100000 9 10 1 false true DecrementTake; ex_new Bid 100 100000 3 10 1 false true DecrementTake;
   ex_new Bid 100 100000 4 10 1 false true DecrementTake].
Definition w_m : market N := after N.eqb ex_cfg w_ops.
Definition w_bid (price limit : N) : op N := ex_new Bid 1000 100000000 price limit 2 false true DecrementTake.

Example C85_example :
  reachable N.eqb ex_cfg w_m /\
  map (fun l => work N.eqb (w_bid 20 l) w_m) [0; 1; 2; 3; 10] = [1; 8; 15; 20; 27] /\
  map (fun l => allowance (c_events ex_cfg) w_m (w_bid 20 l)) [0; 1; 2; 3; 10; 1000] = [780; 1042; 1304; 1566; 3400; 3924] /\
  map (fun l => work N.eqb (w_bid 5 l) w_m) [0; 1; 2; 3; 10] = [1; 11; 11; 11; 11] /\
  work N.eqb (CancelOrder 5) w_m = 2 /\
  work N.eqb (MassCancelOrders (map (fun o => o_id o) (resting w_m Ask))) w_m = 8 /\
  work N.eqb (ConsumeEvents 5) w_m = 0.
Proof. split; [apply after_reachable; [exact ex_cfg_ok|by vm_compute|by vm_compute]|]. split_and!; by vm_compute. Qed.
