(** * NewOrderProps2.v: posting, eviction, self trades, maximality, failures *)
From Verif Require Import Machine Bytes Critbit EventQueue OrderBook Market Spec MachineProofs
  TreeProofs SlabProofs SlabProofs2 QueueProofs IdProofs Engine BookProofs EngineProofs
  MarketProofs MarketFacts NewOrderProps.
From Coq Require Import ZifyBool ZifyNat ZifyN.
From Coq Require Import Sorting.Sorted.

Global Arguments estep_break_why {C} same_id p min l os l' _.

Section NewOrderProps2.
Context {C : Type} (same_id : C -> C -> bool).
Implicit Types m : market C.
Implicit Types c : config C.
Implicit Types p : params C.
Implicit Types os : list (order C).
Implicit Types E : list (event_ref C).

Ltac placed H :=
  let Hn := fresh "Hn" in
  apply accepted_newo in H as (L&pend&l1&l&E1&E2&own'&opp'&Hn).

(** ** Results *)
Lemma new_order_outcomes c m p r m' :
  reachable same_id c m -> op_typed (NewOrder p) -> exec same_id (NewOrder p) m = (r, m') ->
  (exists sm, r = Ok (Some sm)) \/
  (m' = m /\ (r = Err InvalidLimitPrice \/ r = Err WouldSelfTrade \/ r = Err EventQueueFull)).
Proof.
  intros Hr Hty He. destruct (new_order_cases _ _ _ _ _ _ Hr Hty He) as
    [(->&->&_)|(L&pend&_&_&_&_&H)]; [by auto|].
  destruct (enew _ _ _ _ _ _ _) as [E x].
  destruct H as [(->&->&_)|[(->&->&_)|(sm&l1&l&E1&E2&own'&opp'&->&_)]]; eauto 10.
Qed.

Lemma new_order_price c m p r m' :
  reachable same_id c m -> op_typed (NewOrder p) -> exec same_id (NewOrder p) m = (r, m') ->
  r = Err InvalidLimitPrice <->
  (~ (c_tick c | limit_price p) \/ (post_allowed p = true /\ limit_price p < c_tick c)).
Proof.
  intros Hr Hty He. pose proof Hr as ((_&Htk&_)&_).
  assert (Hpb : price_bad c p = true <->
    (~ (c_tick c | limit_price p) \/ (post_allowed p = true /\ limit_price p < c_tick c))).
  { unfold price_bad. rewrite orb_true_iff, negb_true_iff, andb_true_iff, N.eqb_neq, N.ltb_lt.
    rewrite <- (N.mod_divide (limit_price p) (c_tick c)) by lia. done. }
  rewrite <- Hpb. destruct (new_order_cases _ _ _ _ _ _ Hr Hty He) as
    [(->&->&?)|(L&pend&_&_&_&Hf&H)]; [done|].
  rewrite Hf. destruct (enew _ _ _ _ _ _ _) as [E x].
  destruct H as [(->&->&_)|[(->&->&_)|(sm&l1&l&E1&E2&own'&opp'&->&_)]]; done.
Qed.

Lemma ematch_count p min os E r : Forall order_typed os -> op_typed (NewOrder p) ->
  ematch same_id p min os = (E, r) -> N.of_nat (length E) <= 2 * match_limit p.
Proof.
  intros Ht Hty He. pose proof (l_init_typed p Hty) as Hl. unfold ematch in He.
  destruct r as [l os'|].
  - apply eloop_fin in He as (l1&He&_). apply esteps_count in He as [He _].
    cbn [l_limit l_init] in He. lia.
  - apply eloop_abort in He as (l1&os1&He&_); [|cbn [l_limit l_init]; lia|done|done].
    apply esteps_count in He as [He _]. cbn [l_limit l_init] in He. lia.
Qed.
Lemma epost_count p min l own cap seq own' E sm seq' :
  epost p min l own cap seq = (own', E, sm, seq') -> (length E <= 1)%nat.
Proof. intros H. apply epost_cases in H. destruct H; cbn; lia. Qed.

Lemma queue_room c m p r m' :
  reachable same_id c m -> op_typed (NewOrder p) -> exec same_id (NewOrder p) m = (r, m') ->
  N.of_nat (length (pending m)) + 2 * match_limit p + 1 <= N.of_nat (c_events c) ->
  r <> Err EventQueueFull.
Proof.
  intros Hr Hty He Hroom. destruct (new_order_cases _ _ _ _ _ _ Hr Hty He) as
    [(->&->&?)|(L&pend&_&Hm&Hs&Hf&H)]; [done|].
  destruct (enew _ _ _ _ _ _ _) as [E x] eqn:Hen.
  destruct H as [(->&->&Hfit)|[(->&->&_)|(sm&l1&l&E1&E2&own'&opp'&->&_)]]; try done.
  exfalso. rewrite (minv_pending _ _ _ _ Hm) in Hroom. unfold fits in Hfit.
  assert (Ht : Forall order_typed (L (opposite (p_side p)))) by by eapply minv_typed.
  unfold enew in Hen.
  destruct (ematch same_id p (c_min c) (L (opposite (p_side p)))) as [E1 rr] eqn:Hem.
  pose proof (ematch_count _ _ _ _ _ Ht Hty Hem) as Hc.
  destruct rr as [l os'|].
  - destruct (epost _ _ _ _ _ _) as [[[? E2] ?] ?] eqn:Hep. simplify_eq.
    apply epost_count in Hep. rewrite app_length in Hfit. lia.
  - simplify_eq. lia.
Qed.

(** ** Posting *)
Lemma sides_of_minv c m L pend sd : minv c m L pend -> (length (L sd) <= capacity c sd)%nat.
Proof.
  intros H. pose proof (lrep_le _ _ _ (mi_rep _ _ _ _ H sd)) as Hle.
  rewrite (mi_caps _ _ _ _ H sd) in Hle. exact Hle.
Qed.
Lemma side_fits c m sd : reachable same_id c m -> (length (resting m sd) <= capacity c sd)%nat.
Proof.
  intros Hr. destruct (reachable_minv _ _ _ Hr) as (L&pend&Hm&_).
  rewrite (minv_resting _ _ _ _ _ Hm), prio_length. by eapply sides_of_minv.
Qed.
Lemma queue_fits c m : reachable same_id c m -> (length (pending m) <= c_events c)%nat.
Proof.
  intros Hr. destruct (reachable_minv _ _ _ Hr) as (L&pend&Hm&_).
  rewrite (minv_pending _ _ _ _ Hm). pose proof (mi_q _ _ _ _ Hm) as [_ _ _ Hc Hle _].
  rewrite (mi_qcap _ _ _ _ Hm) in Hle. lia.
Qed.

Lemma no_apply_own c m p sm m' L pend l1 l E1 E2 own' opp' :
  newo same_id c m p sm m' L pend l1 l E1 E2 own' opp' ->
  apply_events (L (p_side p)) (E1 ++ E2) =
    match E2 with [] => L (p_side p) | _ => removelast (L (p_side p)) end.
Proof.
  intros Hn. rewrite apply_events_app, (no_apply_own_E1 _ _ _ _ _ _ _ _ _ _ _ _ _ _ Hn).
  destruct (no_E2 _ _ _ _ _ _ _ _ _ _ _ _ _ _ Hn) as [->|(w&own0&->&Hl)]; [done|].
  rewrite Hl, removelast_last. unfold apply_events. cbn. unfold apply_event. cbn.
  pose proof (minv_sorted _ _ _ _ (p_side p) (no_inv _ _ _ _ _ _ _ _ _ _ _ _ _ _ Hn)) as Hs.
  rewrite Hl in Hs. pose proof (del_mid (p_side p) own0 w [] Hs) as Hd.
  rewrite app_nil_r in Hd. exact Hd.
Qed.

Lemma posted_visible c m p sm m' : accepted same_id c m p sm m' ->
  match posted_order_id sm with
  | Some id =>
      resting m' (p_side p) ≡ₚ
        (mk_leaf id (total_base_qty_posted sm), p_callback p)
        :: apply_events (resting m (p_side p)) (emitted m m') /\
      (forall sd, id ∉ map o_id (resting m sd)) /\
      c_min c <= total_base_qty_posted sm
  | None => resting m' (p_side p) = resting m (p_side p)
  end.
Proof.
  intros H. placed H.
  rewrite (no_emit _ _ _ _ _ _ _ _ _ _ _ _ _ _ Hn), (no_rest_own _ _ _ _ _ _ _ _ _ _ _ _ _ _ Hn).
  rewrite !(no_rest0 _ _ _ _ _ _ _ _ _ _ _ _ _ _ Hn), apply_events_prio.
  rewrite (no_apply_own _ _ _ _ _ _ _ _ _ _ _ _ _ Hn).
  assert (Hfr : forall sd, order_id_of (limit_price p) (seq_of m) (p_side p) ∉ map o_id (resting m sd)).
  { intros sd. rewrite (in_resting_ids _ _ _ _ _ _ (no_inv _ _ _ _ _ _ _ _ _ _ _ _ _ _ Hn)).
    pose proof (no_seq _ _ _ _ _ _ _ _ _ _ _ _ _ _ Hn) as Hsq.
    destruct (no_ty _ _ _ _ _ _ _ _ _ _ _ _ _ _ Hn) as (_&_&Hlp&_).
    intros Hin. assert (sd = p_side p \/ sd = opposite (p_side p)) as [->| ->].
    { destruct sd, (p_side p); auto. }
    - eapply minv_fresh; [apply Hn|done|exact Hlp|exact Hin].
    - apply elem_of_list_fmap in Hin as (o&Hid&Ho).
      destruct (order_ok_price _ _ _ _ Hsq (minv_ok _ _ _ _ _ _ (no_inv _ _ _ _ _ _ _ _ _ _ _ _ _ _ Hn) Ho))
        as (_&_&_&Hsd&_).
      rewrite <- Hid, side_of_order_id in Hsd by done. by destruct (p_side p). }
  destruct (no_post _ _ _ _ _ _ _ _ _ _ _ _ _ _ Hn)
    as [seq0 _|tp Hcr Hpa Htp Hmin Hlen|tp own0 w Hcr Hpa Htp Hmin Hlen Hown Hw];
    cbn [posted_order_id total_base_qty_posted].
  - done.
  - split; [|by split]. rewrite !prio_perm. by rewrite ins_perm.
  - split; [|by split]. rewrite !prio_perm. rewrite ins_perm, Hown, removelast_last. done.
Qed.

(** Eviction. *)
Lemma last_worst sd own0 (w : order C) : sorted sd (own0 ++ [w]) ->
  forall o, o ∈ own0 ++ [w] -> o <> w -> ahead sd (o_id o) (o_id w).
Proof.
  intros Hs o Ho Hne. apply before_ahead. apply sorted_app in Hs as (_&_&Hs).
  apply elem_of_app in Ho as [Ho|Ho]; [apply Hs; [done|left]|].
  apply elem_of_list_singleton in Ho. done.
Qed.
Lemma eviction c m p sm m' : accepted same_id c m p sm m' ->
  let own := resting m (p_side p) in
  (forall ev, ev ∈ emitted m m' -> event_id ev ∈ map o_id own ->
     length own = capacity c (p_side p) /\ posted_order_id sm <> None) /\
  (length own = capacity c (p_side p) -> posted_order_id sm <> None ->
   exists w E, w ∈ own /\ (forall o, o ∈ own -> o <> w -> ahead (p_side p) (o_id o) (o_id w)) /\
     better_price (p_side p) (limit_price p) (id_price (o_id w)) /\
     emitted m m' =
       E ++ [EvOut (mk_out_event tag_out (side_u8 (p_side p)) 0 (o_id w) (o_qty w)) (o_cb w)] /\
     (forall ev, ev ∈ E -> event_id ev ∉ map o_id own) /\
     o_id w ∉ map o_id (resting m' (p_side p))).
Proof.
  intros H own. placed H. subst own.
  rewrite !(no_rest0 _ _ _ _ _ _ _ _ _ _ _ _ _ _ Hn).
  rewrite (no_rest_own _ _ _ _ _ _ _ _ _ _ _ _ _ _ Hn).
  rewrite (no_emit _ _ _ _ _ _ _ _ _ _ _ _ _ _ Hn), prio_length.
  assert (HE1 : forall ev, ev ∈ E1 -> event_id ev ∉ map o_id (prio (p_side p) (L (p_side p)))).
  { intros ev Hev Hin. rewrite <- prio_map in Hin. apply prio_elem in Hin.
    eapply no_disjoint; [exact Hn|exact Hin|]. by eapply no_E1_opp. }
  pose proof (sides_of_minv _ _ _ _ (p_side p) (no_inv _ _ _ _ _ _ _ _ _ _ _ _ _ _ Hn)) as Hle.
  pose proof (minv_sorted _ _ _ _ (p_side p) (no_inv _ _ _ _ _ _ _ _ _ _ _ _ _ _ Hn)) as Hsrt.
  pose proof (no_seq _ _ _ _ _ _ _ _ _ _ _ _ _ _ Hn) as Hsq.
  pose proof (no_inv _ _ _ _ _ _ _ _ _ _ _ _ _ _ Hn) as Hm.
  pose proof (no_ty _ _ _ _ _ _ _ _ _ _ _ _ _ _ Hn) as (_&_&Hlp&_).
  change (caps c) with (capacity c) in *.
  destruct (no_post _ _ _ _ _ _ _ _ _ _ _ _ _ _ Hn)
    as [seq0 _|tp Hcr Hpa Htp Hmin Hlen|tp own0 w Hcr Hpa Htp Hmin Hlen Hown Hw];
    cbn [posted_order_id].
  - split; [|done]. intros ev Hev Hin. exfalso. rewrite app_nil_r in Hev. by eapply HE1.
  - change (caps c) with (capacity c) in *. split; [|lia].
    intros ev Hev Hin. exfalso. rewrite app_nil_r in Hev. by eapply HE1.
  - change (caps c) with (capacity c) in *. split; [intros; split; [lia|done]|]. intros _ _.
    assert (Hwin : w ∈ L (p_side p)) by (rewrite Hown; apply elem_of_app; right; left).
    exists w, E1. split_and!.
    + by apply prio_elem.
    + intros o Ho Hne. apply prio_elem in Ho. rewrite Hown in Ho, Hsrt. by eapply last_worst.
    + destruct (order_ok_price _ _ _ _ Hsq (minv_ok _ _ _ _ _ _ Hm Hwin)) as (Hp&_).
      rewrite <- Hp. unfold better_price. destruct (p_side p); done.
    + done.
    + done.
    + rewrite <- prio_map, prio_elem. intros Hin.
      apply elem_of_list_fmap in Hin as (x&Hid&Hx). rewrite ins_perm in Hx.
      apply elem_of_cons in Hx as [->|Hx].
      * unfold o_id at 2 in Hid. cbn in Hid.
        eapply (minv_fresh _ _ _ _ (p_side p)); [exact Hm|done|exact Hlp|].
        rewrite <- Hid. by apply elem_of_list_fmap_1.
      * rewrite Hown in Hsrt. apply sorted_app in Hsrt as (_&_&Hs).
        specialize (Hs x w Hx ltac:(left)). rewrite Hid, before_irrefl in Hs. done.
Qed.

(** Exactly when an order is posted. *)
Lemma afford_div q price : 0 < price -> afford q price = N.min (q * p32 / price) u64_max.
Proof.
  intros Hp. unfold afford, fp32_div. destruct (N.eqb_spec price 0); [lia|].
  unfold to_u64. destruct (N.ltb_spec (q * p32 / price) p64); cbn; lia.
Qed.
Lemma posting_condition c m p sm m' : accepted same_id c m p sm m' ->
  let rem_base := max_base_qty p - sumN fill_base (emitted m m') in
  let rem_quote := max_quote_qty p - sumN fill_quote (emitted m m') in
  let size := N.min (rem_quote * p32 / limit_price p) rem_base in
  (posted_order_id sm <> None <->
   post_allowed p = true /\
   interactions same_id p (emitted m m') < match_limit p /\
   (forall o, o ∈ resting m' (opposite (p_side p)) ->
      ~ crossing (p_side p) (limit_price p) (id_price (o_id o))) /\
   c_min c <= size /\
   ((length (resting m (p_side p)) < capacity c (p_side p))%nat \/
    exists w, w ∈ resting m (p_side p) /\
      better_price (p_side p) (limit_price p) (id_price (o_id w)))) /\
  (posted_order_id sm <> None -> total_base_qty_posted sm = size).
Proof.
  intros H rem_base rem_quote size. placed H.
  pose proof (no_sums _ _ _ _ _ _ _ _ _ _ _ _ _ _ Hn) as [S1 S2].
  assert (Hff : forall f, (forall e cb, f (EvOut e cb) = 0) -> sumN f (emitted m m') = sumN f E1).
  { intros f Hf. rewrite (no_emit _ _ _ _ _ _ _ _ _ _ _ _ _ _ Hn), sumN_app.
    destruct (no_E2 _ _ _ _ _ _ _ _ _ _ _ _ _ _ Hn) as [->|(w&own0&->&_)]; cbn; [lia|].
    unfold ev_out. rewrite Hf. lia. }
  assert (Hrb : rem_base = l_base l) by (unfold rem_base; rewrite Hff by done; lia).
  assert (Hrq : rem_quote = l_quote l) by (unfold rem_quote; rewrite Hff by done; lia).
  assert (Hint : interactions same_id p (emitted m m') = interactions same_id p E1).
  { rewrite (no_emit _ _ _ _ _ _ _ _ _ _ _ _ _ _ Hn). unfold interactions.
    rewrite List.filter_app, app_length.
    destruct (no_E2 _ _ _ _ _ _ _ _ _ _ _ _ _ _ Hn) as [->|(w&own0&->&_)]; [cbn; lia|].
    cbn [List.filter]. unfold ev_out. cbn [is_interaction oe_side].
    replace (side_u8 (p_side p) =? side_u8 (opposite (p_side p))) with false by by destruct (p_side p).
    rewrite andb_false_r. cbn. lia. }
  pose proof (esteps_interactions _ _ _ _ _ _ _ _ (no_steps _ _ _ _ _ _ _ _ _ _ _ _ _ _ Hn)) as Hi.
  cbn [l_limit l_init] in Hi.
  destruct (no_lb _ _ _ _ _ _ _ _ _ _ _ _ _ _ Hn) as (Hlb&Hlq&Hll).
  destruct (no_l1 _ _ _ _ _ _ _ _ _ _ _ _ _ _ Hn) as ((_&Hl1b&_)&_).
  pose proof (no_inv _ _ _ _ _ _ _ _ _ _ _ _ _ _ Hn) as Hm.
  pose proof (no_inv' _ _ _ _ _ _ _ _ _ _ _ _ _ _ Hn) as Hm'.
  pose proof (no_seq _ _ _ _ _ _ _ _ _ _ _ _ _ _ Hn) as Hsq.
  pose proof (sides_of_minv _ _ _ _ (p_side p) Hm) as Hle.
  assert (Htp : post_allowed p = true -> to_post p l = size).
  { intros Hpa. unfold to_post, size. rewrite Hrb, Hrq.
    rewrite afford_div; [lia|].
    pose proof (no_price _ _ _ _ _ _ _ _ _ _ _ _ _ _ Hn) as Hpb. unfold price_bad in Hpb.
    rewrite Hpa in Hpb. destruct (no_cfg _ _ _ _ _ _ _ _ _ _ _ _ _ _ Hn) as (_&Ht&_).
    apply orb_false_iff in Hpb as [_ Hpb]. cbn in Hpb. lia. }
  (* the crossed flag says whether the opposite side still crosses *)
  assert (Hopp' : Forall order_typed opp' /\ sorted (opposite (p_side p)) opp').
  { split.
    - destruct (esteps_typed _ _ _ _ _ _ _ _ (no_steps _ _ _ _ _ _ _ _ _ _ _ _ _ _ Hn)
        (no_linit _ _ _ _ _ _ _ _ _ _ _ _ _ _ Hn) (no_typed_opp _ _ _ _ _ _ _ _ _ _ _ _ _ _ Hn)) as (_&?&_). done.
    - pose proof (minv_sorted _ _ _ _ (opposite (p_side p)) Hm') as Hs. by rewrite sides_opp in Hs. }
  destruct Hopp' as [Hto Hso].
  assert (Hcr : l_crossed l = false <->
    0 < l_limit l1 /\ forall o, o ∈ resting m' (opposite (p_side p)) ->
      ~ crossing (p_side p) (limit_price p) (id_price (o_id o))).
  { rewrite (no_rest_opp _ _ _ _ _ _ _ _ _ _ _ _ _ _ Hn).
    pose proof (no_break _ _ _ _ _ _ _ _ _ _ _ _ _ _ Hn) as Hbr.
    pose proof (esteps_crossed _ _ _ _ _ _ _ _ (no_steps _ _ _ _ _ _ _ _ _ _ _ _ _ _ Hn) eq_refl) as Hc1.
    split.
    - intros Hf. destruct (estep_break_crossed _ _ _ _ _ _ Hc1 Hbr Hf) as [Hl Hx]. split; [done|].
      intros o Ho. apply prio_elem in Ho. by eapply not_crosses_all.
    - intros [Hl Hx]. unfold estep in Hbr. destruct (N.eqb_spec (l_limit l1) 0); [lia|].
      destruct opp' as [|o rest]; [by simplify_eq|].
      assert (Hco : crosses (p_side p) (limit_price p) (o_price o) = false).
      { apply not_true_is_false. intros Hc. apply crosses_crossing in Hc.
        apply (Hx o); [apply prio_elem; left|]. apply Forall_cons in Hto as [[Hid _] _].
        unfold o_price in Hc. by rewrite id_price_key in Hc. }
      rewrite Hco, orb_true_r in Hbr. by simplify_eq. }
  assert (Hbetter : forall w, w ∈ L (p_side p) ->
    better_price (p_side p) (limit_price p) (id_price (o_id w)) <->
    match p_side p with Bid => o_price w < limit_price p | Ask => limit_price p < o_price w end).
  { intros w Hw. destruct (order_ok_price _ _ _ _ Hsq (minv_ok _ _ _ _ _ _ Hm Hw)) as (Hp&_).
    rewrite <- Hp. by unfold better_price; destruct (p_side p). }
  assert (Hint' : interactions same_id p (emitted m m') < match_limit p <-> 0 < l_limit l1) by lia.
  rewrite Hint'. rewrite (no_rest0 _ _ _ _ _ _ _ _ _ _ _ _ _ _ Hn), prio_length.
  destruct (no_post _ _ _ _ _ _ _ _ _ _ _ _ _ _ Hn)
    as [seq0 Hwhy|tp Hc0 Hpa Htpe Hmin Hlen|tp own0 w Hc0 Hpa Htpe Hmin Hlen Hown Hw];
    cbn [posted_order_id total_base_qty_posted]; change (caps c) with (capacity c) in *.
  - split; [|done]. split; [done|]. intros (Hpa&Hl&Hx&Hsz&Hfull).
    assert (Hcr0 : l_crossed l = false) by (apply Hcr; done).
    rewrite <- Htp in Hsz by done.
    destruct Hwhy as [([?|[?|?]]&_)|(_&_&_&_&Hfl&Hlast)]; [congruence|congruence|lia|].
    destruct Hfull as [?|(w&Hw&Hb)]; [lia|]. apply prio_elem in Hw. exfalso.
    apply Hbetter in Hb; [|done].
    destruct (L (p_side p)) as [|x xs] eqn:HL using rev_ind; [by apply elem_of_nil in Hw|].
    clear IHxs. rewrite last_snoc in Hlast.
    pose proof (minv_sorted _ _ _ _ (p_side p) Hm) as Hs.
    assert (Hpw : match p_side p with Bid => o_price x <= o_price w | Ask => o_price w <= o_price x end).
    { apply elem_of_app in Hw as [Hw|Hw].
      - pose proof (minv_typed _ _ _ _ (p_side p) Hm Hsq) as Ht. rewrite HL in Hs, Ht.
        apply sorted_app in Hs as (_&_&Hs). specialize (Hs w x Hw ltac:(left)).
        rewrite Forall_forall in Ht. destruct (Ht w ltac:(apply elem_of_app; by left)) as [Hw1 _].
        destruct (Ht x ltac:(apply elem_of_app; right; left)) as [Hx1 _].
        unfold o_price, before in *. destruct (p_side p); apply price_mono; lia || done.
      - apply elem_of_list_singleton in Hw as ->. by destruct (p_side p). }
    destruct (p_side p); lia.
  - split.
    + split; [|done]. intros _. split; [done|]. rewrite <- Htp by done. destruct (proj1 Hcr Hc0) as [? ?].
      split_and!; [done|done|lia|by left].
    + intros _. rewrite <- Htp by done. done.
  - split.
    + split; [|done]. intros _. split; [done|]. rewrite <- Htp by done. destruct (proj1 Hcr Hc0) as [? ?].
      split_and!; [done|done|lia|]. right.
      assert (Hwin : w ∈ L (p_side p)) by (rewrite Hown; apply elem_of_app; right; left).
      exists w. split; [by apply prio_elem|]. by apply Hbetter.
    + intros _. rewrite <- Htp by done. done.
Qed.

(** ** Maximality *)
Lemma matching_maximal c m p sm m' : accepted same_id c m p sm m' ->
  post_only p = false -> interactions same_id p (emitted m m') < match_limit p ->
  let rem_base := max_base_qty p - sumN fill_base (emitted m m') in
  let rem_quote := max_quote_qty p - sumN fill_quote (emitted m m') in
  forall o, o ∈ resting m' (opposite (p_side p)) ->
  crossing (p_side p) (limit_price p) (id_price (o_id o)) ->
  (forall o', o' ∈ resting m' (opposite (p_side p)) -> o' <> o ->
     ahead (opposite (p_side p)) (o_id o) (o_id o')) ->
  rem_base = 0 \/
  rem_quote * p32 < id_price (o_id o) \/
  (p_side p = Ask /\
   N.min (N.min (o_qty o) rem_base) (rem_quote * p32 / id_price (o_id o)) * id_price (o_id o) < p32).
Proof.
  intros H Hpo Hlim rem_base rem_quote o Ho Hx Hbest. placed H.
  pose proof (no_sums _ _ _ _ _ _ _ _ _ _ _ _ _ _ Hn) as [S1 S2].
  assert (Hff : forall f, (forall e cb, f (EvOut e cb) = 0) -> sumN f (emitted m m') = sumN f E1).
  { intros f Hf. rewrite (no_emit _ _ _ _ _ _ _ _ _ _ _ _ _ _ Hn), sumN_app.
    destruct (no_E2 _ _ _ _ _ _ _ _ _ _ _ _ _ _ Hn) as [->|(w&own0&->&_)]; cbn; [lia|].
    unfold ev_out. rewrite Hf. lia. }
  assert (Hrb : rem_base = l_base l) by (unfold rem_base; rewrite Hff by done; lia).
  assert (Hrq : rem_quote = l_quote l) by (unfold rem_quote; rewrite Hff by done; lia).
  assert (Hint : interactions same_id p E1 <= interactions same_id p (emitted m m')).
  { rewrite (no_emit _ _ _ _ _ _ _ _ _ _ _ _ _ _ Hn). unfold interactions.
    rewrite List.filter_app, app_length. lia. }
  pose proof (esteps_interactions _ _ _ _ _ _ _ _ (no_steps _ _ _ _ _ _ _ _ _ _ _ _ _ _ Hn)) as Hi.
  cbn [l_limit l_init] in Hi.
  destruct (no_lb _ _ _ _ _ _ _ _ _ _ _ _ _ _ Hn) as (Hlb&Hlq&Hll).
  pose proof (no_inv' _ _ _ _ _ _ _ _ _ _ _ _ _ _ Hn) as Hm'.
  pose proof (minv_sorted _ _ _ _ (opposite (p_side p)) Hm') as Hs. rewrite sides_opp in Hs.
  rewrite (no_rest_opp _ _ _ _ _ _ _ _ _ _ _ _ _ _ Hn) in Ho, Hbest.
  apply prio_elem in Ho.
  destruct (esteps_typed _ _ _ _ _ _ _ _ (no_steps _ _ _ _ _ _ _ _ _ _ _ _ _ _ Hn)
        (no_linit _ _ _ _ _ _ _ _ _ _ _ _ _ _ Hn) (no_typed_opp _ _ _ _ _ _ _ _ _ _ _ _ _ _ Hn)) as (Hlt&Hto&_).
  destruct (estep_break_why _ _ _ _ _ _ (no_break _ _ _ _ _ _ _ _ _ _ _ _ _ _ Hn))
    as [?|[->|[?|(b&rest&Hb&Hwhy)]]]; [lia|by apply elem_of_nil in Ho|congruence|].
  assert (b = o) as ->.
  { rewrite Hb in Ho, Hbest, Hs. apply elem_of_cons in Ho as [->|Ho]; [done|].
    inversion Hs as [|? ? _ Hall]; subst. rewrite Forall_forall in Hall.
    specialize (Hall o Ho). destruct (decide (o_id b = o_id o)) as [He|He].
    { rewrite He, before_irrefl in Hall. done. }
    specialize (Hbest b ltac:(apply prio_elem; left) ltac:(congruence)).
    apply before_ahead in Hall. unfold ahead, better_price in *.
    exfalso. destruct (opposite (p_side p)); lia. }
  rewrite Forall_forall in Hto. destruct (Hto o Ho) as [Hid Hq].
  assert (Hpr : o_price o = id_price (o_id o)) by by apply id_price_key.
  rewrite Hpr in Hwhy. apply crosses_crossing in Hx. rewrite Hx in Hwhy.
  destruct Hlt as (_&Hl1b&Hl1q).
  pose proof (esteps_order_ok _ _ _ _ _ _ _ _ _ _ (no_steps _ _ _ _ _ _ _ _ _ _ _ _ _ _ Hn)
    (mi_ok _ _ _ _ (no_inv _ _ _ _ _ _ _ _ _ _ _ _ _ _ Hn) (opposite (p_side p)))) as Hok.
  rewrite Forall_forall in Hok. specialize (Hok o Ho).
  destruct (no_cfg _ _ _ _ _ _ _ _ _ _ _ _ _ _ Hn) as (Hmin&_).
  destruct (order_ok_price _ _ _ _ (no_seq _ _ _ _ _ _ _ _ _ _ _ _ _ _ Hn) Hok)
    as (_&[Hp0 _]&_&_&_&_&[Hq1 _]&_).
  rewrite Hpr in Hp0.
  assert (Htb : trade_base l1 o = N.min (N.min (o_qty o) rem_base) (rem_quote * p32 / id_price (o_id o))).
  { unfold trade_base. rewrite Hpr, afford_div, Hrb, Hrq, Hlb, Hlq by done. lia. }
  rewrite Htb in Hwhy.
  destruct (N.eq_0_gt_0_cases rem_base) as [?|Hp1]; [by left|]. right.
  destruct Hwhy as [?|[Hz|Hz]]; [done| |].
  - left. apply N.div_small_iff; lia.
  - destruct (N.lt_ge_cases (rem_quote * p32) (id_price (o_id o))) as [?|Hge]; [by left|right].
    unfold quote_of in Hz. destruct (p_side p).
    + exfalso. apply N.div_small_iff in Hz; [|done].
      assert (rem_quote * p32 / id_price (o_id o) <> 0) by (rewrite N.div_small_iff; lia).
      set (x := N.min _ _) in *. assert (1 <= x * id_price (o_id o)); [|lia].
      assert (1 <= x) by lia. nia.
    + split; [done|]. by apply N.div_small_iff in Hz.
Qed.
End NewOrderProps2.
