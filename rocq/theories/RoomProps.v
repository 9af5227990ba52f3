(** * RoomProps.v: how many events a new order can produce *)
From Verif Require Import Machine Bytes Critbit EventQueue OrderBook Market Spec MachineProofs
  TreeProofs SlabProofs SlabProofs2 QueueProofs IdProofs Engine BookProofs EngineProofs
  MarketProofs MarketFacts NewOrderProps NewOrderProps2.
From Coq Require Import ZifyBool ZifyNat ZifyN.

Section Room.
Context {C : Type} (same_id : C -> C -> bool).
Implicit Types m : market C.
Implicit Types c : config C.
Implicit Types p : params C.
Implicit Types os : list (order C).
Implicit Types E : list (event_ref C).

(** State after a first fill that leaves the order in the book. *)
Definition filled_once (sd : side) (l : locals) (o : order C) : Prop :=
  l_base l = 0 \/
  match sd with
  | Bid => l_quote l * p32 < o_price o
  | Ask => l_quote l * p32 < o_price o + p32
  end.
Definition stuck (sd : side) (l : locals) (o : order C) : Prop :=
  trade_base l o = 0 \/ quote_of sd (trade_base l o) (o_price o) = 0.

Lemma afford_0 q price : q * p32 < price -> afford q price = 0.
Proof.
  intros H. rewrite afford_div by lia. rewrite N.div_small by done. done.
Qed.
Lemma fill_first sd l (o : order C) : 0 < o_price o < p64 -> l_quote l < p64 -> l_base l < p64 ->
  0 < trade_base l o -> trade_base l o < o_qty o ->
  filled_once sd (mk_locals (l_limit l - 1) (l_base l - trade_base l o)
    (l_quote l - quote_of sd (trade_base l o) (o_price o)) true)
    (mk_leaf (o_id o) (o_qty o - trade_base l o), o_cb o).
Proof.
  intros Hp Hq Hb Ht0 Ht. unfold filled_once. cbn [l_base l_quote].
  change (o_price (mk_leaf (o_id o) (o_qty o - trade_base l o), o_cb o)) with (o_price o).
  destruct (N.eq_dec (trade_base l o) (l_base l)) as [->|Hne]; [left; lia|right].
  assert (Hta : trade_base l o = l_quote l * p32 / o_price o).
  { unfold trade_base in *. rewrite afford_div in * by lia. lia. }
  pose proof (N.div_mod (l_quote l * p32) (o_price o) ltac:(lia)) as Hdm.
  pose proof (N.mod_lt (l_quote l * p32) (o_price o) ltac:(lia)) as Hml.
  rewrite <- Hta in Hdm. set (b := trade_base l o) in *. set (P := o_price o) in *.
  unfold quote_of. destruct sd.
  - pose proof (N.div_mod (b * P + (p32 - 1)) p32 ltac:(lia)) as H1.
    pose proof (N.mod_lt (b * P + (p32 - 1)) p32 ltac:(lia)) as H2.
    set (k := (b * P + (p32 - 1)) / p32) in *. lia.
  - pose proof (N.div_mod (b * P) p32 ltac:(lia)) as H1.
    pose proof (N.mod_lt (b * P) p32 ltac:(lia)) as H2.
    set (k := b * P / p32) in *. lia.
Qed.
Lemma fill_second sd l (o : order C) : 0 < o_price o < p64 -> l_quote l < p64 -> l_base l < p64 ->
  filled_once sd l o -> 0 < trade_base l o -> trade_base l o < o_qty o ->
  0 < quote_of sd (trade_base l o) (o_price o) ->
  stuck sd (mk_locals (l_limit l - 1) (l_base l - trade_base l o)
    (l_quote l - quote_of sd (trade_base l o) (o_price o)) true)
    (mk_leaf (o_id o) (o_qty o - trade_base l o), o_cb o).
Proof.
  intros Hp Hq Hb [Hz|Hf] Ht0 Ht Hq0; [unfold trade_base in Ht0; lia|].
  unfold stuck.
  change (o_price (mk_leaf (o_id o) (o_qty o - trade_base l o), o_cb o)) with (o_price o).
  destruct sd.
  { exfalso. unfold trade_base in Ht0. rewrite afford_0 in Ht0 by done. lia. }
  left. unfold trade_base at 1. cbn [l_base l_quote].
  change (o_price (mk_leaf (o_id o) (o_qty o - trade_base l o), o_cb o)) with (o_price o).
  destruct (N.eq_dec (trade_base l o) (l_base l)) as [->|Hne]; [lia|].
  assert (Hta : trade_base l o = l_quote l * p32 / o_price o).
  { unfold trade_base in *. rewrite afford_div in * by lia. lia. }
  rewrite afford_0; [lia|].
  pose proof (N.div_mod (l_quote l * p32) (o_price o) ltac:(lia)) as Hdm.
  pose proof (N.mod_lt (l_quote l * p32) (o_price o) ltac:(lia)) as Hml.
  rewrite <- Hta in Hdm. set (b := trade_base l o) in *. set (P := o_price o) in *.
  unfold quote_of in *.
  pose proof (N.div_mod (b * P) p32 ltac:(lia)) as H1.
  pose proof (N.mod_lt (b * P) p32 ltac:(lia)) as H2.
  set (k := b * P / p32) in *. set (Q := l_quote l) in *.
  destruct (N.lt_ge_cases P p32) as [Hlt|Hge].
  - (* the remaining quote is at most 1 *) assert (Q <= 1) by lia. assert (k = Q) by lia. lia.
  - assert (b <= 1) by nia. assert (b = 1) by lia.
    destruct (N.eq_dec P p32); [subst; nia|]. nia.
Qed.

Lemma stuck_stop p min l o rest E l' os' : stuck (p_side p) l o ->
  esteps same_id p min l (o :: rest) E l' os' -> E = [].
Proof.
  intros Hs He. inversion He as [|? ? ? ? ? ? ? ? H1 H2]; subst; [done|].
  apply estep_next in H1 as [_ (x&r&Heq&Hen)]. simplify_eq.
  destruct Hen as [_ _ _ Hb Hq]. destruct Hs; lia.
Qed.

Lemma esteps_room p min l os E l' os' : 0 < min -> esteps same_id p min l os E l' os' ->
  locals_typed l -> Forall order_typed os ->
  (length E <= 3 * length os)%nat /\
  match os with
  | o :: _ => filled_once (p_side p) l o -> (length E <= 3 * length os - 1)%nat
  | [] => True
  end.
Proof.
  intros Hmin. induction 1 as [|l os l1 os1 E1 E2 l2 os2 Hs Hes IH]; intros Hl Ht.
  { cbn. split; [lia|]. destruct os; [done|]. cbn. lia. }
  destruct (estep_typed _ _ _ _ _ _ _ _ Hs Hl Ht) as (Hl1&Ht1&_).
  apply estep_next in Hs as [Hs (o&rest&->&Hen)]. specialize (IH Hl1 Ht1). destruct IH as [IH1 IH2].
  rewrite app_length. destruct Hen as [Hlim _ _ Hb Hq].
  inversion Hs as [? ? Hcp Hsx|? ? base quote Hno Hbe Hqe Hrem|? ? base quote Hno Hbe Hqe Hrem]; subst;
    cbn [length] in *; [lia|lia|].
  assert (Hp : 0 < o_price o < p64).
  { split; [|apply price_lt]. destruct (N.eq_0_gt_0_cases (o_price o)) as [Hz|?]; [|done].
    rewrite Hz in Hq. unfold quote_of in Hq. rewrite N.mul_0_r in Hq. by destruct (p_side p). }
  destruct Hl as (_&?&?).
  split.
  - assert (length E2 <= 3 * S (length rest) - 1)%nat; [|lia].
    apply IH2. apply fill_first; lia || done.
  - intros Hf.
    assert (E2 = []) as ->; [|cbn; lia].
    eapply stuck_stop; [|exact Hes]. apply fill_second; lia || done.
Qed.

Lemma ematch_room p min os E r : 0 < min -> Forall order_typed os -> op_typed (NewOrder p) ->
  ematch same_id p min os = (E, r) -> (length E <= 3 * length os)%nat.
Proof.
  intros Hmin Ht Hty He. pose proof (l_init_typed p Hty) as Hl. unfold ematch in He.
  destruct r as [l os'|].
  - apply eloop_fin in He as (l1&He&_). by apply esteps_room in He as [He _].
  - apply eloop_abort in He as (l1&os1&He&_); [|cbn [l_limit l_init]; lia|done|done].
    by apply esteps_room in He as [He _].
Qed.

Lemma event_count c m p sm m' : accepted same_id c m p sm m' ->
  (length (emitted m m') <= 3 * length (resting m (opposite (p_side p))) + 1)%nat.
Proof.
  intros H. apply accepted_newo in H as (L&pend&l1&l&E1&E2&own'&opp'&Hn).
  rewrite (no_emit _ _ _ _ _ _ _ _ _ _ _ _ _ _ Hn), (no_rest0 _ _ _ _ _ _ _ _ _ _ _ _ _ _ Hn).
  rewrite app_length, prio_length.
  destruct (no_cfg _ _ _ _ _ _ _ _ _ _ _ _ _ _ Hn) as ([Hmin _]&_).
  destruct (esteps_room _ _ _ _ _ _ _ Hmin (no_steps _ _ _ _ _ _ _ _ _ _ _ _ _ _ Hn)
    (no_linit _ _ _ _ _ _ _ _ _ _ _ _ _ _ Hn) (no_typed_opp _ _ _ _ _ _ _ _ _ _ _ _ _ _ Hn)) as [Hr _].
  destruct (no_E2 _ _ _ _ _ _ _ _ _ _ _ _ _ _ Hn) as [->|(w&own0&->&_)]; cbn; lia.
Qed.

Lemma queue_room_book c m p r m' :
  reachable same_id c m -> op_typed (NewOrder p) -> exec same_id (NewOrder p) m = (r, m') ->
  (length (pending m) + 3 * length (resting m (opposite (p_side p))) + 1 <= c_events c)%nat ->
  r <> Err EventQueueFull.
Proof.
  intros Hr Hty He Hroom. pose proof Hr as (([Hmin _]&_)&_).
  destruct (new_order_cases _ _ _ _ _ _ Hr Hty He) as
    [(->&->&?)|(L&pend&_&Hm&Hs&Hf&H)]; [done|].
  destruct (enew _ _ _ _ _ _ _) as [E x] eqn:Hen.
  destruct H as [(->&->&Hfit)|[(->&->&_)|(sm&l1&l&E1&E2&own'&opp'&->&_)]]; try done.
  exfalso. rewrite (minv_pending _ _ _ _ Hm), (minv_resting _ _ _ _ _ Hm), prio_length in Hroom.
  unfold fits in Hfit.
  assert (Ht : Forall order_typed (L (opposite (p_side p)))) by by eapply minv_typed.
  unfold enew in Hen.
  destruct (ematch same_id p (c_min c) (L (opposite (p_side p)))) as [E1 rr] eqn:Hem.
  pose proof (ematch_room _ _ _ _ _ Hmin Ht Hty Hem) as Hc.
  destruct rr as [l os'|].
  - destruct (epost _ _ _ _ _ _) as [[[? E2] ?] ?] eqn:Hep. simplify_eq.
    apply epost_count in Hep. rewrite app_length in Hfit. lia.
  - simplify_eq. lia.
Qed.
End Room.
