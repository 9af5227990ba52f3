(** * ExchangeProofs.v: a market follows the rules of ExchangeSpec.v *)
From Verif Require Import Machine Bytes Critbit EventQueue OrderBook Market Spec ExchangeSpec MachineProofs
  TreeProofs SlabProofs SlabProofs2 QueueProofs IdProofs Engine BookProofs EngineProofs MarketProofs.
From Coq Require Import ZifyBool ZifyNat ZifyN.
From Coq Require Import Sorting.Sorted.

Section ExchangeProofs.
Context {C : Type} (same_id : C -> C -> bool).

Definition good (o : order C) : Prop := o_id o < p128 /\ o_qty o < p64 /\ 0 < o_price o.
Lemma order_ok_good c seq sd (o : order C) : seq < p63 -> order_ok c seq sd o -> good o.
Proof. intros Hs Ho. destruct (order_ok_price _ _ _ _ Hs Ho) as (?&?&?&?&?&?&?&?). split_and!; lia. Qed.
Lemma price_id (o : order C) : o_id o < p128 -> o_price o = id_price (o_id o).
Proof.
  intros H. unfold o_price, price_from_key, id_price, as_u64. rewrite N.shiftr_div_pow2. change (2 ^ 64) with p64.
  apply N.mod_small. apply N.div_lt_upper_bound; lia.
Qed.
Lemma x_id_of sd (o : order C) : o_id o < p128 -> x_id sd (xorder_of sd o) = o_id o.
Proof.
  intros H. unfold x_id, xorder_of, id_price, id_seq. cbn [x_price x_time]. change (2 ^ 64) with p64.
  pose proof (N.div_mod (o_id o) p64 ltac:(lia)). pose proof (N.mod_lt (o_id o) p64 ltac:(lia)). destruct sd; lia.
Qed.
Lemma pays_afford base quote price : 0 < price -> base < p64 ->
  N.min base (pays_for quote price) = N.min base (afford quote price).
Proof.
  intros Hp Hb. unfold pays_for, afford, fp32_div, to_u64. destruct (N.eqb_spec price 0) as [?|_]; [lia|].
  change (2 ^ 32) with p32. destruct (N.ltb_spec (quote * p32 / price) p64); cbn; [done|]. lia.
Qed.
Lemma cost_quote sd base price : cost sd base price = quote_of sd base price.
Proof. done. Qed.

(** ** Trading *)
Definition x_result (sd : side) (r : eres) : option (N * N * list (xorder C) * bool) :=
  match r with
  | Fin l os => Some (l_base l, l_quote l, map (xorder_of sd) os, negb (l_crossed l))
  | Abort => None
  end.
Lemma trade_eq (c : config C) (p : params C) : forall n l os,
  Forall good os -> l_base l < p64 -> l_crossed l = true \/ n <> 0%nat -> N.to_nat (l_limit l) = n ->
  trade same_id (rules_of c) p n (l_base l) (l_quote l) (map (xorder_of (opposite (p_side p))) os) =
  (let r := eloop same_id (S n) p (c_min c) l os in (map notice_of (fst r), x_result (opposite (p_side p)) (snd r))).
Proof.
  induction n as [|n IH]; intros l os Hg Hb Hcr Hn.
  { cbn. unfold estep. destruct (N.eqb_spec (l_limit l) 0); [|lia]. cbn. destruct Hcr as [->|?]; [|done]. done. }
  remember (S n) as k. cbn [eloop]. subst k. unfold estep. cbv zeta.
  destruct (N.eqb_spec (l_limit l) 0) as [?|_]; [lia|].
  destruct os as [|o os]; [done|]. apply Forall_cons in Hg as [Ho Hg]. destruct Ho as (O1&O2&O3).
  cbn [map trade]. set (sd := p_side p) in *. set (os' := opposite sd) in *.
  pose proof (price_id o O1) as Hp. 
  assert (Ha : acceptable p (xorder_of os' o) = crosses sd (limit_price p) (o_price o)).
  { unfold acceptable, crosses. cbn [xorder_of x_price]. rewrite <- Hp. done. }
  rewrite Ha. destruct (crosses sd (limit_price p) (o_price o)) eqn:Hc; cbn [negb orb].
  2:{ by rewrite orb_true_r. }
  rewrite orb_false_r. cbn [xorder_of x_size x_price x_owner].
  assert (Hbase : N.min (N.min (o_qty o) (l_base l)) (pays_for (l_quote l) (id_price (o_id o))) = trade_base l o).
  { unfold trade_base. rewrite Hp. apply pays_afford; lia. }
  rewrite Hbase, <- Hp, cost_quote. destruct (post_only p); cbn [orb]; [done|].
  destruct (N.eqb_spec (trade_base l o) 0) as [?|Hb0]; [done|]. cbn [orb].
  fold sd. destruct (N.eqb_spec (quote_of sd (trade_base l o) (o_price o)) 0) as [?|Hq0]; [done|].
  unfold own_order, is_self. cbn [xorder_of x_owner]. rewrite (x_id_of os' o O1).
  assert (Htb : trade_base l o <= o_qty o) by (unfold trade_base; lia).
  assert (Htl : trade_base l o <= l_base l) by (unfold trade_base; lia).
  set (l1 := mk_locals (l_limit l - 1) (l_base l) (l_quote l) true).
  set (l2 := mk_locals (l_limit l - 1) (l_base l - trade_base l o) (l_quote l - quote_of sd (trade_base l o) (o_price o)) true).
  assert (Hout : forall q, notice_of (ev_out os' o q) = Removed os' (o_id o) q (o_cb o)).
  { intros q. unfold ev_out, notice_of. cbn. by destruct os'. }
  assert (Hfill : forall b q, notice_of (ev_fill p o b q) = Traded sd (o_id o) b q (o_cb o) (p_callback p)).
  { intros b q. unfold ev_fill, notice_of. cbn. fold sd. by destruct sd. }
  assert (Htrade : 
    (if o_qty o - trade_base l o <? c_min c
     then ([Traded sd (o_id o) (trade_base l o) (quote_of sd (trade_base l o) (o_price o)) (o_cb o) (p_callback p);
            Removed os' (o_id o) (o_qty o - trade_base l o) (o_cb o)] ++
           fst (trade same_id (rules_of c) p n (l_base l - trade_base l o) (l_quote l - quote_of sd (trade_base l o) (o_price o)) (map (xorder_of os') os)),
           snd (trade same_id (rules_of c) p n (l_base l - trade_base l o) (l_quote l - quote_of sd (trade_base l o) (o_price o)) (map (xorder_of os') os)))
     else let r := trade same_id (rules_of c) p n (l_base l - trade_base l o) (l_quote l - quote_of sd (trade_base l o) (o_price o))
              (mk_xorder (o_price o) (id_seq os' (o_id o)) (o_qty o - trade_base l o) (o_cb o) :: map (xorder_of os') os) in
          ([Traded sd (o_id o) (trade_base l o) (quote_of sd (trade_base l o) (o_price o)) (o_cb o) (p_callback p)] ++ fst r, snd r)) =
    match (if o_qty o - trade_base l o <? c_min c
           then ENext l2 os [ev_fill p o (trade_base l o) (quote_of sd (trade_base l o) (o_price o)); ev_out os' o (o_qty o - trade_base l o)]
           else ENext l2 ((mk_leaf (o_id o) (o_qty o - trade_base l o), o_cb o) :: os)
                  [ev_fill p o (trade_base l o) (quote_of sd (trade_base l o) (o_price o))]) with
    | ENext l' os1 E => let r0 := eloop same_id (S n) p (c_min c) l' os1 in
        (map notice_of (E ++ fst r0), x_result os' (snd r0))
    | _ => ([], None)
    end).
  { destruct (o_qty o - trade_base l o <? c_min c).
    - pose proof (IH l2 os Hg) as H. cbn [l2 l_base l_quote l_crossed l_limit] in H.
      rewrite H; [|lia|by left|lia]. cbn zeta. cbn [fst snd]. rewrite map_app. cbn [map]. by rewrite Hout, Hfill.
    - pose proof (IH l2 ((mk_leaf (o_id o) (o_qty o - trade_base l o), o_cb o) :: os)) as H.
      cbn [l2 l_base l_quote l_crossed l_limit map] in H.
      change (xorder_of os' (mk_leaf (o_id o) (o_qty o - trade_base l o), o_cb o)) with
        (mk_xorder (id_price (o_id o)) (id_seq os' (o_id o)) (o_qty o - trade_base l o) (o_cb o)) in H.
      rewrite <- Hp in H. rewrite H; [| |lia|by left|lia].
      + cbn zeta. cbn [fst snd]. rewrite map_app. cbn [map]. by rewrite Hfill.
      + constructor; [|done]. split_and!; cbn; [done| |done]. unfold o_qty. cbn. unfold o_qty in *. lia. }
  destruct (stb p) eqn:Hst.
  - etrans; [exact Htrade|]. by destruct (_ <? c_min c).
  - destruct (same_id (p_callback p) (o_cb o)).
    + pose proof (IH l1 os Hg) as H. cbn [l1 l_base l_quote l_crossed l_limit] in H.
      rewrite H; [|lia|by left|lia]. cbn zeta. cbn [fst snd]. cbn [app map]. by rewrite Hout.
    + etrans; [exact Htrade|]. by destruct (_ <? c_min c).
  - destruct (same_id (p_callback p) (o_cb o)); [done|]. etrans; [exact Htrade|]. by destruct (_ <? c_min c).
Qed.

(** ** Posting *)
Lemma x_id_new price seq sd size cb : price < p64 -> seq < p63 ->
  xorder_of sd (mk_leaf (order_id_of price seq sd) size, cb : C) = mk_xorder price seq size cb /\
  x_id sd (mk_xorder price seq size cb) = order_id_of price seq sd.
Proof.
  intros Hp Hs. assert (E : x_id sd (mk_xorder price seq size cb) = order_id_of price seq sd).
  { rewrite order_id_of_eq by lia. unfold x_id, id_low, not64. cbn [x_price x_time]. change (2 ^ 64) with p64. destruct sd; lia. }
  split; [|done]. unfold xorder_of. unfold o_id, o_qty, o_cb. cbn [fst snd lf_key lf_qty].
  pose proof (id_low_lt seq sd ltac:(lia)) as Hlow.
  f_equal.
  - unfold id_price. rewrite order_id_of_eq by lia. rewrite N.div_add_l by lia. rewrite (N.div_small _ _ Hlow). lia.
  - rewrite order_id_of_eq by lia. unfold id_seq. rewrite N.add_comm, N.mod_add by lia.
    rewrite (N.mod_small _ _ Hlow). destruct sd; unfold id_low, not64; lia.
Qed.
Lemma before_new c (p : params C) seq x : seq < p63 -> limit_price p < p64 -> order_ok c seq (p_side p) x ->
  before (p_side p) (order_id_of (limit_price p) seq (p_side p)) (o_id x) =
  negb (not_worse p (limit_price p) (xorder_of (p_side p) x)).
Proof.
  intros Hs Hp Hx. destruct (order_ok_price _ _ _ _ Hs Hx) as (E1&E2&_&_&_&_&_&E3&E4).
  unfold not_worse. cbn [xorder_of x_price]. rewrite <- E1. rewrite E4, !order_id_of_eq by lia.
  unfold before, id_low, not64. destruct (p_side p); lia.
Qed.
Lemma join_ins c (p : params C) seq size : forall own, seq < p63 -> limit_price p < p64 ->
  Forall (order_ok c seq (p_side p)) own ->
  map (xorder_of (p_side p)) (ins (p_side p) (mk_leaf (order_id_of (limit_price p) seq (p_side p)) size, p_callback p) own) =
  join p (mk_xorder (limit_price p) seq size (p_callback p)) (map (xorder_of (p_side p)) own).
Proof.
  intros own Hs Hp. destruct (x_id_new (limit_price p) seq (p_side p) size (p_callback p) Hp Hs) as [En _].
  induction 1 as [|x own Hx _ IH]; cbn [ins map join]; [by rewrite En|].
  pose proof (before_new c p seq x Hs Hp Hx) as Hb. unfold o_id at 1. cbn [fst lf_key]. rewrite Hb. cbn [x_price].
  destruct (not_worse p (limit_price p) (xorder_of (p_side p) x)); cbn [negb map]; [by rewrite IH|by rewrite En].
Qed.
Lemma last_map {A B} (f : A -> B) l : last (map f l) = f <$> last l.
Proof. induction l as [|x [|y l] IH]; [done|done|]. exact IH. Qed.
Lemma removelast_map {A B} (f : A -> B) l : removelast (map f l) = map f (removelast l).
Proof. induction l as [|x [|y l] IH]; [done|done|]. cbn [map removelast] in *. by rewrite <- IH. Qed.
Lemma removelast_forall {A} (P : A -> Prop) l : Forall P l -> Forall P (removelast l).
Proof.
  induction l as [|x [|y l] IH]; intros H; [constructor|constructor|]. apply Forall_cons in H as [Hx H].
  change (removelast (x :: y :: l)) with (x :: removelast (y :: l)). constructor; [done|by apply IH].
Qed.
Definition same_summary (p : params C) (l : locals) (posted : option (N * xorder C)) (sm : summary) : Prop :=
  let size := match posted with Some (_, o) => x_size o | None => 0 end in
  posted_order_id sm = option_map fst posted /\
  total_base_qty sm = max_base_qty p - l_base l + size /\
  total_quote_qty sm = max_quote_qty p - l_quote l + cost (p_side p) size (limit_price p) /\
  total_base_qty_posted sm = size.
Lemma cost_0 sd price : cost sd 0 price = 0.
Proof. unfold cost. rewrite N.mul_0_l. destruct sd; [|done]. by rewrite N.div_small. Qed.
Lemma post_eq c (p : params C) seq l own own' E sm seq' :
  config_ok c -> op_typed (NewOrder p) -> price_bad c p = false -> seq < p63 ->
  Forall (order_ok c seq (p_side p)) own ->
  l_base l <= max_base_qty p -> l_quote l <= max_quote_qty p ->
  epost p (c_min c) l own (caps c (p_side p)) seq = (own', E, sm, seq') ->
  exists posted,
    (if negb (l_crossed l) then post_rest (rules_of c) p seq (l_base l) (l_quote l) (map (xorder_of (p_side p)) own)
     else ([], None, map (xorder_of (p_side p)) own, seq)) =
    (map notice_of E, posted, map (xorder_of (p_side p)) own', seq') /\
    same_summary p l posted sm.
Proof.
  intros Hc (T1&T2&T3&T4) Hpb Hsq Hown Hb Hq. unfold epost.
  set (np := mk_summary None (max_base_qty p - l_base l) (max_quote_qty p - l_quote l) 0).
  assert (Hnp : same_summary p l None np).
  { split_and!; cbn [option_map np posted_order_id total_base_qty total_quote_qty total_base_qty_posted]; try done; try lia.
    rewrite cost_0. lia. }
  destruct (l_crossed l); cbn [orb negb].
  { intros [= <- <- <- <-]. by exists None. }
  unfold post_rest. destruct (post_allowed p) eqn:Hpa; cbn [orb negb].
  2:{ intros [= <- <- <- <-]. by exists None. }
  assert (Hlp : 0 < limit_price p).
  { unfold price_bad in Hpb. rewrite Hpa in Hpb. destruct Hc as (_&Ht&_). cbn [andb] in Hpb. lia. }
  assert (Etp : N.min (l_base l) (pays_for (l_quote l) (limit_price p)) = to_post p l).
  { unfold to_post. rewrite pays_afford by lia. lia. }
  rewrite Etp. cbn [rules_of r_min]. destruct (to_post p l <? c_min c).
  { intros [= <- <- <- <-]. by exists None. }
  destruct (x_id_new (limit_price p) seq (p_side p) (to_post p l) (p_callback p) T3 Hsq) as [En Ei].
  rewrite Ei. rewrite map_length.
  assert (Hroom : side_room (rules_of c) p = caps c (p_side p)) by (unfold side_room, caps; by destruct (p_side p)).
  rewrite Hroom.
  set (sm0 := mk_summary (Some (order_id_of (limit_price p) seq (p_side p))) _ _ (to_post p l)).
  assert (Hsm : same_summary p l (Some (order_id_of (limit_price p) seq (p_side p),
      mk_xorder (limit_price p) seq (to_post p l) (p_callback p))) sm0).
  { assert (Htb : to_post p l <= l_base l) by (unfold to_post; lia).
    assert (Hcq : quote_of (p_side p) (to_post p l) (limit_price p) <= l_quote l).
    { apply quote_of_le. apply afford_spec; unfold to_post; lia. }
    split_and!; cbn [option_map fst x_size sm0 posted_order_id total_base_qty total_quote_qty total_base_qty_posted]; try done.
    - lia.
    - unfold cost, quote_of in *. cbn [x_size]. change (2 ^ 32) with p32. lia. }
  destruct (length own <? caps c (p_side p))%nat.
  { intros [= <- <- <- <-]. eexists. split; [|exact Hsm]. by rewrite (join_ins c). }
  rewrite last_map, removelast_map. destruct (last own) as [w|] eqn:Hl; cbn [fmap option_fmap option_map].
  2:{ intros [= <- <- <- <-]. by exists None. }
  assert (Hw : order_ok c seq (p_side p) w).
  { rewrite Forall_forall in Hown. apply Hown. apply last_Some in Hl as (l'&->). apply elem_of_app. right. by left. }
  destruct (order_ok_price _ _ _ _ Hsq Hw) as (Ew&_&_&_&Hwl&_).
  assert (Hboot : not_worse p (limit_price p) (xorder_of (p_side p) w) =
    negb match p_side p with Bid => o_price w <? limit_price p | Ask => limit_price p <? o_price w end).
  { unfold not_worse. cbn [xorder_of x_price]. rewrite <- Ew. destruct (p_side p); lia. }
  rewrite Hboot. destruct (match p_side p with Bid => o_price w <? limit_price p | Ask => limit_price p <? o_price w end); cbn [negb].
  - intros [= <- <- <- <-]. eexists. split; [|exact Hsm]. rewrite (join_ins c) by (try done; by apply removelast_forall).
    rewrite (x_id_of _ _ Hwl). cbn [xorder_of x_size x_owner map]. do 3 f_equal.
    unfold ev_out, notice_of. cbn [oe_side oe_id oe_base side_of_u8]. by destruct (p_side p).
  - intros [= <- <- <- <-]. by exists None.
Qed.

(** ** A new order *)
Definition views (m : market C) (L : side -> list (order C)) (pend : list (event_ref C)) (x : exchange C) : Prop :=
  (forall sd, x_side x sd = map (xorder_of sd) (L sd)) /\ x_notices x = map notice_of pend /\ x_clock x = seq_of m.
Lemma view_minv c m L pend : minv c m L pend -> views m L pend (view m).
Proof.
  intros H. unfold views, view. cbn [x_notices x_clock]. rewrite (minv_pending _ _ _ _ H). split_and!; try done.
  intros [|]; cbn [x_side x_bids x_asks]; rewrite (minv_resting _ _ _ _ _ H); cbn [prio]; [|done].
  by rewrite map_rev, rev_involutive.
Qed.
Lemma views_eq m L pend x m' L' pend' x' : views m L pend x -> views m' L' pend' x' ->
  (forall sd, L sd = L' sd) -> pend = pend' -> seq_of m = seq_of m' -> x = x'.
Proof.
  intros (A1&A2&A3) (B1&B2&B3) HL -> Hs. destruct x as [b a n k], x' as [b' a' n' k']. cbn in *.
  pose proof (A1 Bid) as E1. pose proof (A1 Ask) as E2. pose proof (B1 Bid) as F1. pose proof (B1 Ask) as F2. cbn in *.
  rewrite HL in E1, E2. congruence.
Qed.
Lemma view_new_order c m p r m' : reachable same_id c m -> op_typed (NewOrder p) ->
  exec same_id (NewOrder p) m = (r, m') ->
  exists a, answer_of r = Some a /\ new_order_rule same_id (rules_of c) p (view m) = (a, view m').
Proof.
  intros Hr Hty He. pose proof Hr as (Hc&_). destruct (reachable_minv _ _ _ Hr) as (L&pend&Hm&Hsq).
  pose proof (exec_new_order same_id c m L pend p Hc Hm Hty Hsq) as H. cbn zeta in H.
  pose proof (view_minv _ _ _ _ Hm) as V. destruct V as (V1&V2&V3).
  unfold new_order_rule. change (r_tick (rules_of c)) with (c_tick c). fold (price_bad c p).
  destruct (price_bad c p) eqn:Hpb.
  { rewrite H in He. injection He as <- <-. by exists BadPrice. }
  set (sd := p_side p) in *. rewrite !V1, V2, V3.
  assert (Hok : forall sd, Forall (order_ok c (seq_of m) sd) (L sd)) by apply Hm.
  assert (Hgood : Forall good (L (opposite sd))).
  { eapply Forall_impl; [exact (Hok _)|]. intros o. by apply order_ok_good. }
  pose proof Hty as (T1&T2&T3&T4).
  pose proof (trade_eq c p (N.to_nat (match_limit p)) (l_init p) (L (opposite sd)) Hgood ltac:(done) ltac:(by left) ltac:(done)) as Ht.
  cbn [l_init l_base l_quote] in Ht. fold sd in Ht. rewrite Ht. cbn zeta. unfold enew, ematch in H.
  destruct (eloop same_id (S (N.to_nat (match_limit p))) p (c_min c) (l_init p) (L (opposite sd))) as [E1 er] eqn:El.
  cbn [fst snd]. destruct er as [l opp'|]; cbn [x_result].
  2:{ rewrite !map_length. cbn [r_room rules_of]. unfold fits in H.
      destruct (length pend + length E1 <=? c_events c)%nat; rewrite H in He; injection He as <- <-; by eexists. }
  apply eloop_fin in El as (l1&Hst&Hbr).
  assert (Htp : Forall order_typed (L (opposite sd))).
  { eapply Forall_impl; [exact (Hok _)|]. intros; by eapply order_ok_typed. }
  destruct (esteps_typed _ _ _ _ _ _ _ _ Hst (l_init_typed p Hty) Htp) as (_&_&_&B1&B2). cbn [l_init l_base l_quote] in B1, B2.
  destruct (estep_break _ _ _ _ _ _ Hbr) as (B3&B4&_).
  destruct (epost p (c_min c) l (L sd) (caps c sd) (seq_of m)) as [[[own' E2] sm] seq'] eqn:Ep.
  destruct (post_eq c p (seq_of m) l (L sd) own' E2 sm seq' Hc Hty Hpb Hsq (Hok _) ltac:(lia) ltac:(lia) Ep) as (posted&Hpost&S1&S2&S3&S4).
  fold sd in Hpost. rewrite Hpost. rewrite <- map_app, !map_length. cbn [r_room rules_of]. unfold fits in H.
  destruct (length pend + length (E1 ++ E2) <=? c_events c)%nat.
  2:{ rewrite H in He. injection He as <- <-. by exists NoRoom. }
  destruct H as (m1&H&Hm1&Hs1). rewrite H in He. injection He as <- <-.
  eexists. split; [reflexivity|]. cbn [answer_of]. rewrite S1, S2, S3, S4. f_equal.
  eapply (views_eq m1); [|exact (view_minv _ _ _ _ Hm1)|done|done|done].
  split_and!.
  - intros [|]; unfold with_sides, sides; fold sd; by destruct sd.
  - unfold with_sides. destruct sd; cbn [x_notices]; by rewrite !map_app.
  - rewrite Hs1. unfold with_sides. by destruct sd.
Qed.

(** ** Cancelling *)
Lemma find_map_x sd id (os : list (order C)) : Forall good os ->
  List.find (fun o => x_id sd o =? id) (map (xorder_of sd) os) = option_map (xorder_of sd) (find_order id os).
Proof.
  unfold find_order. induction 1 as [|o os (Ho&_) _ IH]; [done|]. cbn [map List.find]. rewrite x_id_of by done.
  by destruct (o_id o =? id).
Qed.
Lemma del_map_x sd id (os : list (order C)) : Forall good os ->
  List.filter (fun o => negb (x_id sd o =? id)) (map (xorder_of sd) os) = map (xorder_of sd) (del id os).
Proof.
  unfold del. induction 1 as [|o os (Ho&_) _ IH]; [done|]. cbn [map List.filter]. rewrite x_id_of by done.
  destruct (o_id o =? id); cbn [negb map]; by rewrite IH.
Qed.
Lemma find_other c seq sd id (os : list (order C)) : seq < p63 -> Forall (order_ok c seq sd) os -> side_of_id id <> sd ->
  find_order id os = None /\ del id os = os.
Proof.
  intros Hs Hos Hsd. assert (Hn : id ∉ map o_id os).
  { intros Hin. apply elem_of_list_fmap in Hin as (o&->&Hin). rewrite Forall_forall in Hos.
    destruct (order_ok_price _ _ _ _ Hs (Hos _ Hin)) as (_&_&_&E&_). done. }
  split; [by apply find_order_None|by apply del_notin].
Qed.
Definition books_ok c seq L : Prop := seq < p63 /\ forall sd, Forall (order_ok (C:=C) c seq sd) (L sd).
Lemma books_good c seq L sd : books_ok c seq L -> Forall good (L sd).
Proof. intros (Hs&H). eapply Forall_impl; [exact (H sd)|]. intros o. by apply order_ok_good. Qed.
Lemma x_lookup_eq c seq L pend m x id : books_ok c seq L -> views m L pend x ->
  x_lookup id x = option_map (xorder_of (side_of_id id)) (find_order id (L (side_of_id id))).
Proof.
  intros Hb (V1&_). unfold x_lookup, x_find. rewrite !V1, !find_map_x by (by eapply books_good).
  destruct Hb as [Hs Hb]. destruct (side_of_id id) eqn:E.
  - destruct (find_order id (L Bid)) as [o|]; [done|]. cbn [option_map].
    by rewrite (proj1 (find_other c seq Ask id (L Ask) Hs (Hb Ask) ltac:(congruence))).
  - by rewrite (proj1 (find_other c seq Bid id (L Bid) Hs (Hb Bid) ltac:(congruence))).
Qed.
Lemma x_remove_eq c seq L pend m x id : books_ok c seq L -> views m L pend x -> views m (delL id L) pend (x_remove id x).
Proof.
  intros Hb (V1&V2&V3). unfold views, x_remove. cbn [x_notices x_clock]. split_and!; try done.
  intros sd. assert (E : x_side (mk_exchange
      (List.filter (fun o => negb (x_id Bid o =? id)) (x_side x Bid))
      (List.filter (fun o => negb (x_id Ask o =? id)) (x_side x Ask)) (x_notices x) (x_clock x)) sd =
    map (xorder_of sd) (del id (L sd))).
  { destruct sd; cbn [x_side x_bids x_asks]; rewrite ?V1; rewrite <- del_map_x by (by eapply books_good).
    - change (x_bids x) with (x_side x Bid). by rewrite V1.
    - change (x_asks x) with (x_side x Ask). by rewrite V1. }
  etrans; [exact E|]. f_equal. destruct Hb as [Hs Hb]. unfold delL, sides.
  destruct (side_of_id id) eqn:Es, sd; try done; cbn [opposite]; [apply (find_other c seq Ask)|apply (find_other c seq Bid)]; try done; congruence.
Qed.
Lemma books_del c seq L id : books_ok c seq L -> books_ok c seq (delL id L).
Proof.
  intros (Hs&H). split; [done|]. intros sd. assert (Hd : forall sd, Forall (order_ok c seq sd) (del id (L sd))).
  { intros sd'. apply Forall_forall. intros o Ho. apply elem_del in Ho as [Ho _].
    specialize (H sd'). rewrite Forall_forall in H. by apply H. }
  unfold delL, sides. destruct (side_of_id id) eqn:E, sd; cbn [opposite]; try apply Hd; apply H.
Qed.
Lemma cancel_eq c seq pend m : forall ids L x b q, books_ok c seq L -> views m L pend x ->
  match emass ids L b q with
  | MDone L' b' q' => exists x', cancel_rule ids b q x = (Accepted None b' q' 0, x') /\ views m L' pend x'
  | MMissing => exists x', cancel_rule ids b q x = (NoSuchOrder, x')
  | MOver => exists x', cancel_rule ids b q x = (TooLarge, x')
  end.
Proof.
  induction ids as [|id ids IH]; intros L x b q Hb Hv; cbn [emass cancel_rule]; [by exists x|].
  rewrite (x_lookup_eq _ _ _ _ _ _ _ Hb Hv).
  destruct (find_order id (L (side_of_id id))) as [o|] eqn:Hf; cbn [option_map]; [|by exists x].
  assert (Hg : o_id o < p128).
  { apply find_order_Some in Hf as [Hin _]. pose proof (books_good _ _ _ (side_of_id id) Hb) as Hgd.
    rewrite Forall_forall in Hgd. by destruct (Hgd o Hin). }
  cbn [xorder_of x_size x_price]. change (2 ^ 64) with p64. change (2 ^ 32) with p32.
  rewrite <- (price_id o Hg). fold (order_quote o). rewrite (N.add_comm q).
  destruct (_ && _); [|by exists x].
  exact (IH _ _ _ _ (books_del _ _ _ id Hb) (x_remove_eq _ _ _ _ _ _ id Hb Hv)).
Qed.
Lemma minv_books c m L pend : minv c m L pend -> seq_of m < p63 -> books_ok c (seq_of m) L.
Proof. intros Hm Hs. split; [done|]. apply Hm. Qed.

(** ** All requests *)
Lemma view_step c m o r m' : reachable same_id c m -> op_typed o -> exec same_id o m = (r, m') ->
  exists a, answer_of r = Some a /\ rule same_id (rules_of c) o (view m) = (a, view m').
Proof.
  intros Hr Hty He. destruct o as [p|id|ids|n]; cbn [rule].
  - by apply (view_new_order c).
  - destruct (reachable_minv _ _ _ Hr) as (L&pend&Hm&Hsq).
    pose proof (exec_cancel same_id c m L pend id Hm Hsq) as H. cbn zeta in H.
    pose proof (cancel_eq c (seq_of m) pend m [id] L (view m) 0 0 (minv_books _ _ _ _ Hm Hsq) (view_minv _ _ _ _ Hm)) as Hcr.
    cbn [emass] in Hcr. destruct (find_order id (L (side_of_id id))) as [o|] eqn:Hf.
    + destruct H as (m1&H&Hm1&Hs1). rewrite H in He. injection He as <- <-.
      assert (Ho : o_qty o < p64 /\ order_quote o < p64).
      { apply find_order_Some in Hf as [Hin _]. pose proof (mi_ok _ _ _ _ Hm (side_of_id id)) as Hok.
        rewrite Forall_forall in Hok. specialize (Hok o Hin).
        destruct (order_ok_price _ _ _ _ Hsq Hok) as (_&_&_&_&_&Hv&Hq&_). split; [lia|].
        unfold order_quote. apply N.div_lt_upper_bound; lia. }
      rewrite N.add_0_l, N.add_0_r in Hcr. destruct (N.ltb_spec (o_qty o) p64) as [_|?]; [|lia].
      destruct (N.ltb_spec (order_quote o) p64) as [_|?]; [|lia]. cbn [andb] in Hcr.
      destruct Hcr as (x'&Hcr&Hv). eexists. split; [reflexivity|]. unfold all_or_nothing. rewrite Hcr. cbn [fst]. f_equal.
      eapply views_eq; [exact Hv|exact (view_minv _ _ _ _ Hm1)|done|done|]. unfold seq_of. by rewrite Hs1.
    + rewrite H in He. injection He as <- <-. destruct Hcr as (x'&Hcr). exists NoSuchOrder.
      split; [by destruct (stale m (side_of_id id) id)|]. unfold all_or_nothing. by rewrite Hcr.
  - destruct (reachable_minv _ _ _ Hr) as (L&pend&Hm&Hsq).
    pose proof (exec_mass_cancel same_id c m L pend ids Hm Hsq) as H.
    pose proof (cancel_eq c (seq_of m) pend m ids L (view m) 0 0 (minv_books _ _ _ _ Hm Hsq) (view_minv _ _ _ _ Hm)) as Hcr.
    destruct (emass ids L 0 0) as [L' b q| |].
    + destruct H as (m1&H&Hm1&Hs1). rewrite H in He. injection He as <- <-. destruct Hcr as (x'&Hcr&Hv).
      eexists. split; [reflexivity|]. unfold all_or_nothing. rewrite Hcr. cbn [fst]. f_equal.
      eapply views_eq; [exact Hv|exact (view_minv _ _ _ _ Hm1)|done|done|]. unfold seq_of. by rewrite Hs1.
    + destruct Hcr as (x'&Hcr). exists NoSuchOrder. unfold all_or_nothing. rewrite Hcr.
      destruct H as [H|H]; rewrite H in He; by injection He as <- <-.
    + destruct Hcr as (x'&Hcr). exists TooLarge. unfold all_or_nothing. rewrite Hcr. rewrite H in He. by injection He as <- <-.
  - destruct (reachable_minv _ _ _ Hr) as (L&pend&Hm&Hsq).
    destruct (exec_consume same_id c m L pend n Hm) as (m1&H&Hm1&Hs1&_). rewrite H in He. injection He as <- <-.
    exists Consumed. split; [done|]. f_equal. destruct (view_minv _ _ _ _ Hm) as (V1&V2&V3).
    eapply (views_eq m); [|exact (view_minv _ _ _ _ Hm1)|done|done|done].
    split_and!; cbn [x_notices x_clock].
    + intros [|]; [exact (V1 Bid)|exact (V1 Ask)].
    + rewrite V2. symmetry; apply fmap_drop.
    + done.
Qed.
Lemma view_init (c : config C) : config_ok c -> view (init_market c) = opening.
Proof.
  intros Hc. pose proof (init_minv c Hc) as Hm. destruct (view_minv _ _ _ _ Hm) as (V1&V2&V3).
  pose proof (V1 Bid). pose proof (V1 Ask). destruct (view (init_market c)). cbn in *. by subst.
Qed.
Lemma rule_run_snoc r os o (x : exchange C) l x1 a x2 : rule_run same_id r os x = (l, x1) -> rule same_id r o x1 = (a, x2) ->
  rule_run same_id r (os ++ [o]) x = (l ++ [a], x2).
Proof.
  revert x l x1. induction os as [|o' os IH]; intros x l x1; cbn [rule_run app].
  - intros [= <- <-] ->. done.
  - destruct (rule same_id r o' x) as [a' x']. destruct (rule_run same_id r os x') as [l' x''] eqn:E.
    intros [= <- <-] H. by rewrite (IH _ _ _ E H).
Qed.
Lemma view_history c log m : config_ok c -> history same_id c log m -> N.of_nat (length log) < p63 ->
  exists l, rule_run same_id (rules_of c) (map en_op log) opening = (l, view m) /\
    map (fun e => answer_of (en_res e)) log = map Some l.
Proof.
  intros Hc H. unfold history in H. induction H as [|log m o r m' Hh IH Hty He]; intros Hlen.
  { exists []. by rewrite view_init. }
  rewrite app_length in Hlen. cbn [length] in Hlen. destruct IH as (l&H1&H2); [lia|].
  assert (Hr : reachable same_id c m). { split; [done|]. exists log. split; [done|lia]. }
  destruct (view_step c m o r m' Hr Hty He) as (a&Ha&Hs). exists (l ++ [a]). rewrite !map_app. cbn [map en_op en_res].
  split; [by eapply rule_run_snoc|]. by rewrite H2, Ha.
Qed.
End ExchangeProofs.
