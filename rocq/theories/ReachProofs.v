(** * ReachProofs.v: orders out of reach do not matter (C90) *)
From stdpp Require Import sorting.
From Verif Require Import Machine Critbit EventQueue OrderBook Market Spec BookProofs MarketProofs MarketFacts
  NewOrderProps NewOrderProps2 EventProps ExchangeSpec ExchangeProofs InstrProps HistoryProps PlaceProofs FundsProofs CustodyProofs
  Engine PartsSpec PartsProofs BestSpec BestProofs ClientSpec LadderSpec LadderProofs ReachSpec.
From Coq Require Import Sorted ZifyBool ZifyNat ZifyN.

Section Trade.
Context {C : Type} (same_id : C -> C -> bool) (r : rules) (p : params C).
Notation trade := (trade same_id r p).
Notation sd := (p_side p).
Definition behind (B : list (xorder C)) (res : list (notice C) * option (N * N * list (xorder C) * bool)) :=
  (fst res, match snd res with Some (b, q, ms, f) => Some (b, q, ms ++ B, f) | None => None end).
(** Orders behind those that can be met, by number or by price, are left alone. *)
Lemma trade_app B : forall n base quote A,
  (n <= length A)%nat \/ (match B with [] => true | o :: _ => negb (acceptable p o) end) = true ->
  trade n base quote (A ++ B) = behind B (trade n base quote A).
Proof.
  induction n as [|n IH]; intros base quote A H; [done|].
  destruct A as [|o A].
  { destruct H as [H|H]; [cbn in H; lia|]. cbn [app]. destruct B as [|o B]; [done|]. cbn [ExchangeSpec.trade]. by rewrite H. }
  cbn [app ExchangeSpec.trade]. set (b := N.min (N.min (x_size o) base) (pays_for quote (x_price o))).
  destruct (negb (acceptable p o)); [done|]. destruct (post_only p || _ || _); [done|].
  assert (H' : (n <= length A)%nat \/ (match B with [] => true | o :: _ => negb (acceptable p o) end) = true) by (destruct H; [left; cbn in *; lia|by right]).
  assert (H'' : forall x, (n <= length (x :: A))%nat \/ (match B with [] => true | o :: _ => negb (acceptable p o) end) = true) by (intros x; destruct H; [left; cbn in *; lia|by right]).
  destruct (stb p), (own_order same_id p o); try reflexivity; try (rewrite (IH _ _ A H'); reflexivity);
    (destruct (_ <? r_min r); [rewrite (IH _ _ A H'); reflexivity|]);
    (change (?x :: A ++ B) with ((x :: A) ++ B); rewrite (IH _ _ (_ :: A) (H'' _)); reflexivity).
Qed.
Lemma acceptable_prefix ms : ranked sd ms -> exists B, ms = List.filter (acceptable p) ms ++ B /\
  (match B with [] => true | o :: _ => negb (acceptable p o) end) = true.
Proof.
  induction ms as [|o ms IH]; intros Hr; [by exists []|]. destruct Hr as [Hd Hr]. cbn [List.filter].
  destruct (acceptable p o) eqn:Ho.
  - destruct (IH Hr) as (B&E&HB). exists B. split; [|done]. cbn [app]. by rewrite <- E.
  - rewrite (unacceptable _ _ _ Ho Hd). exists (o :: ms). split; [done|]. by rewrite Ho.
Qed.
Lemma trade_reach n base quote ms : ranked sd ms ->
  let A := take n (List.filter (acceptable p) ms) in
  trade n base quote ms = behind (drop (length A) ms) (trade n base quote A).
Proof.
  intros Hr A. destruct (acceptable_prefix ms Hr) as (B&E&HB). set (F := List.filter (acceptable p) ms) in *.
  assert (Em : ms = A ++ drop (length A) ms).
  { assert (A = take (length A) ms).
    { unfold A at 2. rewrite take_length. rewrite E at 1. rewrite take_app_le by lia. unfold A.
      destruct (decide (n <= length F)%nat); [by rewrite Nat.min_l by lia|]. rewrite Nat.min_r by lia. rewrite firstn_all2 by lia. by rewrite firstn_all. }
    rewrite H at 1. by rewrite take_drop. }
  rewrite Em at 1. apply trade_app. destruct (decide (n <= length F)%nat) as [Hn|Hn].
  - left. unfold A. rewrite take_length. lia.
  - right. assert (EA : A = F) by (unfold A; apply firstn_all2; lia).
    rewrite EA. rewrite E at 1. by rewrite drop_app_alt by done.
Qed.
End Trade.

Section Markets.
Context {C : Type} (same_id : C -> C -> bool).
Lemma reach_view (m : market C) p :
  take (N.to_nat (match_limit p)) (List.filter (acceptable p) (x_side (view m) (opposite (p_side p)))) =
  map (xorder_of (opposite (p_side p))) (reach m p).
Proof. rewrite facing_view, filter_mapl, firstn_map. done. Qed.
Lemma view_length (m : market C) sd : length (x_side (view m) sd) = length (resting m sd).
Proof. destruct sd; cbn; [rewrite rev_length|]; by rewrite map_length. Qed.

Lemma trade_rules r r' (p : params C) : r_min r = r_min r' -> forall n base quote ms,
  trade same_id r p n base quote ms = trade same_id r' p n base quote ms.
Proof.
  intros E. induction n as [|n IH]; intros base quote ms; [done|]. destruct ms as [|o ms]; [done|]. cbn [trade]. rewrite E.
  destruct (negb (acceptable p o)); [done|]. destruct (post_only p || _ || _); [done|].
  destruct (stb p), (own_order same_id p o); try reflexivity; try (rewrite IH; reflexivity); (destruct (_ <? r_min r'); rewrite IH; reflexivity).
Qed.
Lemma post_same r r' (p : params C) base quote own own' k k' : r_min r = r_min r' ->
  (post_allowed p = true -> (length own < side_room r p)%nat /\ (length own' < side_room r' p)%nat) ->
  exists posted posted' o o' t t',
  post_rest r p k base quote own = ([], posted, o, t) /\ post_rest r' p k' base quote own' = ([], posted', o', t') /\
  (k = k' -> posted = posted') /\ (posted = None /\ posted' = None \/ exists size,
    posted = Some (x_id (p_side p) (mk_xorder (limit_price p) k size (p_callback p)), mk_xorder (limit_price p) k size (p_callback p)) /\
    posted' = Some (x_id (p_side p) (mk_xorder (limit_price p) k' size (p_callback p)), mk_xorder (limit_price p) k' size (p_callback p))).
Proof.
  intros E Hroom. unfold post_rest. rewrite E. destruct (post_allowed p) eqn:Hpa; cbn [negb orb].
  - destruct (Hroom eq_refl) as [L1 L2]. apply Nat.ltb_lt in L1, L2. rewrite L1, L2. destruct (_ <? r_min r').
    + do 6 eexists. split; [done|]. split; [done|]. split; [done|]. by left.
    + do 6 eexists. split; [done|]. split; [done|]. split; [by intros ->|]. right. eexists. done.
  - do 6 eexists. split; [done|]. split; [done|]. split; [done|]. by left.
Qed.

Lemma out_of_reach c1 c2 m1 m2 p r1 r2 m1' m2' :
  reachable same_id c1 m1 -> reachable same_id c2 m2 -> c_min c1 = c_min c2 -> c_tick c1 = c_tick c2 -> op_typed (NewOrder p) ->
  reach m1 p = reach m2 p -> (post_allowed p = true -> has_room c1 m1 (p_side p) /\ has_room c2 m2 (p_side p)) ->
  exec same_id (NewOrder p) m1 = (r1, m1') -> exec same_id (NewOrder p) m2 = (r2, m2') ->
  r1 <> Err EventQueueFull -> r2 <> Err EventQueueFull ->
  alike p m1 r1 m1' m2 r2 m2'.
Proof.
  unfold alike. intros R1 R2 Emin Etick Hty HR Hroom X1 X2 F1 F2.
  destruct (view_new_order _ _ _ _ _ _ R1 Hty X1) as (a1&A1&V1). destruct (view_new_order _ _ _ _ _ _ R2 Hty X2) as (a2&A2&V2).
  unfold new_order_rule in V1, V2. set (sd := p_side p) in *. cbn [rules_of r_tick r_room] in V1, V2. rewrite Etick in V1.
  destruct (negb _ || _) in V1, V2.
  { injection V1 as <- _. injection V2 as <- _. destruct r1 as [[s1|]|?|?|], r2 as [[s2|]|?|?|]; try done; by rewrite A1, A2. }
  set (n := N.to_nat (match_limit p)) in *.
  assert (T : forall m c, reachable same_id c m -> c_min c = c_min c2 -> reach m p = reach m2 p ->
    trade same_id (rules_of c) p n (max_base_qty p) (max_quote_qty p) (x_side (view m) (opposite sd)) =
    behind (drop (length (reach m p)) (x_side (view m) (opposite sd))) (trade same_id (rules_of c2) p n (max_base_qty p) (max_quote_qty p) (map (xorder_of (opposite sd)) (reach m2 p)))).
  { intros m c Hr Em Hre. rewrite (trade_rules (rules_of c) (rules_of c2)) by done.
    pose proof (trade_reach same_id (rules_of c2) p n (max_base_qty p) (max_quote_qty p) _ (view_ranked same_id c m sd Hr)) as H. cbn zeta in H.
    pose proof (reach_view m p) as RV. fold n sd in RV. fold sd in H. rewrite RV in H. rewrite map_length, Hre in H. rewrite Hre. exact H. }
  rewrite (T m1 c1 R1 Emin HR) in V1. rewrite (T m2 c2 R2 eq_refl eq_refl) in V2. clear T.
  destruct (trade same_id (rules_of c2) p n _ _ _) as [ns [[[[b q] met] f]|]]; cbn [behind fst snd] in V1, V2.
  2:{ assert (N1 : a1 = SelfTrade).
      { destruct (_ <=? _)%nat in V1; injection V1 as <- _; [done|]. exfalso. apply F1. by destruct r1 as [[?|]|[]|[]|]. }
      assert (N2 : a2 = SelfTrade).
      { destruct (_ <=? _)%nat in V2; injection V2 as <- _; [done|]. exfalso. apply F2. by destruct r2 as [[?|]|[]|[]|]. }
      subst. destruct r1 as [[?|]|[]|[]|], r2 as [[?|]|[]|[]|]; done. }
  assert (P : exists n2 posted posted' o o' t t',
    (if f then post_rest (rules_of c1) p (x_clock (view m1)) b q (x_side (view m1) sd) else ([], None, x_side (view m1) sd, x_clock (view m1))) = (n2, posted, o, t) /\
    (if f then post_rest (rules_of c2) p (x_clock (view m2)) b q (x_side (view m2) sd) else ([], None, x_side (view m2) sd, x_clock (view m2))) = (n2, posted', o', t') /\
    (x_clock (view m1) = x_clock (view m2) -> posted = posted') /\ (posted = None /\ posted' = None \/ exists size,
    posted = Some (x_id sd (mk_xorder (limit_price p) (x_clock (view m1)) size (p_callback p)), mk_xorder (limit_price p) (x_clock (view m1)) size (p_callback p)) /\
    posted' = Some (x_id sd (mk_xorder (limit_price p) (x_clock (view m2)) size (p_callback p)), mk_xorder (limit_price p) (x_clock (view m2)) size (p_callback p)))).
  { destruct f.
    - destruct (post_same (rules_of c1) (rules_of c2) p b q (x_side (view m1) sd) (x_side (view m2) sd) (x_clock (view m1)) (x_clock (view m2)) Emin)
        as (posted&posted'&o&o'&t&t'&H).
      + intros Hp. destruct (Hroom Hp) as [L1 L2]. unfold has_room in L1, L2. rewrite !view_length. unfold side_room. fold sd.
        destruct sd; cbn in *; done.
      + exists [], posted, posted', o, o', t, t'. exact H.
    - exists []. do 6 eexists. split; [done|]. split; [done|]. split; [done|]. by left. }
  destruct P as (n2&posted&posted'&o&o'&t&t'&P1&P2&Pk&Pp). rewrite P1 in V1. rewrite P2 in V2.
  destruct (_ <=? _)%nat in V1; [|exfalso; apply F1; injection V1 as <- _; by destruct r1 as [[?|]|[]|[]|]].
  destruct (_ <=? _)%nat in V2; [|exfalso; apply F2; injection V2 as <- _; by destruct r2 as [[?|]|[]|[]|]].
  injection V1 as <- V1. injection V2 as <- V2.
  destruct r1 as [[s1|]|[]|[]|]; try discriminate A1. destruct r2 as [[s2|]|[]|[]|]; try discriminate A2.
  cbn [answer_of] in A1, A2. injection A1 as I1 B1 Q1 S1. injection A2 as I2 B2 Q2 S2.
  assert (K : forall c m, reachable same_id c m -> x_clock (view m) < 2 ^ 64).
  { intros c m Hr. destruct (reachable_minv _ _ _ Hr) as (L&pend&Hm&Hsq). destruct (view_minv _ _ _ _ Hm) as (_&_&V3). rewrite V3.
    unfold seq_of in *. lia. }
  assert (Hsame : same_summary s1 s2).
  { unfold same_summary. destruct s1, s2. cbn in *. subst. destruct Pp as [(->&->)|(size&->&->)]; [done|]. cbn [option_map fst x_size].
    split_and!; try done. f_equal. unfold id_price, x_id. cbn [x_price x_time]. pose proof (K _ _ R1). pose proof (K _ _ R2).
    rewrite !N.div_add_l by done. rewrite !N.div_small by (destruct sd; lia). done. }
  split; [done|]. split.
  { intros Ek. destruct s1, s2. cbn in *. subst. rewrite (Pk Ek). done. }
  assert (En : forall m m', x_notices (view m') = x_notices (view m) ++ ns ++ n2 -> map notice_of (emitted m m') = ns ++ n2).
  { intros m m' En. unfold emitted. cbn [view x_notices] in En. rewrite <- skipn_map, En. apply drop_app_alt. by rewrite map_length. }
  split.
  { rewrite (En m1 m1'), (En m2 m2'); [done|rewrite <- V2|rewrite <- V1]; by destruct sd. }
  exists met. intros m m' [[-> ->]|[-> ->]]; [rewrite <- V1 at 1|rewrite <- V2 at 1]; by destruct sd.
Qed.

(** *** Requests that leave the reach of an order as it is *)
Lemma take_filter {A} (g : A -> bool) n : forall l, Forall (fun x => g x = true) (take n l) -> take n (List.filter g l) = take n l.
Proof.
  induction n as [|n IH]; intros l; [done|]. destruct l as [|x l]; [done|]. rewrite firstn_cons. intros H. inversion H as [|?? Hx Hl]; subst.
  cbn [List.filter]. rewrite Hx, firstn_cons. by rewrite IH.
Qed.
Lemma filter_comm {A} (f g : A -> bool) l : List.filter f (List.filter g l) = List.filter g (List.filter f l).
Proof. induction l as [|x l IH]; [done|]. cbn [List.filter]. destruct (f x) eqn:Ef, (g x) eqn:Eg; cbn [List.filter]; rewrite ?Ef, ?Eg, IH; done. Qed.
Lemma filter_revl {A} (g : A -> bool) l : rev (List.filter g l) = List.filter g (rev l).
Proof. induction l as [|x l IH]; [done|]. cbn [List.filter rev]. rewrite List.filter_app. cbn [List.filter]. destruct (g x); cbn [rev]; rewrite IH; [done|]. by rewrite app_nil_r. Qed.
Lemma facing_filter (m m' : market C) sd g : resting m' (opposite sd) = List.filter g (resting m (opposite sd)) ->
  facing m' sd = List.filter g (facing m sd).
Proof. intros H. destruct sd; cbn [facing opposite] in *; rewrite H; [done|]. apply filter_revl. Qed.
Lemma reach_cancel (m m' : market C) p id :
  resting m' (opposite (p_side p)) = List.filter (fun x => negb (o_id x =? id)) (resting m (opposite (p_side p))) ->
  id ∉ map o_id (reach m p) -> reach m' p = reach m p.
Proof.
  intros Hres Hid. unfold reach in *. rewrite (facing_filter _ _ _ _ Hres), filter_comm. apply take_filter.
  apply Forall_forall. intros x Hx. destruct (o_id x =? id) eqn:E; [|done]. exfalso. apply Hid. apply N.eqb_eq in E. rewrite <- E.
  by apply elem_of_list_fmap_1.
Qed.
#[local] Instance id_antisymm : AntiSymm (=) (fun x y : order C => o_id x < o_id y).
Proof. intros x y H1 H2. exfalso. lia. Qed.
Lemma sorted_perm (l l' : list (order C)) : StronglySorted (fun x y => o_id x < o_id y) l -> StronglySorted (fun x y => o_id x < o_id y) l' ->
  l ≡ₚ l' -> l = l'.
Proof. intros H1 H2 H. eapply (StronglySorted_unique (fun x y : order C => o_id x < o_id y)); [exact H1|exact H2|exact H]. Qed.
Lemma filter_sorted {A} (R : A -> A -> Prop) (g : A -> bool) l : StronglySorted R l -> StronglySorted R (List.filter g l).
Proof.
  intros H. induction H as [|x l Hs IH Hall]; [constructor|]. cbn [List.filter]. destruct (g x); [|done]. constructor; [done|].
  apply Forall_forall. intros y Hy. rewrite Forall_forall in Hall. apply Hall. apply elem_of_list_In. apply elem_of_list_In in Hy. by apply filter_In in Hy as [Hy _].
Qed.
Lemma filter_perm {A} (g : A -> bool) l l' : l ≡ₚ l' -> List.filter g l ≡ₚ List.filter g l'.
Proof.
  induction 1 as [|x l l' H IH|x y l|l l' l'' H1 IH1 H2 IH2]; cbn [List.filter]; [done| | |by etrans].
  - destruct (g x); [by constructor|done].
  - destruct (g x), (g y); try done. constructor.
Qed.
Lemma reach_post c m p q s m' : accepted same_id c m q s m' -> reachable same_id c m' -> emitted m m' = [] ->
  p_side q = opposite (p_side p) -> ~ crossing (p_side p) (limit_price p) (limit_price q) -> reach m' p = reach m p.
Proof.
  intros H Hr' He Hsd Hx. pose proof H as (Hr&Hty&Hex). pose proof (posted_visible _ _ _ _ _ _ H) as G. rewrite He, Hsd in G. cbn [apply_events fold_left] in G.
  assert (F : List.filter (within_limit p) (resting m' (opposite (p_side p))) = List.filter (within_limit p) (resting m (opposite (p_side p)))).
  { destruct (posted_order_id s) as [id|] eqn:Eid; [|by rewrite G]. destruct G as (G&_&_).
    apply sorted_perm; [apply filter_sorted, (book_sorted same_id c m' _ Hr')|apply filter_sorted, (book_sorted same_id c m _ Hr)|].
    rewrite (filter_perm _ _ _ G). cbn [List.filter]. 
    assert (Hw : within_limit p (mk_leaf id (total_base_qty_posted s), p_callback q) = false).
    { destruct Hr as (Hc&log&Hh&Hl).
      destruct (posted_encodes same_id c log m (mk_entry (NewOrder q) (Ok (Some s)) (emitted m m')) m' id Hc Hh Hl) as (q'&Eq&Ep&_).
      - change [mk_entry (NewOrder q) (Ok (Some s)) (emitted m m')] with ([] ++ [mk_entry (NewOrder q) (Ok (Some s)) (emitted m m')]).
        by apply steps_snoc with (m := m); [constructor|..].
      - cbn. done.
      - cbn in Eq. injection Eq as <-. unfold within_limit. change (id_price (o_id (mk_leaf id (total_base_qty_posted s), p_callback q))) with (id_price id). rewrite Ep.
        unfold crossing in Hx. destruct (p_side p); lia. }
    rewrite Hw. done. }
  unfold reach. f_equal. destruct (p_side p); cbn [facing opposite] in *; [done|]. rewrite <- !filter_revl. by rewrite F.
Qed.
Lemma one_order (l : list (order C)) x y : StronglySorted (fun x y => o_id x < o_id y) l -> x ∈ l -> y ∈ l -> o_id x = o_id y -> x = y.
Proof.
  intros H. induction H as [|z l Hs IH Hall]; [by intros ?%elem_of_nil|]. rewrite Forall_forall in Hall. rewrite !elem_of_cons.
  intros [->|Hx] [->|Hy] E; [done|specialize (Hall _ Hy); lia|specialize (Hall _ Hx); lia|by apply IH].
Qed.
End Markets.
