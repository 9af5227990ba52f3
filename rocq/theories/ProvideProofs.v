(** * ProvideProofs.v: CancelProvide is the same as cancelling first (C91) *)
From Verif Require Import Machine Critbit EventQueue OrderBook Market Spec BookProofs MarketProofs MarketFacts
  NewOrderProps NewOrderProps2 EventProps ExchangeSpec ExchangeProofs InstrProps HistoryProps PlaceProofs FundsProofs CustodyProofs
  Engine PartsSpec PartsProofs BestSpec BestProofs ClientSpec MoreProofs LadderSpec LadderProofs SplitSpec StuckProofs ReachProofs ProvideSpec.
From Coq Require Import Sorted ZifyBool ZifyNat ZifyN.

Section Trade.
Context {C : Type} (same_id : C -> C -> bool) (r : rules) (p : params C).
Notation trade := (trade same_id r p).
Notation sd := (p_side p).
Notation xid := (x_id (opposite (p_side p))).

Lemma filter_id {A} (f : A -> bool) l : (forall x, x ∈ l -> f x = true) -> List.filter f l = l.
Proof.
  induction l as [|x l IH]; intros H; [done|]. cbn [List.filter]. rewrite (H x) by (by left). f_equal. apply IH. intros y Hy. apply H. by right.
Qed.
Lemma filter_no {A} (f : A -> bool) l : (forall x, x ∈ l -> f x = false) -> List.filter f l = [].
Proof.
  induction l as [|x l IH]; intros H; [done|]. cbn [List.filter]. rewrite (H x) by (by left). apply IH. intros y Hy. apply H. by right.
Qed.
(** What is left of the other side was there before. *)
Lemma trade_ids : forall n base quote ms ns b q ms1 f, trade n base quote ms = (ns, Some (b, q, ms1, f)) ->
  forall id, id ∈ map xid ms1 -> id ∈ map xid ms.
Proof.
  induction n as [|n IH]; intros base quote ms ns b q ms1 f H id; [by injection H as _ _ _ <- _|].
  destruct ms as [|o ms]; cbn [ExchangeSpec.trade] in H; [by injection H as _ _ _ <- _|].
  set (b0 := N.min (N.min (x_size o) base) (pays_for quote (x_price o))) in *.
  destruct (negb (acceptable p o)); [by injection H as _ _ _ <- _|]. destruct (post_only p || _ || _); [by injection H as _ _ _ <- _|].
  assert (G : forall base quote ms', (forall id, id ∈ map xid ms' -> id ∈ map xid (o :: ms)) ->
    snd (trade n base quote ms') = Some (b, q, ms1, f) -> id ∈ map xid ms1 -> id ∈ map xid (o :: ms)).
  { intros base' quote' ms' Hsub E Hin. destruct (trade n base' quote' ms') as [ns2 res] eqn:Et. cbn in E. subst res.
    apply Hsub. by eapply IH. }
  assert (Ht : forall id, id ∈ map xid ms -> id ∈ map xid (o :: ms)) by (intros i Hi; cbn; by right).
  destruct (stb p), (own_order same_id p o); try discriminate H;
    repeat (destruct (_ <? r_min r) in H); injection H as H1 H2; (eapply G; [|exact H2]); done.
Qed.

(** Trading without the orders that are withdrawn. *)
Lemma trade_bypass (g : N -> bool) : stb p = CancelProvide -> forall n base quote ms ns b q ms1 f,
  trade n base quote ms = (ns, Some (b, q, ms1, f)) -> NoDup (map xid ms) ->
  (forall o, o ∈ ms -> g (xid o) = own_order same_id p o && negb (existsb (N.eqb (xid o)) (map xid ms1))) ->
  (length (List.filter (fun o => g (xid o)) ms) <= n)%nat /\
  trade (n - length (List.filter (fun o => g (xid o)) ms)) base quote (List.filter (fun o => negb (g (xid o))) ms) =
    (List.filter (fun x => negb (g (n_id x))) ns, Some (b, q, ms1, f)).
Proof.
  intros Hstb. induction n as [|n IH]; intros base quote ms ns b q ms1 f H Hnd Hg.
  all: assert (Stop : ms1 = ms -> List.filter (fun o => g (xid o)) ms = [] /\ List.filter (fun o => negb (g (xid o))) ms = ms).
  all: try (intros ->; assert (Hn : forall o, o ∈ ms -> g (xid o) = false);
    [intros o Ho; rewrite Hg by done; assert (E : existsb (N.eqb (xid o)) (map xid ms) = true);
      [apply existsb_exists; exists (xid o); split; [by apply elem_of_list_In, elem_of_list_fmap_1|apply N.eqb_refl]|rewrite E; apply andb_false_r]
    |split; [by apply filter_no|apply filter_id; intros o Ho; by rewrite Hn]]).
  { cbn in H. injection H as <- <- <- <- <-. destruct (Stop eq_refl) as [-> ->]. by split; [cbn; lia|]. }
  destruct ms as [|o ms]; [by injection H as <- <- <- <- <-; split; [cbn; lia|]|].
  cbn [ExchangeSpec.trade] in H. set (b0 := N.min (N.min (x_size o) base) (pays_for quote (x_price o))) in *.
  destruct (negb (acceptable p o)) eqn:Ha.
  { injection H as <- <- <- <- <-. destruct (Stop eq_refl) as [-> ->]. split; [cbn; lia|]. cbn [length]. rewrite Nat.sub_0_r. cbn [ExchangeSpec.trade]. by rewrite Ha. }
  destruct (post_only p || _ || _) eqn:Hz.
  { injection H as <- <- <- <- <-. destruct (Stop eq_refl) as [-> ->]. split; [cbn; lia|]. cbn [length]. rewrite Nat.sub_0_r. cbn [ExchangeSpec.trade]. fold b0. by rewrite Ha, Hz. }
  clear Stop. rewrite Hstb in H. pose proof Hnd as Hnd0. cbn [map] in Hnd. apply NoDup_cons in Hnd as [Hni Hnd].
  assert (Hgo : g (xid o) = own_order same_id p o && negb (existsb (N.eqb (xid o)) (map xid ms1))) by (apply Hg; by left).
  destruct (own_order same_id p o) eqn:Ho.
  - destruct (trade n base quote ms) as [ns2 res] eqn:Et. cbn [fst snd] in H. injection H as <- ->.
    assert (Hgt : g (xid o) = true).
    { rewrite Hgo. cbn [andb]. destruct (existsb _ _) eqn:E; [|done]. exfalso. apply existsb_exists in E as (i&Hi&Ei).
      apply N.eqb_eq in Ei as <-. apply Hni. eapply trade_ids; [exact Et|]. by apply elem_of_list_In. }
    destruct (IH _ _ _ _ _ _ _ _ Et Hnd) as [IH1 IH2]; [intros x Hx; apply Hg; by right|].
    cbn [List.filter app n_id]. rewrite Hgt. cbn [negb length]. split; [lia|]. exact IH2.
  - cbn [andb] in Hgo. 
    assert (G : forall base1 quote1 ms' ns2 new, trade n base1 quote1 ms' = (ns2, Some (b, q, ms1, f)) -> NoDup (map xid ms') ->
      (forall x, x ∈ ms' -> g (xid x) = own_order same_id p x && negb (existsb (N.eqb (xid x)) (map xid ms1))) ->
      List.filter (fun x => g (xid x)) ms' = List.filter (fun x => g (xid x)) ms ->
      (forall x, x ∈ new -> n_id x = xid o) ->
      (length (List.filter (fun x => g (xid x)) (o :: ms)) <= S n)%nat /\
      exists k, (S n - length (List.filter (fun x => g (xid x)) (o :: ms)) = S k)%nat /\
        trade k base1 quote1 (List.filter (fun x => negb (g (xid x))) ms') = (List.filter (fun x => negb (g (n_id x))) ns2, Some (b, q, ms1, f)) /\
        List.filter (fun x => negb (g (n_id x))) (new ++ ns2) = new ++ List.filter (fun x => negb (g (n_id x))) ns2).
    { intros base1 quote1 ms' ns2 new Et Hnd' Hg' Hf Hnew. destruct (IH _ _ _ _ _ _ _ _ Et Hnd' Hg') as [IH1 IH2]. rewrite Hf in *.
      cbn [List.filter]. rewrite Hgo. split; [lia|]. exists (n - length (List.filter (fun x => g (xid x)) ms))%nat. split; [lia|]. split; [done|].
      rewrite List.filter_app. f_equal. apply filter_id. intros x Hx. by rewrite (Hnew x Hx), Hgo. }
    assert (K : List.filter (fun x => negb (g (xid x))) (o :: ms) = o :: List.filter (fun x => negb (g (xid x))) ms) by (cbn [List.filter]; by rewrite Hgo).
    rewrite K. destruct (_ <? r_min r) eqn:Hm.
    + destruct (trade n (base - b0) _ ms) as [ns2 res] eqn:Et. cbn [fst snd] in H. injection H as <- ->.
      destruct (G _ _ _ _ [Traded sd (xid o) b0 (cost sd b0 (x_price o)) (x_owner o) (p_callback p); Removed (opposite sd) (xid o) (x_size o - b0) (x_owner o)] Et Hnd) as (G1&k&Ek&G2&G3); [intros x Hx; apply Hg; by right|done| |].
      { intros x Hx. rewrite elem_of_cons, elem_of_list_singleton in Hx. destruct Hx as [-> | ->]; cbn [n_id]; reflexivity. }
      split; [done|]. rewrite Ek. cbn [ExchangeSpec.trade]. fold b0. rewrite Ha, Hz, Hstb, Ho, Hm, G2. cbn [fst snd]. f_equal. symmetry. exact G3.
    + destruct (trade n (base - b0) _ (_ :: ms)) as [ns2 res] eqn:Et. cbn [fst snd] in H. injection H as <- ->.
      destruct (G _ _ _ _ [Traded sd (xid o) b0 (cost sd b0 (x_price o)) (x_owner o) (p_callback p)] Et) as (G1&k&Ek&G2&G3).
      * exact Hnd0.
      * intros x Hx. apply elem_of_cons in Hx as [->|Hx]; [|apply Hg; by right].
        change (own_order same_id p (mk_xorder (x_price o) (x_time o) (x_size o - b0) (x_owner o))) with (own_order same_id p o).
        change (xid (mk_xorder (x_price o) (x_time o) (x_size o - b0) (x_owner o))) with (xid o). by rewrite Ho, Hgo.
      * cbn [List.filter]. change (xid (mk_xorder (x_price o) (x_time o) (x_size o - b0) (x_owner o))) with (xid o). by rewrite Hgo.
      * intros x Hx. apply elem_of_list_singleton in Hx as ->. reflexivity.
      * split; [done|]. rewrite Ek. cbn [ExchangeSpec.trade]. fold b0. rewrite Ha, Hz, Hstb, Ho, Hm.
        assert (K2 : forall x, xid x = xid o -> List.filter (fun x => negb (g (xid x))) (x :: ms) = x :: List.filter (fun x => negb (g (xid x))) ms).
        { intros x Ex. cbn [List.filter]. by rewrite Ex, Hgo. }
        rewrite K2 in G2 by reflexivity. rewrite G2. cbn [fst snd]. f_equal. symmetry. exact G3.
Qed.
End Trade.

(** ** Markets with the same view *)
Section Same.
Context {C : Type} (same_id : C -> C -> bool).
Lemma xorder_inj sd (o o' : order C) : o_id o < p128 -> o_id o' < p128 -> xorder_of sd o = xorder_of sd o' -> o = o'.
Proof.
  intros H H' E. pose proof (x_id_of sd o H) as I. rewrite E, (x_id_of sd o' H') in I. 
  destruct o as [[k q] cb], o' as [[k' q'] cb']. unfold xorder_of in E. injection E as _ _ Eq Ec. unfold o_id, o_qty, o_cb in I, Eq, Ec. cbn in I, Eq, Ec. by subst.
Qed.
Lemma xorders_inj sd (l l' : list (order C)) : Forall (fun o => o_id o < p128) l -> Forall (fun o => o_id o < p128) l' ->
  map (xorder_of sd) l = map (xorder_of sd) l' -> l = l'.
Proof.
  intros H. revert l'. induction H as [|o l Ho Hl IH]; intros l' H' E; destruct l' as [|o' l']; try done. inversion H'; subst.
  cbn [map] in E. assert (E1 := f_equal (fun l => List.hd_error l) E). assert (E2 := f_equal (fun l => List.tl l) E). cbn in E1, E2.
  injection E1 as E1. f_equal; [|by apply IH]. eapply xorder_inj; [done|done|]. unfold xorder_of. by f_equal.
Qed.
Lemma resting_good c m sd : reachable same_id c m -> Forall (fun o => o_id o < p128) (resting m sd).
Proof. intros Hr. apply Forall_forall. intros o Ho. by destruct (book_facts _ _ _ _ _ Hr Ho) as (_&_&_&_&_&H&_). Qed.
Lemma view_resting c c' m m' sd : reachable same_id c m -> reachable same_id c' m' ->
  x_side (view m) sd = x_side (view m') sd -> resting m sd = resting m' sd.
Proof.
  intros Hr Hr' E. apply (xorders_inj sd); [by eapply resting_good..|]. destruct sd; cbn [x_side view x_bids x_asks] in E; [|done].
  apply (f_equal (@rev _)) in E. by rewrite !rev_involutive in E.
Qed.
Lemma notice_inj c c' (e e' : event_ref C) : event_sane c e -> event_sane c' e' -> notice_of e = notice_of e' -> e = e'.
Proof.
  intros (_&_&H) (_&_&H') E. destruct e as [e mk tk|e cb], e' as [e' mk' tk'|e' cb']; cbn [notice_of] in E; try discriminate E.
  - destruct H as (s&H&_), H' as (s'&H'&_). injection E as E1 E2 E3 E4 E5 E6. subst mk' tk'. f_equal. rewrite H, H' in E1. cbn [fe_taker_side] in E1.
    assert (s = s') as <- by (by destruct s, s'). rewrite H, H', E2, E3. done.
  - destruct H as (H&_), H' as (H'&_). injection E as E1 E2 E3 E4. subst cb'. f_equal. rewrite H, H', E2, E3. done.
Qed.
Lemma notices_inj c c' (l : list (event_ref C)) : forall l', Forall (event_sane c) l -> Forall (event_sane c') l' -> map notice_of l = map notice_of l' -> l = l'.
Proof.
  induction l as [|e l IH]; intros l' H H' E; destruct l' as [|e' l']; try done. inversion H; inversion H'; subst. cbn [map] in E.
  assert (E1 := f_equal (fun l => List.hd_error l) E). assert (E2 := f_equal (fun l => List.tl l) E). cbn in E1, E2.
  f_equal; [|by apply IH]. eapply notice_inj; [done|done|]. by injection E1.
Qed.
Lemma emitted_sane c (m m' : market C) : reachable same_id c m' -> Forall (event_sane c) (emitted m m').
Proof. intros Hr. unfold emitted. apply Forall_drop. by eapply pending_sane. Qed.

(** ** Cancelling several orders of one side, one after the other *)
Notation listed ids o := (existsb (N.eqb (o_id o)) ids).
Lemma listed_in ids id : existsb (N.eqb id) ids = true <-> id ∈ ids.
Proof.
  rewrite existsb_exists. split; [intros (x&Hx&E)|intros H; exists id].
  - apply N.eqb_eq in E as ->. by apply elem_of_list_In.
  - split; [by apply elem_of_list_In|apply N.eqb_refl].
Qed.
Lemma cancels c sd : forall ids log m, config_ok c -> history same_id c log m -> N.of_nat (length log + length ids) < p63 -> NoDup ids ->
  (forall id, id ∈ ids -> id ∈ map o_id (resting m sd)) ->
  exists log0 m0, steps same_id m log0 m0 /\ map en_op log0 = map CancelOrder ids /\ Forall (fun e => exists s, en_res e = Ok (Some s)) log0 /\
    resting m0 sd = List.filter (fun o => negb (listed ids o)) (resting m sd) /\
    resting m0 (opposite sd) = resting m (opposite sd) /\ evq (m_book m0) = evq (m_book m).
Proof.
  induction ids as [|id ids IH]; intros log m Hc Hh Hl Hnd Hin.
  { exists [], m. split_and!; try done; [constructor|]. symmetry. by apply filter_id. }
  apply NoDup_cons in Hnd as [Hni Hnd]. cbn [length] in Hl.
  assert (Hr : reachable same_id c m) by (split; [done|]; exists log; split; [done|lia]).
  pose proof (Hin id ltac:(by left)) as Hid. apply elem_of_list_fmap in Hid as (o&->&Ho).
  destruct (cancel_present same_id c m sd o Hr Ho) as (m1&E1&F1&F2&F3&_).
  assert (Ht : op_typed (CancelOrder (C := C) (o_id o))) by (by destruct (book_facts _ _ _ _ _ Hr Ho) as (_&_&_&_&_&H&_)).
  assert (Hs1 : steps same_id m ([] ++ [mk_entry (CancelOrder (o_id o)) (Ok (Some (mk_summary None (o_qty o) (o_qty o * id_price (o_id o) / p32) 0))) (emitted m m1)]) m1).
  { eapply steps_snoc; [constructor|done|done]. }
  assert (Hh1 : history same_id c (log ++ [mk_entry (CancelOrder (o_id o)) (Ok (Some (mk_summary None (o_qty o) (o_qty o * id_price (o_id o) / p32) 0))) (emitted m m1)]) m1).
  { unfold history. eapply steps_app; [exact Hh|exact Hs1]. }
  destruct (IH _ m1 Hc Hh1) as (log0&m0&Hs&Ho0&Hok&R1&R2&R3); [rewrite app_length; cbn; lia|done| |].
  { intros i Hi. pose proof (Hin i ltac:(by right)) as Hi2. apply elem_of_list_fmap in Hi2 as (x&->&Hx). apply elem_of_list_fmap_1.
    rewrite F1. apply elem_of_list_In, filter_In. split; [by apply elem_of_list_In|]. destruct (o_id x =? o_id o) eqn:E; [|done].
    exfalso. apply Hni. apply N.eqb_eq in E. by rewrite <- E. }
  exists (([] ++ [mk_entry (CancelOrder (o_id o)) (Ok (Some (mk_summary None (o_qty o) (o_qty o * id_price (o_id o) / p32) 0))) (emitted m m1)]) ++ log0), m0.
  split_and!.
  - eapply steps_app; [exact Hs1|exact Hs].
  - cbn [app map en_op]. by rewrite Ho0.
  - cbn [app]. constructor; [by eexists|done].
  - rewrite R1, F1. clear. induction (resting m sd) as [|x l IH]; [done|]. cbn [List.filter existsb]. destruct (o_id x =? o_id o) eqn:E; cbn [negb orb List.filter].
    + done.
    + rewrite IH. done.
  - by rewrite R2, F2.
  - by rewrite R3, F3.
Qed.
End Same.

Lemma flen {A} (f : A -> bool) l : (length (List.filter f l) <= length l)%nat.
Proof. induction l as [|x l IH]; [done|]. cbn [List.filter]. destruct (f x); cbn [length]; lia. Qed.
Section Main.
Context {C : Type} (same_id : C -> C -> bool).
Lemma facing_resting (m : market C) sd o : o ∈ facing m sd <-> o ∈ resting m (opposite sd).
Proof. destruct sd; cbn [facing opposite]; [done|]. rewrite !elem_of_list_In. symmetry. apply in_rev. Qed.
Lemma facing_ids c m sd : reachable same_id c m -> map (x_id (opposite sd)) (x_side (view m) (opposite sd)) = map o_id (facing m sd) /\ NoDup (map o_id (facing m sd)).
Proof.
  intros Hr. split.
  - rewrite facing_view, map_map. apply map_ext_in. intros o Ho. apply x_id_of. pose proof (resting_good same_id c m (opposite sd) Hr) as H.
    rewrite Forall_forall in H. apply H. apply facing_resting. by apply elem_of_list_In.
  - assert (H : NoDup (map o_id (resting m (opposite sd)))).
    { pose proof (book_sorted same_id c m (opposite sd) Hr) as H. induction H as [|x l Hs IH Hall]; [constructor|]. cbn [map]. constructor; [|done].
      intros Hx. apply elem_of_list_fmap in Hx as (y&Ey&Hy). rewrite Forall_forall in Hall. specialize (Hall y Hy). lia. }
    destruct sd; cbn [facing opposite] in *; [done|]. rewrite map_rev. apply NoDup_ListNoDup, NoDup_rev, NoDup_ListNoDup. exact H.
Qed.
Lemma cancel_first c log m p s m' : config_ok c -> history same_id c log m -> op_typed (NewOrder p) ->
  exec same_id (NewOrder p) m = (Ok (Some s), m') -> stb p = CancelProvide ->
  let W := gone_own same_id p m m' in N.of_nat (length log + length W) + 2 < p63 ->
  exists log0 m0 m1, steps same_id m log0 m0 /\ map en_op log0 = map CancelOrder W /\ Forall (fun e => exists s, en_res e = Ok (Some s)) log0 /\
    N.of_nat (length W) <= match_limit p /\
    exec same_id (NewOrder (with_limit p (match_limit p - N.of_nat (length W)))) m0 = (Ok (Some s), m1) /\
    (forall sd, resting m1 sd = resting m' sd) /\ emitted m0 m1 = not_about W (emitted m m').
Proof.
  intros Hc Hh Hty He Hstb W Hl.
  assert (Hr : reachable same_id c m) by (split; [done|]; exists log; split; [done|lia]).
  assert (Hr' : reachable same_id c m').
  { split; [done|]. exists (log ++ [mk_entry (NewOrder p) (Ok (Some s)) (emitted m m')]). split; [|rewrite app_length; cbn; lia].
    eapply reachable_step; try done. lia. }
  set (sd := p_side p) in *. set (P := fun o : order C => same_id (p_callback p) (o_cb o) && negb (existsb (N.eqb (o_id o)) (map o_id (resting m' (opposite sd))))).
  assert (HW : W = map o_id (List.filter P (facing m sd))) by reflexivity.
  destruct (facing_ids c m sd Hr) as [Fid Fnd].
  assert (Wnd : NoDup W).
  { rewrite HW. clear - Fnd. induction (facing m sd) as [|x l IH]; [constructor|]. cbn [map] in Fnd. apply NoDup_cons in Fnd as [F1 F2].
    cbn [List.filter]. destruct (P x); [|by apply IH]. cbn [map]. constructor; [|by apply IH]. intros Hx. apply F1.
    apply elem_of_list_fmap in Hx as (y&->&Hy). apply elem_of_list_fmap_1. apply elem_of_list_In in Hy. apply filter_In in Hy as [Hy _]. by apply elem_of_list_In. }
  assert (Win : forall id, id ∈ W -> id ∈ map o_id (resting m (opposite sd))).
  { intros id Hid. rewrite HW in Hid. apply elem_of_list_fmap in Hid as (y&->&Hy). apply elem_of_list_fmap_1. apply elem_of_list_In in Hy. apply filter_In in Hy as [Hy _].
    apply facing_resting. by apply elem_of_list_In. }
  destruct (cancels same_id c (opposite sd) W log m Hc Hh ltac:(lia) Wnd Win) as (log0&m0&Hs0&Ho0&Hok0&R1&R2&R3).
  assert (Hlen0 : length log0 = length W) by (rewrite <- (map_length en_op), Ho0; by rewrite map_length).
  assert (Hh0 : history same_id c (log ++ log0) m0) by (unfold history; eapply steps_app; [exact Hh|exact Hs0]).
  assert (Hr0 : reachable same_id c m0) by (split; [done|]; exists (log ++ log0); split; [done|rewrite app_length; lia]).
  set (g := fun id => existsb (N.eqb id) W).
  assert (Hg : forall o, o ∈ facing m sd -> g (o_id o) = P o).
  { intros o Ho. unfold g. destruct (P o) eqn:EP.
    - apply listed_in. rewrite HW. apply elem_of_list_fmap_1. apply elem_of_list_In, filter_In. split; [by apply elem_of_list_In|done].
    - apply not_true_iff_false. intros H. apply listed_in in H. rewrite HW in H. apply elem_of_list_fmap in H as (y&Ey&Hy).
      apply elem_of_list_In, filter_In in Hy as [Hy HP]. apply elem_of_list_In in Hy.
      assert (o = y) by (eapply (one_order (resting m (opposite sd))); [by eapply book_sorted|by apply facing_resting|by apply facing_resting|done]). congruence. }
  destruct (view_new_order _ _ _ _ _ _ Hr Hty He) as (a&Ha&Hrule).
  cbn [answer_of] in Ha. injection Ha as <-. unfold new_order_rule in Hrule. fold sd in Hrule.
  destruct (negb _ || _) eqn:Hpb in Hrule; [done|].
  destruct (trade same_id _ _ _ _ _ _) as [ns [res|]] eqn:Et; [|by destruct (_ <=? _)%nat in Hrule].
  destruct res as [[[b q] makers] free].
  destruct (if free then _ else _) as [[[n2 posted] own] clock] eqn:Ep.
  destruct (_ <=? _)%nat eqn:Hroom in Hrule; [|done]. injection Hrule as Q1 Q2 Q3 Q4 Hv.
  assert (Emk : makers = x_side (view m') (opposite sd)) by (rewrite <- Hv; by destruct sd).
  destruct (facing_ids c m' sd Hr') as [Fid' _].
  destruct (trade_bypass same_id (rules_of c) p g Hstb _ _ _ _ _ _ _ _ _ Et) as [B1 B2].
  { fold sd. by rewrite Fid. }
  { fold sd. intros o Ho. rewrite facing_view in Ho. apply elem_of_list_fmap in Ho as (x&->&Hx).
    assert (Hxr : x ∈ resting m (opposite sd)) by by apply facing_resting.
    pose proof (resting_good same_id c m (opposite sd) Hr) as Hgd. rewrite Forall_forall in Hgd. rewrite x_id_of by by apply Hgd.
    rewrite (Hg x Hx). unfold P, own_order. cbn [x_owner xorder_of]. f_equal. f_equal. rewrite Emk, Fid'.
    apply eq_iff_eq_true. rewrite !listed_in. rewrite !elem_of_list_fmap. split; intros (y&Ey&Hy); exists y; (split; [done|by apply facing_resting]). }
  fold sd in B1, B2.
  assert (Gid : forall o, o ∈ facing m sd -> x_id (opposite sd) (xorder_of (opposite sd) o) = o_id o).
  { intros o Ho. apply x_id_of. pose proof (resting_good same_id c m (opposite sd) Hr) as Hgd. rewrite Forall_forall in Hgd. apply Hgd. by apply facing_resting. }
  assert (EL : length (List.filter (fun o => g (x_id (opposite sd) o)) (x_side (view m) (opposite sd))) = length W).
  { rewrite facing_view, filter_mapl, map_length, HW, map_length. f_equal. apply filter_ext_in. intros o Ho. apply elem_of_list_In in Ho. by rewrite Gid, Hg. }
  assert (V0 : x_side (view m0) (opposite sd) = List.filter (fun o => negb (g (x_id (opposite sd) o))) (x_side (view m) (opposite sd))).
  { rewrite !facing_view, filter_mapl, (facing_filter _ _ _ _ R1). f_equal. apply filter_ext_in. intros o Ho. apply elem_of_list_In in Ho. by rewrite Gid. }
  assert (V1 : x_side (view m0) sd = x_side (view m) sd) by (destruct sd; cbn in R2 |- *; by rewrite R2).
  assert (V2 : x_notices (view m0) = x_notices (view m) /\ x_clock (view m0) = x_clock (view m)).
  { cbn [view x_notices x_clock]. unfold pending. by rewrite R3. }
  destruct V2 as [V2 V3].
  set (p0 := with_limit p (match_limit p - N.of_nat (length W))) in *.
  assert (Hty0 : op_typed (NewOrder p0)) by (destruct Hty as (T1&T2&T3&T4); split_and!; try done; cbn; lia).
  destruct (exec same_id (NewOrder p0) m0) as [r0 m1] eqn:E0.
  destruct (view_new_order _ _ _ _ _ _ Hr0 Hty0 E0) as (a0&Ha0&Hrule0). unfold new_order_rule in Hrule0.
  change (limit_price p0) with (limit_price p) in Hrule0. change (post_allowed p0) with (post_allowed p) in Hrule0.
  change (p_side p0) with sd in Hrule0. rewrite Hpb in Hrule0.
  change (max_base_qty p0) with (max_base_qty p) in Hrule0. change (max_quote_qty p0) with (max_quote_qty p) in Hrule0.
  change (trade same_id (rules_of c) p0) with (trade same_id (rules_of c) p) in Hrule0.
  change (@post_rest C (rules_of c) p0) with (@post_rest C (rules_of c) p) in Hrule0.
  change (match_limit p0) with (match_limit p - N.of_nat (length W)) in Hrule0.
  rewrite V0, V1, V2, V3 in Hrule0. rewrite EL in B2, B1.
  replace (N.to_nat (match_limit p - N.of_nat (length W))) with (N.to_nat (match_limit p) - length W)%nat in Hrule0 by lia.
  rewrite B2, Ep in Hrule0.
  assert (Hroom0 : (length (x_notices (view m)) + length (List.filter (fun x => negb (g (n_id x))) ns ++ n2) <=? r_room (rules_of c))%nat = true).
  { apply Nat.leb_le. apply Nat.leb_le in Hroom. rewrite app_length in *. pose proof (flen (fun x : notice C => negb (g (n_id x))) ns). lia. }
  rewrite Hroom0 in Hrule0. injection Hrule0 as <- Hv0.
  assert (Er0 : r0 = Ok (Some s)).
  { destruct r0 as [[s0|]|[]|[]|]; try discriminate Ha0. cbn [answer_of] in Ha0. injection Ha0 as A1 A2 A3 A4. f_equal. f_equal. destruct s, s0. cbn in *. congruence. }
  subst r0.
  assert (Hr1 : reachable same_id c m1).
  { split; [done|]. exists ((log ++ log0) ++ [mk_entry (NewOrder p0) (Ok (Some s)) (emitted m0 m1)]). split; [|rewrite !app_length; cbn; lia].
    eapply reachable_step; try done. rewrite app_length. lia. }
  assert (Nev : forall (ma mb : market C) ns', x_notices (view mb) = x_notices (view ma) ++ ns' :> list (notice C) -> map notice_of (emitted ma mb) = ns').
  { intros ma mb ns' En. unfold emitted. cbn [view x_notices] in En. rewrite <- skipn_map, En. apply drop_app_alt. by rewrite map_length. }
  assert (N1 : map notice_of (emitted m m') = ns ++ n2) by (apply Nev; rewrite <- Hv; by destruct sd).
  assert (N2 : map notice_of (emitted m0 m1) = List.filter (fun x => negb (g (n_id x))) ns ++ n2) by (apply Nev; rewrite V2; rewrite <- Hv0; by destruct sd).
  exists log0, m0, m1. split_and!; try done.
  - lia.
  - intros sd'. apply (view_resting same_id c c); [done|done|]. rewrite <- Hv0, <- Hv. by destruct sd, sd'.
  - apply (notices_inj c c); [by apply (emitted_sane same_id)| |].
    + unfold not_about. pose proof (emitted_sane same_id c m m' Hr') as Hsane. apply Forall_forall. intros ev Hev. rewrite Forall_forall in Hsane. apply Hsane.
      apply elem_of_list_In in Hev. apply filter_In in Hev as [Hev _]. by apply elem_of_list_In.
    + rewrite N2. unfold not_about.
      assert (E : map notice_of (List.filter (fun ev => negb (existsb (N.eqb (event_id ev)) W)) (emitted m m')) = List.filter (fun x => negb (g (n_id x))) (map notice_of (emitted m m'))).
      { rewrite filter_mapl. f_equal. apply filter_ext. intros ev. by destruct ev. }
      rewrite E, N1, List.filter_app. f_equal. symmetry. apply filter_id. intros x Hx.
      destruct (accepted_notices same_id c m p s m' (conj Hr (conj Hty He))) as (ns'&b'&q'&mk'&f'&n2'&Et'&En'&Hn2). fold sd in Et'. rewrite Et in Et'.
      injection Et' as <- _ _ _ _. rewrite N1 in En'. apply app_inv_head in En' as <-. specialize (Hn2 x Hx). fold sd in Hn2.
      destruct (g (n_id x)) eqn:Eg; [|done]. exfalso. unfold g in Eg. apply listed_in, Win in Eg.
      assert (Hn3 : n_id x ∈ map o_id (resting m sd)).
      { destruct (facing_ids c m (opposite sd) Hr) as [F3 _]. assert (Eo : opposite (opposite sd) = sd) by (by destruct sd). rewrite Eo in F3. rewrite F3 in Hn2.
        apply elem_of_list_fmap in Hn2 as (y&Ey&Hy). apply elem_of_list_fmap. exists y. split; [done|]. apply facing_resting in Hy. by rewrite Eo in Hy. }
      apply elem_of_list_fmap in Eg as (y&Ey&Hy), Hn3 as (z&Ez&Hz).
      destruct (book_facts _ _ _ _ _ Hr Hy) as (S1&_), (book_facts _ _ _ _ _ Hr Hz) as (S2&_). rewrite <- Ey in S1. rewrite <- Ez, S1 in S2. by destruct sd.
Qed.
End Main.
