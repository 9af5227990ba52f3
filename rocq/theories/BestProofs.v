(** * BestProofs.v: best execution (C87) *)
From Verif Require Import Machine Critbit EventQueue OrderBook Market Spec BookProofs MarketProofs MarketFacts
  NewOrderProps NewOrderProps2 EventProps ExchangeSpec ExchangeProofs InstrProps HistoryProps PlaceProofs FundsProofs CustodyProofs
  Engine PartsSpec PartsProofs BestSpec.
From Coq Require Import Sorted ZifyBool ZifyNat ZifyN.

Section Greedy.
Context {C : Type}.
Implicit Types os : list (xorder C).

(** The exact value of [base] units taken from the best orders on. *)
Fixpoint exact (base : N) os : N :=
  match os with
  | [] => 0
  | o :: os => let b := N.min (x_size o) base in b * x_price o + exact (base - b) os
  end.
Lemma exact_0 os : exact 0 os = 0.
Proof. induction os as [|o os IH]; [done|]. cbn [exact]. rewrite N.min_0_r, N.sub_0_r, IH. done. Qed.

Definition worth_of (t : xorder C -> N) os : N := sumN (fun o => t o * x_price o) os.
Lemma greedy_up t os : forall p B, Forall (fun o => t o <= x_size o) os -> Forall (dearer Bid p) os -> ranked Bid os ->
  B <= sumN t os -> exact B os + (sumN t os - B) * p <= worth_of t os.
Proof.
  induction os as [|o os IH]; intros p B Ht Hp Hr HB.
  { cbn in *. assert (B = 0) as -> by lia. cbn. lia. }
  inversion Ht as [|?? Ho Ht']; inversion Hp as [|?? Hpo Hp']; subst. destruct Hr as [Hd Hr]. unfold worth_of in *. cbn [exact sumN dearer] in *.
  set (q := x_price o) in *. set (a := t o) in *. set (T := sumN t os) in *. set (V := sumN (fun o => t o * x_price o) os) in *.
  destruct (N.le_gt_cases B (x_size o)) as [H|H].
  - rewrite N.min_r by lia. rewrite N.sub_diag, exact_0, N.add_0_r.
    specialize (IH q 0 Ht' Hd Hr ltac:(lia)). rewrite exact_0, N.sub_0_r in IH. nia.
  - rewrite N.min_l by lia. specialize (IH q (B - x_size o) Ht' Hd Hr ltac:(lia)).
    set (X := exact (B - x_size o) os) in *. nia.
Qed.
Lemma greedy_down t os : forall p B, Forall (fun o => t o <= x_size o) os -> Forall (dearer Ask p) os -> ranked Ask os ->
  B <= sumN t os -> worth_of t os <= exact B os + (sumN t os - B) * p.
Proof.
  induction os as [|o os IH]; intros p B Ht Hp Hr HB.
  { cbn in *. lia. }
  inversion Ht as [|?? Ho Ht']; inversion Hp as [|?? Hpo Hp']; subst. destruct Hr as [Hd Hr]. unfold worth_of in *. cbn [exact sumN dearer] in *.
  set (q := x_price o) in *. set (a := t o) in *. set (T := sumN t os) in *. set (V := sumN (fun o => t o * x_price o) os) in *.
  destruct (N.le_gt_cases B (x_size o)) as [H|H].
  - rewrite N.min_r by lia. rewrite N.sub_diag, exact_0, N.add_0_r.
    specialize (IH q 0 Ht' Hd Hr ltac:(lia)). rewrite exact_0, N.sub_0_r in IH. nia.
  - rewrite N.min_l by lia. specialize (IH q (B - x_size o) Ht' Hd Hr ltac:(lia)).
    set (X := exact (B - x_size o) os) in *. nia.
Qed.
Lemma greedy sd t os : Forall (fun o => t o <= x_size o) os -> ranked sd os ->
  better sd (exact (sumN t os) os) (worth_of t os).
Proof.
  intros Ht Hr. destruct os as [|o os]; [destruct sd; cbn; lia|]. destruct sd; cbn [better].
  - pose proof (greedy_up t (o :: os) 0 _ Ht ltac:(apply Forall_true; cbn; lia) Hr (N.le_refl _)). lia.
  - pose proof (greedy_down t (o :: os) (x_price o) _ Ht ltac:(constructor; [cbn; lia|apply Hr]) Hr (N.le_refl _)) as H. lia.
Qed.
End Greedy.

Definition n_value {C} (n : notice C) : N :=
  match n with Traded _ id b _ _ _ => b * (id / 2 ^ 64) | Removed _ _ _ _ => 0 end.

Section Trade.
Context {C : Type} (same_id : C -> C -> bool) (r : rules) (p : params C).
Notation trade := (trade same_id r p).
Notation sd := (p_side p).

(** An own order that the new order withdraws. *)
Definition withdrawn (o : xorder C) : bool :=
  match stb p with CancelProvide => own_order same_id p o | _ => false end.
Notation met := (List.filter (fun o => negb (withdrawn o))).
Lemma met_ranked os : ranked sd os -> ranked sd (met os).
Proof.
  induction os as [|o os IH]; [done|]. intros [Hd Hr]. cbn [List.filter]. destruct (negb (withdrawn o)); [|by apply IH].
  split; [|by apply IH]. rewrite Forall_forall in Hd |- *. intros x Hx. apply Hd.
  apply elem_of_list_In, List.filter_In in Hx as [Hx _]. by apply elem_of_list_In.
Qed.

Lemma trade_value : 0 < r_min r -> forall n base quote ms ns b1 q1 ms1 f,
  trade n base quote ms = (ns, Some (b1, q1, ms1, f)) -> ranked sd ms -> Forall (fun o => 0 < x_price o) ms ->
  Forall (fun o => x_id (opposite sd) o / 2 ^ 64 = x_price o) ms ->
  (sd = Ask -> sumN (fun o => cost Bid (x_size o) (x_price o)) ms <= quote) ->
  sumN n_value ns = exact (sumN n_base ns) (met ms).
Proof.
  intros Hmin. induction n as [|n IH]; intros base quote ms ns b1 q1 ms1 f H Hr Hp Hid Hq.
  { cbn in H. injection H as <- <- <- <- <-. cbn. by rewrite exact_0. }
  destruct ms as [|o os]; [cbn in H; injection H as <- <- <- <- <-; done|]. cbn [ExchangeSpec.trade] in H.
  destruct (negb (acceptable p o)); [injection H as <- <- <- <- <-; by rewrite exact_0|].
  destruct (post_only p || _ || _); [injection H as <- <- <- <- <-; by rewrite exact_0|].
  set (b := N.min (N.min (x_size o) base) (pays_for quote (x_price o))) in *. destruct Hr as [Hd Hr].
  inversion Hp as [|?? Hpo Hps]; inversion Hid as [|?? Hio His]; subst.
  destruct (withdrawn o) eqn:Hw.
  { unfold withdrawn in Hw. destruct (stb p) eqn:Es; try done. rewrite Hw in H.
    destruct (trade n base quote os) as [ns' rr] eqn:Et. cbn [fst snd] in H. injection H as <- ->.
    apply IH in Et; [|done..|]. 2:{ intros E. specialize (Hq E). cbn [sumN] in Hq. lia. }
    cbn [app sumN n_value n_base]. rewrite !N.add_0_l. cbn [List.filter]. unfold withdrawn at 1. rewrite Es, Hw. cbn [negb].
    rewrite Et. done. }
  assert (Hmain : (let left := x_size o - b in
     let traded := Traded sd (x_id (opposite sd) o) b (cost sd b (x_price o)) (x_owner o) (p_callback p) in
     if left <? r_min r
     then ([traded; Removed (opposite sd) (x_id (opposite sd) o) left (x_owner o)] ++ fst (trade n (base - b) (quote - cost sd b (x_price o)) os),
           snd (trade n (base - b) (quote - cost sd b (x_price o)) os))
     else ([traded] ++ fst (trade n (base - b) (quote - cost sd b (x_price o)) (mk_xorder (x_price o) (x_time o) left (x_owner o) :: os)),
           snd (trade n (base - b) (quote - cost sd b (x_price o)) (mk_xorder (x_price o) (x_time o) left (x_owner o) :: os))))
     = (ns, Some (b1, q1, ms1, f))).
  { unfold withdrawn in Hw. destruct (stb p), (own_order same_id p o); done. }
  clear H. cbn zeta in Hmain. cbn [List.filter]. rewrite Hw. cbn [negb exact]. destruct (N.eq_dec b (x_size o)) as [Hb|Hb].
  - replace (x_size o - b <? r_min r) with true in Hmain by lia.
    destruct (trade n _ _ os) as [ns' rr] eqn:Et. cbn [fst snd] in Hmain. injection Hmain as <- ->.
    assert (Hq' : sd = Ask -> sumN (fun o => cost Bid (x_size o) (x_price o)) os <= quote - cost sd b (x_price o)).
    { intros E. specialize (Hq E). rewrite E. cbn [sumN] in Hq. pose proof (cost_up b (x_price o)). pose proof (cost_down b (x_price o)).
      rewrite <- Hb in Hq. lia. }
    apply IH in Et; [|done..]. cbn [app sumN n_base n_value]. rewrite !N.add_0_l, Hio, Et, Hb.
    rewrite N.min_l by lia. do 2 f_equal. lia.
  - assert (Hdead : base - b = 0 \/ sd = Bid /\ pays_for (quote - cost sd b (x_price o)) (x_price o) = 0).
    { destruct (N.le_gt_cases base (pays_for quote (x_price o))) as [|Hlt]; [left; lia|].
      assert (Hbp : b = pays_for quote (x_price o)) by lia. destruct sd eqn:Esd; [right|exfalso].
      - split; [done|]. by apply paid_out.
      - specialize (Hq eq_refl). cbn [sumN] in Hq. pose proof (cost_up (x_size o) (x_price o)) as [Hc _].
        assert (x_size o <= pays_for quote (x_price o)); [|lia]. unfold pays_for. apply N.div_le_lower_bound; [lia|].
        change (2 ^ 32) with W. nia. }
    assert (Hend : forall n ms', (exists os', ms' = os \/ ms' = mk_xorder (x_price o) (x_time o) os' (x_owner o) :: os) ->
      exists f, trade n (base - b) (quote - cost sd b (x_price o)) ms' = ([], Some (base - b, quote - cost sd b (x_price o), ms', f))).
    { intros n' ms' Hms. apply trade_dead. destruct Hdead as [?|[Es Hz]]; [by left|]. right.
      assert (F : Forall (fun o0 => pays_for (quote - cost sd b (x_price o)) (x_price o0) = 0) os).
      { eapply Forall_impl; [exact Hd|]. rewrite Es. cbn [dearer]. intros o' Ho'.
        assert (pays_for (quote - cost Bid b (x_price o)) (x_price o') <= pays_for (quote - cost Bid b (x_price o)) (x_price o)); [|rewrite Es in Hz; lia].
        unfold pays_for. apply N.div_le_compat_l. lia. }
      destruct Hms as (os'&[-> | ->]); [done|]. constructor; done. }
    assert (Hone : sumN n_value ns = b * x_price o /\ sumN n_base ns = b).
    { destruct (x_size o - b <? r_min r).
      - destruct (Hend n os ltac:(exists 0; by left)) as (f'&Et). rewrite Et in Hmain. cbn [fst snd] in Hmain.
        injection Hmain as <- _ _ _ _. cbn [app sumN n_value n_base]. rewrite Hio. lia.
      - destruct (Hend n _ ltac:(exists (x_size o - b); right; reflexivity)) as (f'&Et). rewrite Et in Hmain. cbn [fst snd] in Hmain.
        injection Hmain as <- _ _ _ _. cbn [app sumN n_value n_base]. rewrite Hio. lia. }
    destruct Hone as [-> ->]. replace (N.min (x_size o) b) with b by lia.
    rewrite N.sub_diag, exact_0. lia.
Qed.
End Trade.

Section Market.
Context {C : Type} (same_id : C -> C -> bool).

Lemma notices_value (l : list (event_ref C)) : fills_value l = sumN n_value (map notice_of l).
Proof. unfold fills_value. induction l as [|ev l IH]; cbn [map sumN]; [done|]. rewrite IH. by destruct ev. Qed.

Lemma view_ids c m sd : reachable same_id c m -> Forall (fun o => x_id sd o / 2 ^ 64 = x_price o) (x_side (view m) sd).
Proof.
  intros Hr. destruct (reachable_minv _ _ _ Hr) as (L&pend&Hm&Hsq). destruct (view_minv _ _ _ _ Hm) as (V&_&_).
  rewrite V. apply Forall_map. eapply Forall_impl; [exact (mi_ok _ _ _ _ Hm sd)|].
  intros o Ho. destruct (order_ok_price _ _ _ _ Hsq Ho) as (E&Hp&_&_&Hl&_). rewrite x_id_of by done. done.
Qed.

Definition back (sd : side) (x : xorder C) : order C := (mk_leaf (x_id sd x) (x_size x), x_owner x).
Lemma sum_met (f : xorder C -> N) (w : xorder C -> bool) os : (forall x, x ∈ os -> w x = true -> f x = 0) ->
  sumN f (List.filter (fun x => negb (w x)) os) = sumN f os.
Proof.
  induction os as [|x os IH]; [done|]. intros H. cbn [List.filter sumN]. destruct (w x) eqn:E; cbn [negb sumN].
  - rewrite (H x ltac:(left) E). rewrite IH; [done|]. intros y Hy. apply H. by right.
  - rewrite IH; [done|]. intros y Hy. apply H. by right.
Qed.
Lemma sum_map {A B} (g : A -> B) (f : B -> N) l : sumN f (map g l) = sumN (fun x => f (g x)) l.
Proof. induction l as [|x l IH]; [done|]. cbn [map sumN]. by rewrite IH. Qed.

Lemma best c m p sm m' t : accepted same_id c m p sm m' ->
  (p_side p = Ask -> worth Bid m <= max_quote_qty p) ->
  way same_id m p (sumN fill_base (emitted m m')) t ->
  better (p_side p) (fills_value (emitted m m')) (way_value m (opposite (p_side p)) t).
Proof.
  intros H Hw [W1 W2 W3]. pose proof H as (Hr&Hty&He). destruct (view_new_order _ _ _ _ _ _ Hr Hty He) as (a&Ha&Hrule).
  cbn [answer_of] in Ha. injection Ha as <-. unfold new_order_rule in Hrule. set (sd := p_side p) in *.
  destruct (negb _ || _) in Hrule; [done|].
  destruct (trade same_id _ _ _ _ _ _) as [ns [res|]] eqn:Et; [|by destruct (_ <=? _)%nat in Hrule].
  destruct res as [[[b q] makers] free].
  destruct (if free then _ else _) as [[[n2 posted] own] clock] eqn:Ep.
  destruct (_ <=? _)%nat in Hrule; [|done]. injection Hrule as _ _ _ _ Hv.
  assert (En : map notice_of (emitted m m') = ns ++ n2).
  { unfold emitted. assert (En : x_notices (view m') = x_notices (view m) ++ ns ++ n2).
    { rewrite <- Hv. by destruct sd. }
    cbn [view x_notices] in En. rewrite <- skipn_map, En. apply drop_app_alt. by rewrite map_length. }
  assert (H0 : sumN n_base n2 = 0 /\ sumN n_value n2 = 0).
  { destruct free; [|by injection Ep as <- _ _ _]. revert Ep. unfold post_rest.
    destruct (negb _ || _); [intros Ep; by injection Ep as <- _ _ _|].
    destruct (_ <? _)%nat; [intros Ep; by injection Ep as <- _ _ _|].
    destruct (last _); [|intros Ep; by injection Ep as <- _ _ _].
    destruct (not_worse _ _ _); intros Ep; by injection Ep as <- _ _ _. }
  destruct H0 as (Z1&Z2). pose proof Hr as (Hc&_). assert (Hmin : 0 < r_min (rules_of c)) by (cbn; apply Hc).
  pose proof (view_ranked _ _ _ sd Hr) as Hrk.
  assert (Hq : sd = Ask -> sumN (fun o => cost Bid (x_size o) (x_price o)) (x_side (view m) (opposite sd)) <= max_quote_qty p).
  { intros E. rewrite E. cbn [opposite]. rewrite view_worth. by apply Hw. }
  pose proof (trade_value same_id _ p Hmin _ _ _ _ _ _ _ _ _ Et Hrk (view_prices _ _ _ _ Hr) (view_ids _ _ _ Hr) Hq) as HV.
  rewrite notices_base, En, sum_app, Z1, N.add_0_r in W3. rewrite notices_value, En, sum_app, Z2, N.add_0_r, HV.
  destruct (reachable_minv _ _ _ Hr) as (L&pend&Hm&Hsq). destruct (view_minv _ _ _ _ Hm) as (V&_&_).
  rewrite V in *. set (O := L (opposite sd)) in *.
  assert (Eres : forall f, sumN f (resting m (opposite sd)) = sumN f O).
  { intros f. rewrite (minv_resting _ _ _ _ _ Hm). destruct (opposite sd); cbn [prio]; [|done]. apply sumN_perm. symmetry. apply Permutation_rev. }
  unfold way_value. rewrite Eres in *.
  assert (Hin : forall o, o ∈ O -> o ∈ resting m (opposite sd)) by (intros o Ho; by rewrite (in_resting _ _ _ _ _ _ Hm)).
  assert (Hback : forall o, o ∈ O -> back (opposite sd) (xorder_of (opposite sd) o) = o).
  { intros o Ho. pose proof (minv_ok _ _ _ _ _ _ Hm Ho) as Hok. destruct (order_ok_price _ _ _ _ Hsq Hok) as (_&_&_&_&Hl&_).
    unfold back. rewrite x_id_of by done. by destruct o as [[i z] cb]. }
  set (t' := fun x => t (back (opposite sd) x)). set (X := map (xorder_of (opposite sd)) O) in *.
  assert (Hx : forall x, x ∈ X -> exists o, o ∈ O /\ x = xorder_of (opposite sd) o).
  { intros x Hx. apply elem_of_list_fmap in Hx as (o&->&Ho). by exists o. }
  assert (Hzero : forall x, x ∈ X -> withdrawn same_id p x = true -> t' x = 0).
  { intros x Hxx Hwd. destruct (Hx x Hxx) as (o&Ho&->). unfold t'. rewrite Hback by done. unfold withdrawn in Hwd.
    destruct (stb p); try done. by apply W2; [|apply Hin|]. }
  assert (Hsmall : Forall (fun x => t' x <= x_size x) (List.filter (fun x => negb (withdrawn same_id p x)) X)).
  { apply Forall_forall. intros x Hxx. apply elem_of_list_In, List.filter_In in Hxx as [Hxx _]. apply elem_of_list_In in Hxx.
    destruct (Hx x Hxx) as (o&Ho&->). unfold t'. rewrite Hback by done. cbn [xorder_of x_size]. by apply W1, Hin. }
  pose proof (greedy sd t' _ Hsmall (met_ranked same_id p _ Hrk)) as G. unfold worth_of in G.
  rewrite !sum_met in G; [|intros x Hxx Hwd; by rewrite (Hzero x Hxx Hwd)|done].
  unfold X in G at 1 3. rewrite !sum_map in G.
  rewrite (sumN_ext (fun x => t' (xorder_of (opposite sd) x)) t) in G; [|intros o Ho; unfold t'; by rewrite Hback].
  rewrite (sumN_ext (fun x => t' (xorder_of (opposite sd) x) * x_price (xorder_of (opposite sd) x)) (fun o => t o * id_price (o_id o))) in G;
    [|intros o Ho; unfold t'; by rewrite Hback].
  rewrite W3 in G. exact G.
Qed.

Lemma fills_quote c m p sm m' : accepted same_id c m p sm m' ->
  worse_by (p_side p) ((p32 - 1) * fills (emitted m m')) (p32 * sumN fill_quote (emitted m m')) (fills_value (emitted m m')).
Proof.
  intros H. assert (Hq : forall ev, ev ∈ emitted m m' ->
    worse_by (p_side p) (if is_fill ev then p32 - 1 else 0) (p32 * fill_quote ev) (fill_base ev * id_price (event_id ev))).
  { intros ev Hev. destruct ev as [e mk tk|e cb]; [|by destruct (p_side p); cbn; lia].
    destruct (fill_amounts _ _ _ _ _ _ H _ _ _ Hev) as (_&_&Hq&_). cbn [is_fill fill_quote fill_base event_id]. rewrite Hq.
    set (z := fe_base e) in *. set (pr := id_price (fe_maker_id e)) in *. unfold quote_amount. destruct (p_side p); cbn [worse_by].
    - pose proof (N.div_mod (z * pr + (p32 - 1)) p32 ltac:(lia)). pose proof (N.mod_lt (z * pr + (p32 - 1)) p32 ltac:(lia)). lia.
    - pose proof (N.div_mod (z * pr) p32 ltac:(lia)). pose proof (N.mod_lt (z * pr) p32 ltac:(lia)). lia. }
  unfold fills_value, fills. induction (emitted m m') as [|ev E IH]; [by destruct (p_side p); cbn; lia|].
  specialize (IH ltac:(intros x Hx; apply Hq; by right)). specialize (Hq ev ltac:(left)). cbn [sumN List.filter].
  destruct (is_fill ev); cbn [length]; destruct (p_side p); cbn [worse_by] in *; lia.
Qed.
End Market.
