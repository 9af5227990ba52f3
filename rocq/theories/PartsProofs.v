(** * PartsProofs.v: buying or selling in parts (C86) *)
From Verif Require Import Machine Critbit EventQueue OrderBook Market Spec BookProofs MarketProofs MarketFacts
  NewOrderProps NewOrderProps2 EventProps ExchangeSpec ExchangeProofs InstrProps HistoryProps PlaceProofs FundsProofs CustodyProofs PartsSpec.
From Coq Require Import Sorted ZifyBool ZifyNat ZifyN.

Notation W := 4294967296.
Lemma cost_up b p : b * p <= cost Bid b p * W < b * p + W.
Proof.
  unfold cost. change (2 ^ 32) with W. pose proof (N.div_mod (b * p + (W - 1)) W ltac:(lia)) as H.
  pose proof (N.mod_lt (b * p + (W - 1)) W ltac:(lia)). lia.
Qed.
Lemma cost_down b p : cost Ask b p * W <= b * p < cost Ask b p * W + W.
Proof.
  unfold cost. change (2 ^ 32) with W. pose proof (N.div_mod (b * p) W ltac:(lia)) as H.
  pose proof (N.mod_lt (b * p) W ltac:(lia)). lia.
Qed.

Section Walk.
Context {C : Type}.
Implicit Types os : list (xorder C).

(** What [base] units cost when they are taken from the best orders on. *)
Fixpoint walk (sd : side) (base : N) os : N :=
  match os with
  | [] => 0
  | o :: os => let b := N.min (x_size o) base in cost sd b (x_price o) + walk sd (base - b) os
  end.
Definition supply os : N := sumN x_size os.

Definition dearer (sd : side) (p : N) (o : xorder C) : Prop :=
  match sd with Bid => p <= x_price o | Ask => x_price o <= p end.
(** Best first: of the sellers a buyer meets each is at least as dear as the one before. *)
Fixpoint ranked (sd : side) os : Prop :=
  match os with [] => True | o :: os => Forall (dearer sd (x_price o)) os /\ ranked sd os end.

Lemma walk_0 sd os : walk sd 0 os = 0.
Proof. induction os as [|o os IH]; [done|]. cbn [walk]. rewrite N.min_0_r, N.sub_0_r, IH, cost_0. done. Qed.

Lemma walk_up p os : forall v, Forall (dearer Bid p) os -> v <= supply os -> v * p <= walk Bid v os * W.
Proof.
  induction os as [|o os IH]; intros v Hd Hv; [cbn in Hv; assert (v = 0) as -> by lia; lia|].
  inversion Hd as [|?? Ho Hd']; subst. cbn [walk supply sumN] in *. unfold dearer in Ho.
  assert (Hv' : v - N.min (x_size o) v <= supply os) by (unfold supply; lia).
  specialize (IH _ Hd' Hv'). set (b := N.min (x_size o) v) in *. pose proof (cost_up b (x_price o)) as [H _].
  assert (E : v * p = b * p + (v - b) * p) by (rewrite <- N.mul_add_distr_r; f_equal; lia).
  pose proof (N.mul_le_mono_l _ _ b Ho). lia.
Qed.
Lemma walk_down p os : forall v, Forall (dearer Ask p) os -> walk Ask v os * W <= v * p.
Proof.
  induction os as [|o os IH]; intros v Hd; [cbn; lia|].
  inversion Hd as [|?? Ho Hd']; subst. cbn [walk] in *. unfold dearer in Ho.
  specialize (IH (v - N.min (x_size o) v) Hd'). set (b := N.min (x_size o) v) in *. pose proof (cost_down b (x_price o)) as [H _].
  assert (E : v * p = b * p + (v - b) * p) by (rewrite <- N.mul_add_distr_r; f_equal; lia).
  pose proof (N.mul_le_mono_l _ _ b Ho). lia.
Qed.

Lemma walk_more_up p os : forall z u, Forall (dearer Bid p) os -> z + u <= supply os ->
  walk Bid z os * W + u * p < walk Bid (z + u) os * W + W.
Proof.
  induction os as [|o os IH]; intros z u Hd Hv; [cbn in Hv; assert (z = 0 /\ u = 0) as [-> ->] by lia; cbn; lia|].
  inversion Hd as [|?? Ho Hd']; subst. cbn [walk supply sumN] in *. unfold dearer in Ho. set (s := x_size o) in *. set (p0 := x_price o) in *.
  destruct (N.le_gt_cases s z) as [Hsz|Hsz].
  - rewrite !N.min_l by lia. replace (z + u - s) with (z - s + u) by lia. specialize (IH (z - s) u Hd').
    unfold supply in IH. lia.
  - rewrite (N.min_r s z) by lia. rewrite N.sub_diag, walk_0, N.add_0_r.
    destruct (N.le_gt_cases (z + u) s) as [H1|H1].
    + rewrite N.min_r by lia. rewrite N.sub_diag, walk_0, N.add_0_r. pose proof (cost_up z p0). pose proof (cost_up (z + u) p0).
      rewrite N.mul_add_distr_r in *. pose proof (N.mul_le_mono_l _ _ u Ho). lia.
    + rewrite N.min_l by lia. pose proof (walk_up p os (z + u - s) Hd' ltac:(unfold supply; lia)) as H2.
      pose proof (cost_up z p0). pose proof (cost_up s p0).
      assert (E1 : s * p0 = z * p0 + (s - z) * p0) by (rewrite <- N.mul_add_distr_r; f_equal; lia).
      assert (E2 : u * p = (s - z) * p + (z + u - s) * p) by (rewrite <- N.mul_add_distr_r; f_equal; lia).
      pose proof (N.mul_le_mono_l _ _ (s - z) Ho). lia.
Qed.
Lemma walk_more_down p os : forall z u, Forall (dearer Ask p) os ->
  walk Ask (z + u) os * W < walk Ask z os * W + u * p + W.
Proof.
  induction os as [|o os IH]; intros z u Hd; [cbn; lia|].
  inversion Hd as [|?? Ho Hd']; subst. cbn [walk] in *. unfold dearer in Ho. set (s := x_size o) in *. set (p0 := x_price o) in *.
  destruct (N.le_gt_cases s z) as [Hsz|Hsz].
  - rewrite !N.min_l by lia. replace (z + u - s) with (z - s + u) by lia. specialize (IH (z - s) u Hd'). lia.
  - rewrite (N.min_r s z) by lia. rewrite N.sub_diag, walk_0, N.add_0_r.
    destruct (N.le_gt_cases (z + u) s) as [H1|H1].
    + rewrite N.min_r by lia. rewrite N.sub_diag, walk_0, N.add_0_r. pose proof (cost_down z p0). pose proof (cost_down (z + u) p0).
      rewrite N.mul_add_distr_r in *. pose proof (N.mul_le_mono_l _ _ u Ho). lia.
    + rewrite N.min_l by lia. pose proof (walk_down p os (z + u - s) Hd') as H2.
      pose proof (cost_down z p0). pose proof (cost_down s p0).
      assert (E1 : s * p0 = z * p0 + (s - z) * p0) by (rewrite <- N.mul_add_distr_r; f_equal; lia).
      assert (E2 : u * p = (s - z) * p + (z + u - s) * p) by (rewrite <- N.mul_add_distr_r; f_equal; lia).
      pose proof (N.mul_le_mono_l _ _ (s - z) Ho). lia.
Qed.

(** [better sd a b]: for a taker of side [sd] the amount [a] is at least as good as [b]. *)
Definition better (sd : side) (a b : N) : Prop := match sd with Bid => a <= b | Ask => b <= a end.
Definition worse_by (sd : side) (d a b : N) : Prop := match sd with Bid => a <= b + d | Ask => b <= a + d end.

(** [t] of an order's units are taken and the rest of it vanishes: at most one unit is won. *)
Lemma vanish sd o os t y : Forall (dearer sd (x_price o)) os -> t <= x_size o -> y <= supply os ->
  worse_by sd 1 (walk sd (t + y) (o :: os)) (cost sd t (x_price o) + walk sd y os).
Proof.
  intros Hd Ht Hy. cbn [walk]. set (p := x_price o) in *. set (u := N.min (x_size o - t) y).
  replace (N.min (x_size o) (t + y)) with (t + u) by lia. replace (t + y - (t + u)) with (y - u) by lia.
  replace y with (y - u + u) at 2 by lia. replace y with (y - u + u) at 3 by lia. destruct sd; cbn [worse_by].
  - pose proof (walk_more_up p os (y - u) u Hd ltac:(lia)) as H. pose proof (cost_up (t + u) p) as H1. pose proof (cost_up t p) as H2.
    rewrite N.mul_add_distr_r in *. lia.
  - pose proof (walk_more_down p os (y - u) u Hd) as H. pose proof (cost_down (t + u) p) as H1. pose proof (cost_down t p) as H2.
    rewrite N.mul_add_distr_r in *. lia.
Qed.
(** [t] units are taken and the rest stays: nothing is won. *)
Lemma stays sd o o' os t y : t <= x_size o -> x_price o' = x_price o -> x_size o' = x_size o - t ->
  worse_by sd 0 (walk sd (t + y) (o :: os)) (cost sd t (x_price o) + walk sd y (o' :: os)).
Proof.
  intros Ht Ep Es. cbn [walk]. rewrite Ep, Es. set (p := x_price o) in *. set (u := N.min (x_size o - t) y).
  replace (N.min (x_size o) (t + y)) with (t + u) by lia. replace (t + y - (t + u)) with (y - u) by lia. destruct sd; cbn [worse_by].
  - pose proof (cost_up (t + u) p) as H1. pose proof (cost_up t p) as H2. pose proof (cost_up u p) as H3. rewrite N.mul_add_distr_r in *. lia.
  - pose proof (cost_down (t + u) p) as H1. pose proof (cost_down t p) as H2. pose proof (cost_down u p) as H3. rewrite N.mul_add_distr_r in *. lia.
Qed.
Lemma emptied sd o os y : walk sd (x_size o + y) (o :: os) = cost sd (x_size o) (x_price o) + walk sd y os.
Proof. cbn [walk]. rewrite N.min_l by lia. do 2 f_equal. lia. Qed.
Lemma gone sd o os t y : Forall (dearer sd (x_price o)) os -> t <= x_size o -> y <= supply os ->
  worse_by sd (if 0 <? x_size o - t then 1 else 0) (walk sd (t + y) (o :: os)) (cost sd t (x_price o) + walk sd y os).
Proof.
  intros Hd Ht Hy. destruct (N.ltb_spec 0 (x_size o - t)) as [H|H]; [by apply vanish|].
  assert (t = x_size o) as -> by lia. rewrite emptied. destruct sd; cbn [worse_by]; lia.
Qed.
Lemma worse_trans sd d1 d2 a b c x : worse_by sd d1 a (c + b) -> worse_by sd d2 b x -> worse_by sd (d1 + d2) a (c + x).
Proof. destruct sd; cbn; lia. Qed.
End Walk.

(** An order taken off the side [sd] with something left. *)
Definition n_left {C} (sd : side) (n : notice C) : N :=
  match n with
  | Removed s _ l _ => if (side_u8 s =? side_u8 sd) && (0 <? l) then 1 else 0
  | Traded _ _ _ _ _ _ => 0
  end.

Section Trade.
Context {C : Type} (same_id : C -> C -> bool) (r : rules) (p : params C).
Notation trade := (trade same_id r p).
Notation sd := (p_side p).

Lemma trade_parts : 0 < r_min r -> forall n base quote ms ns b1 q1 ms1 f,
  trade n base quote ms = (ns, Some (b1, q1, ms1, f)) -> ranked sd ms ->
  sumN n_base ns + supply ms1 <= supply ms /\
  forall y, y <= supply ms1 ->
  worse_by sd (sumN (n_left (opposite sd)) ns) (walk sd (sumN n_base ns + y) ms) (sumN n_quote ns + walk sd y ms1).
Proof.
  intros Hmin. assert (Hstop : forall ms : list (xorder C), sumN n_base (@nil (notice C)) + supply ms <= supply ms /\
    forall y, y <= supply ms -> worse_by sd (sumN (n_left (opposite sd)) (@nil (notice C))) (walk sd (sumN n_base (@nil (notice C)) + y) ms)
      (sumN n_quote (@nil (notice C)) + walk sd y ms)).
  { intros ms. cbn [sumN]. split; [lia|]. intros y _. rewrite !N.add_0_l. destruct sd; cbn [worse_by]; lia. }
  induction n as [|n IH]; intros base quote ms ns b1 q1 ms1 f H Hr.
  { cbn in H. injection H as <- <- <- <- <-. apply Hstop. }
  destruct ms as [|o os]; [cbn in H; injection H as <- <- <- <- <-; apply Hstop|]. cbn [ExchangeSpec.trade] in H.
  destruct (negb (acceptable p o)); [injection H as <- <- <- <- <-; apply Hstop|].
  destruct (post_only p || _ || _); [injection H as <- <- <- <- <-; apply Hstop|].
  set (b := N.min (N.min (x_size o) base) (pays_for quote (x_price o))) in *.
  assert (Hb : b <= x_size o) by lia. destruct Hr as [Hd Hr].
  assert (Hgone : forall tr t ns' b1 q1 ms1 f base' quote', t <= x_size o ->
    sumN n_base tr = t -> sumN n_quote tr = cost sd t (x_price o) -> sumN (n_left (opposite sd)) tr = (if 0 <? x_size o - t then 1 else 0) ->
    trade n base' quote' os = (ns', Some (b1, q1, ms1, f)) ->
    sumN n_base (tr ++ ns') + supply ms1 <= supply (o :: os) /\
    forall y, y <= supply ms1 ->
    worse_by sd (sumN (n_left (opposite sd)) (tr ++ ns')) (walk sd (sumN n_base (tr ++ ns') + y) (o :: os)) (sumN n_quote (tr ++ ns') + walk sd y ms1)).
  { intros tr t ns' b1' q1' ms1' f' base' quote' Ht E1 E2 E3 Et. destruct (IH _ _ _ _ _ _ _ _ Et Hr) as [S1 S2].
    rewrite !sum_app, E1, E2, E3. split; [unfold supply in *; cbn [sumN]; lia|]. intros y Hy.
    rewrite <- !N.add_assoc. eapply worse_trans; [apply gone; [done|done|lia]|]. by apply S2. }
  assert (Hside : (side_u8 (opposite sd) =? side_u8 (opposite sd)) = true) by by destruct sd.
  assert (Hfill : forall ns ro, 
    (let left := x_size o - b in
     let traded := Traded sd (x_id (opposite sd) o) b (cost sd b (x_price o)) (x_owner o) (p_callback p) in
     if left <? r_min r
     then ([traded; Removed (opposite sd) (x_id (opposite sd) o) left (x_owner o)] ++ fst (trade n (base - b) (quote - cost sd b (x_price o)) os),
           snd (trade n (base - b) (quote - cost sd b (x_price o)) os))
     else ([traded] ++ fst (trade n (base - b) (quote - cost sd b (x_price o)) (mk_xorder (x_price o) (x_time o) left (x_owner o) :: os)),
           snd (trade n (base - b) (quote - cost sd b (x_price o)) (mk_xorder (x_price o) (x_time o) left (x_owner o) :: os)))) = (ns, ro) ->
    ro = Some (b1, q1, ms1, f) ->
    sumN n_base ns + supply ms1 <= supply (o :: os) /\
    forall y, y <= supply ms1 ->
    worse_by sd (sumN (n_left (opposite sd)) ns) (walk sd (sumN n_base ns + y) (o :: os)) (sumN n_quote ns + walk sd y ms1)).
  { intros ns0 ro F ->. cbn zeta in F. destruct (x_size o - b <? r_min r) eqn:El.
    - destruct (trade n _ _ os) as [ns' rr] eqn:Et. cbn [fst snd] in F. injection F as <- ->.
      eapply (Hgone [_; _] b); [done| | | |exact Et]; cbn [sumN n_base n_quote n_left]; rewrite ?Hside; cbn [andb]; lia.
    - destruct (trade n _ _ (_ :: os)) as [ns' rr] eqn:Et. cbn [fst snd] in F. injection F as <- ->.
      destruct (IH _ _ _ _ _ _ _ _ Et ltac:(by split)) as [S1 S2].
      cbn [app sumN n_base n_quote n_left].
      split; [unfold supply in *; cbn [sumN x_size] in *; lia|]. intros y Hy.
      rewrite <- !N.add_assoc. eapply (worse_trans sd 0 _ _ (walk sd (sumN n_base ns' + y) (mk_xorder (x_price o) (x_time o) (x_size o - b) (x_owner o) :: os)));
        [apply stays; [exact Hb|reflexivity|reflexivity]|]. by apply S2. }
  destruct (stb p), (own_order same_id p o); try done; try exact (Hfill _ _ H eq_refl).
  destruct (trade n base quote os) as [ns' rr] eqn:Et. cbn [fst snd] in H. injection H as <- ->.
  eapply (Hgone [_] 0); [lia| | | |exact Et]; cbn [sumN n_base n_quote n_left]; rewrite ?Hside, ?cost_0, ?N.sub_0_r; cbn [andb]; lia.
Qed.

(** Nothing more happens once nothing is left of the order, or nothing can be paid. *)
Lemma trade_dead n base quote ms : base = 0 \/ Forall (fun o => pays_for quote (x_price o) = 0) ms ->
  exists f, trade n base quote ms = ([], Some (base, quote, ms, f)).
Proof.
  intros H. destruct n as [|n]; [by eexists|]. destruct ms as [|o os]; [by eexists|]. cbn [ExchangeSpec.trade].
  assert (E : N.min (N.min (x_size o) base) (pays_for quote (x_price o)) = 0).
  { destruct H as [->|H]; [lia|]. inversion H; subst. lia. }
  rewrite E. destruct (negb _); [by eexists|]. rewrite N.eqb_refl, orb_true_r. by eexists.
Qed.
Lemma paid_out quote price b : 0 < price -> b = pays_for quote price -> pays_for (quote - cost Bid b price) price = 0.
Proof.
  intros Hp ->. unfold pays_for. change (2 ^ 32) with W. apply N.div_small.
  pose proof (cost_up (quote * W / price) price) as [H _]. pose proof (N.div_mod (quote * W) price ltac:(lia)) as Hd.
  pose proof (N.mod_lt (quote * W) price ltac:(lia)). rewrite N.mul_sub_distr_r. lia.
Qed.

Lemma trade_whole : 0 < r_min r -> stb p <> CancelProvide -> forall n base quote ms ns b1 q1 ms1 f,
  trade n base quote ms = (ns, Some (b1, q1, ms1, f)) -> ranked sd ms -> Forall (fun o => 0 < x_price o) ms ->
  (sd = Ask -> sumN (fun o => cost Bid (x_size o) (x_price o)) ms <= quote) ->
  sumN n_quote ns = walk sd (sumN n_base ns) ms.
Proof.
  intros Hmin Hstb. induction n as [|n IH]; intros base quote ms ns b1 q1 ms1 f H Hr Hp Hq.
  { cbn in H. injection H as <- <- <- <- <-. cbn. by rewrite walk_0. }
  destruct ms as [|o os]; [cbn in H; injection H as <- <- <- <- <-; done|]. cbn [ExchangeSpec.trade] in H.
  destruct (negb (acceptable p o)); [injection H as <- <- <- <- <-; by rewrite walk_0|].
  destruct (post_only p || _ || _); [injection H as <- <- <- <- <-; by rewrite walk_0|].
  set (b := N.min (N.min (x_size o) base) (pays_for quote (x_price o))) in *. destruct Hr as [Hd Hr].
  inversion Hp as [|?? Hpo Hps]; subst.
  assert (Hmain : (let left := x_size o - b in
     let traded := Traded sd (x_id (opposite sd) o) b (cost sd b (x_price o)) (x_owner o) (p_callback p) in
     if left <? r_min r
     then ([traded; Removed (opposite sd) (x_id (opposite sd) o) left (x_owner o)] ++ fst (trade n (base - b) (quote - cost sd b (x_price o)) os),
           snd (trade n (base - b) (quote - cost sd b (x_price o)) os))
     else ([traded] ++ fst (trade n (base - b) (quote - cost sd b (x_price o)) (mk_xorder (x_price o) (x_time o) left (x_owner o) :: os)),
           snd (trade n (base - b) (quote - cost sd b (x_price o)) (mk_xorder (x_price o) (x_time o) left (x_owner o) :: os))))
     = (ns, Some (b1, q1, ms1, f))).
  { destruct (stb p), (own_order same_id p o); done. }
  clear H. cbn zeta in Hmain. destruct (N.eq_dec b (x_size o)) as [Hb|Hb].
  - replace (x_size o - b <? r_min r) with true in Hmain by lia.
    destruct (trade n _ _ os) as [ns' rr] eqn:Et. cbn [fst snd] in Hmain. injection Hmain as <- ->.
    assert (Hq' : sd = Ask -> sumN (fun o => cost Bid (x_size o) (x_price o)) os <= quote - cost sd b (x_price o)).
    { intros E. specialize (Hq E). rewrite E. cbn [sumN] in Hq. pose proof (cost_up b (x_price o)). pose proof (cost_down b (x_price o)).
      rewrite <- Hb in Hq. lia. }
    apply IH in Et; [|done..]. cbn [app sumN n_base n_quote]. rewrite !N.add_0_l. rewrite Et, Hb. by rewrite emptied.
  - assert (Hdead : base - b = 0 \/ sd = Bid /\ pays_for (quote - cost sd b (x_price o)) (x_price o) = 0).
    { destruct (N.le_gt_cases base (pays_for quote (x_price o))) as [|Hlt]; [left; lia|].
      assert (Hbp : b = pays_for quote (x_price o)) by lia. destruct sd eqn:Esd; [right|exfalso].
      - split; [done|]. by apply paid_out.
      - specialize (Hq eq_refl). cbn [sumN] in Hq. pose proof (cost_up (x_size o) (x_price o)) as [Hc _].
        assert (x_size o <= pays_for quote (x_price o)); [|lia]. unfold pays_for. apply N.div_le_lower_bound; [lia|].
        change (2 ^ 32) with W. nia. }
    assert (Hend : forall n ms', (exists os', ms' = os \/ ms' = mk_xorder (x_price o) (x_time o) os' (x_owner o) :: os) ->
      exists f, trade n (base - b) (quote - cost sd b (x_price o)) ms' = ([], Some (base - b, quote - cost sd b (x_price o), ms', f))).
    { intros n' ms' Hms. apply trade_dead. destruct Hdead as [?|[Es Hz]]; [by left|]. right.
      assert (F : Forall (fun o0 => pays_for (quote - cost sd b (x_price o)) (x_price o0) = 0) os).
      { eapply Forall_impl; [exact Hd|]. rewrite Es. cbn [dearer]. intros o' Ho'.
        assert (pays_for (quote - cost Bid b (x_price o)) (x_price o') <= pays_for (quote - cost Bid b (x_price o)) (x_price o)); [|rewrite Es in Hz; lia].
        unfold pays_for. apply N.div_le_compat_l. lia. }
      destruct Hms as (os'&[-> | ->]); [done|]. constructor; done. }
    assert (Hone : sumN n_quote ns = cost sd b (x_price o) /\ sumN n_base ns = b).
    { destruct (x_size o - b <? r_min r).
      - destruct (Hend n os ltac:(exists 0; by left)) as (f'&Et). rewrite Et in Hmain. cbn [fst snd] in Hmain.
        injection Hmain as <- _ _ _ _. cbn. lia.
      - destruct (Hend n _ ltac:(exists (x_size o - b); right; reflexivity)) as (f'&Et). rewrite Et in Hmain. cbn [fst snd] in Hmain.
        injection Hmain as <- _ _ _ _. cbn. lia. }
    destruct Hone as [-> ->]. cbn [walk]. replace (N.min (x_size o) b) with b by lia.
    rewrite N.sub_diag, walk_0. lia.
Qed.
End Trade.

Section Market.
Context {C : Type} (same_id : C -> C -> bool).

Lemma view_ranked c m sd : reachable same_id c m -> ranked sd (x_side (view m) (opposite sd)).
Proof.
  intros Hr. destruct (reachable_minv _ _ _ Hr) as (L&pend&Hm&Hsq). destruct (view_minv _ _ _ _ Hm) as (V&_&_).
  rewrite V. pose proof (minv_sorted _ _ _ _ (opposite sd) Hm) as Hs. unfold sorted in Hs.
  induction Hs as [|o os Hs IH Hall]; cbn [map ranked]; [done|]. split; [|done].
  apply Forall_map. eapply Forall_impl; [exact Hall|]. intros x Hx. destruct sd; cbn in *; unfold id_price; apply N.div_le_mono; lia.
Qed.

Lemma count_left sd (E : list (event_ref C)) :
  (forall e cb, EvOut e cb ∈ E -> oe_side e = side_u8 Bid \/ oe_side e = side_u8 Ask) ->
  N.of_nat (length (List.filter (left_over sd) E)) = sumN (n_left sd) (map notice_of E).
Proof.
  induction E as [|ev E IH]; intros H; [done|]. cbn [List.filter map sumN].
  assert (IH' := IH (fun e cb He => H e cb (elem_of_list_further _ _ _ He))).
  destruct ev as [e mk tk|e cb]; cbn [left_over notice_of n_left]; [lia|].
  assert (Es : side_u8 (side_of_u8 (oe_side e)) = oe_side e).
  { destruct (H e cb ltac:(left)) as [-> | ->]; done. }
  rewrite Es. destruct (_ && _); cbn [length]; lia.
Qed.

Lemma accepted_parts c m p sm m' : accepted same_id c m p sm m' ->
  let sd := p_side p in let t := opposite sd in let E := emitted m m' in
  sumN fill_base E + supply (x_side (view m') t) <= supply (x_side (view m) t) /\
  (forall y, y <= supply (x_side (view m') t) ->
   worse_by sd (N.of_nat (length (List.filter (left_over t) E)))
     (walk sd (sumN fill_base E + y) (x_side (view m) t)) (sumN fill_quote E + walk sd y (x_side (view m') t))) /\
  (stb p <> CancelProvide ->
   (sd = Ask -> sumN (fun o => cost Bid (x_size o) (x_price o)) (x_side (view m) t) <= max_quote_qty p) ->
   sumN fill_quote E = walk sd (sumN fill_base E) (x_side (view m) t)).
Proof.
  intros H sd t E. pose proof H as (Hr&Hty&He). destruct (view_new_order _ _ _ _ _ _ Hr Hty He) as (a&Ha&Hrule).
  cbn [answer_of] in Ha. injection Ha as <-. unfold new_order_rule in Hrule.
  destruct (negb _ || _) in Hrule; [done|].
  destruct (trade same_id _ _ _ _ _ _) as [ns [res|]] eqn:Et; [|by destruct (_ <=? _)%nat in Hrule].
  destruct res as [[[b q] makers] free].
  destruct (if free then _ else _) as [[[n2 posted] own] clock] eqn:Ep.
  destruct (_ <=? _)%nat in Hrule; [|done]. injection Hrule as _ _ _ _ Hv.
  assert (En : map notice_of E = ns ++ n2).
  { unfold E, emitted. assert (En : x_notices (view m') = x_notices (view m) ++ ns ++ n2).
    { rewrite <- Hv. by destruct (p_side p). }
    cbn [view x_notices] in En. rewrite <- skipn_map, En. apply drop_app_alt. by rewrite map_length. }
  assert (Eopp : x_side (view m') t = makers) by (rewrite <- Hv; unfold t, sd; by destruct (p_side p)).
  assert (H0 : sumN n_base n2 = 0 /\ sumN n_quote n2 = 0 /\ sumN (n_left t) n2 = 0).
  { destruct free; [|by injection Ep as <- _ _ _]. revert Ep. unfold post_rest.
    destruct (negb _ || _); [intros Ep; by injection Ep as <- _ _ _|].
    destruct (_ <? _)%nat; [intros Ep; by injection Ep as <- _ _ _|].
    destruct (last _); [|intros Ep; by injection Ep as <- _ _ _].
    destruct (not_worse _ _ _); intros Ep; [by injection Ep as <- _ _ _|]. injection Ep as <- _ _ _.
    cbn [sumN n_base n_quote n_left]. unfold t, sd. destruct (p_side p); done. }
  destruct H0 as (Z1&Z2&Z3).
  assert (Hl : N.of_nat (length (List.filter (left_over t) E)) = sumN (n_left t) (map notice_of E)).
  { apply count_left. intros e cb Hev. destruct (event_shape same_id _ _ _ _ _ _ Hr Hty He Hev) as (x&_&_&[Hf|(q'&Hq)]); [by destruct Hf|].
    injection Hq as ->. cbn [oe_side]. destruct (side_of_id _); [by left|by right]. }
  rewrite Hl, notices_base, notices_quote, En, !sum_app, Z1, Z2, Z3, !N.add_0_r, Eopp.
  pose proof Hr as (Hc&_). assert (Hmin : 0 < r_min (rules_of c)) by (cbn; apply Hc).
  pose proof (view_ranked _ _ sd Hr) as Hrk.
  destruct (trade_parts same_id _ p Hmin _ _ _ _ _ _ _ _ _ Et Hrk) as [S1 S2]. split; [done|]. split; [exact S2|].
  intros Hstb Hq. exact (trade_whole same_id _ p Hmin Hstb _ _ _ _ _ _ _ _ _ Et Hrk (view_prices _ _ _ _ Hr) Hq).
Qed.

Lemma view_side (m m' : market C) sd : resting m' Bid = resting m Bid -> resting m' Ask = resting m Ask ->
  x_side (view m') sd = x_side (view m) sd.
Proof. intros H1 H2. destruct sd; cbn [x_side view x_bids x_asks]; by rewrite ?H1, ?H2. Qed.

Lemma log_parts c log0 m sd log m' : config_ok c -> history same_id c log0 m -> steps same_id m log m' ->
  N.of_nat (length (log0 ++ log)) < p63 -> one_sided sd log ->
  log_base log + supply (x_side (view m') (opposite sd)) <= supply (x_side (view m) (opposite sd)) /\
  forall y, y <= supply (x_side (view m') (opposite sd)) ->
  worse_by sd (leftovers (opposite sd) log) (walk sd (log_base log + y) (x_side (view m) (opposite sd)))
    (log_quote log + walk sd y (x_side (view m') (opposite sd))).
Proof.
  intros Hc Hh Hs. induction Hs as [|log m1 o r m' Hs IH Hty He]; intros Hl Hone.
  { unfold log_base, log_quote, leftovers. cbn [flat_map sumN List.filter length]. split; [lia|]. intros y _. rewrite !N.add_0_l. destruct sd; cbn [worse_by]; lia. }
  assert (Hl1 : N.of_nat (length (log0 ++ log)) < p63) by (rewrite !app_length in *; cbn in Hl; lia).
  destruct (IH Hl1) as [S1 S2].
  { intros e He'. apply Hone. apply elem_of_app. by left. }
  assert (Hr : reachable same_id c m1).
  { split; [done|]. exists (log0 ++ log). split; [|lia]. by eapply steps_app. }
  specialize (Hone (mk_entry o r (emitted m1 m')) ltac:(apply elem_of_app; right; by left)). cbn [en_op] in Hone.
  unfold log_base, log_quote, leftovers in *. rewrite flat_map_app, !sum_app, List.filter_app, app_length, Nat2N.inj_add.
  cbn [flat_map en_events]. rewrite app_nil_r.
  assert (Hsame : emitted m1 m' = [] -> x_side (view m') (opposite sd) = x_side (view m1) (opposite sd) ->
    sumN fill_base (flat_map en_events log) + sumN fill_base (emitted m1 m') + supply (x_side (view m') (opposite sd)) <= supply (x_side (view m) (opposite sd)) /\
    forall y, y <= supply (x_side (view m') (opposite sd)) ->
    worse_by sd (N.of_nat (length (List.filter (left_over (opposite sd)) (flat_map en_events log))) +
                 N.of_nat (length (List.filter (left_over (opposite sd)) (emitted m1 m'))))
      (walk sd (sumN fill_base (flat_map en_events log) + sumN fill_base (emitted m1 m') + y) (x_side (view m) (opposite sd)))
      (sumN fill_quote (flat_map en_events log) + sumN fill_quote (emitted m1 m') + walk sd y (x_side (view m') (opposite sd)))).
  { intros E1 E2. rewrite E1, E2. cbn [sumN List.filter length]. rewrite !N.add_0_r. split; [lia|exact S2]. }
  destruct (is_ok r) eqn:Hok.
  2:{ pose proof (exec_failed _ _ _ _ _ He Hok) as ->. apply Hsame; [by apply emitted_same|done]. }
  destruct r as [r| | |]; try done. destruct o as [p|id|ids|n]; try done.
  - destruct (new_order_outcomes _ _ _ _ _ _ Hr Hty He) as [(sm&[= ->])|(_&[?|[?|?]])]; try done.
    assert (Hacc : accepted same_id c m1 p sm m') by done.
    destruct (accepted_parts _ _ _ _ _ Hacc) as (T1&T2&_). rewrite Hone in T1, T2. split; [lia|]. intros y Hy.
    rewrite <- !N.add_assoc. specialize (S2 (sumN fill_base (emitted m1 m') + y) ltac:(lia)). specialize (T2 y Hy).
    eapply worse_trans; [exact S2|exact T2].
  - destruct (consume_ok same_id c m1 n Hr) as (m2&Hx&Hp&Hb&Ha&_). rewrite Hx in He. injection He as _ <-.
    apply Hsame; [by rewrite (emitted_drop m1 m2 _ Hp)|apply view_side; unfold resting, tree; by rewrite ?Hb, ?Ha].
Qed.

Lemma view_worth (m : market C) : 
  sumN (fun o => cost Bid (x_size o) (x_price o)) (x_side (view m) Bid) = worth Bid m.
Proof.
  cbn [x_side view x_bids]. unfold worth.
  rewrite (sumN_perm _ _ (map (xorder_of Bid) (resting m Bid))) by (symmetry; apply Permutation_rev).
  induction (resting m Bid) as [|o os IH]; [done|]. cbn [map sumN]. rewrite IH. done.
Qed.

Lemma in_parts c log0 m log m' p sm m1 : config_ok c -> history same_id c log0 m -> steps same_id m log m' ->
  N.of_nat (length (log0 ++ log)) < p63 -> one_sided (p_side p) log ->
  accepted same_id c m p sm m1 -> stb p <> CancelProvide ->
  (p_side p = Ask -> worth Bid m <= max_quote_qty p) ->
  sumN fill_base (emitted m m1) = log_base log ->
  worse_by (p_side p) (leftovers (opposite (p_side p)) log) (sumN fill_quote (emitted m m1)) (log_quote log).
Proof.
  intros Hc Hh Hs Hl Hone Hacc Hstb Hq Hb. destruct (log_parts _ _ _ _ _ _ Hc Hh Hs Hl Hone) as [_ S].
  destruct (accepted_parts _ _ _ _ _ Hacc) as (_&_&T). rewrite T, Hb; [|done|].
  - specialize (S 0 ltac:(lia)). by rewrite walk_0, !N.add_0_r in S.
  - intros E. rewrite E. cbn [opposite]. rewrite view_worth. by apply Hq.
Qed.
End Market.
