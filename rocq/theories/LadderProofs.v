(** * LadderProofs.v: what an order trades, in closed form (C89) *)
From Verif Require Import Machine Critbit EventQueue OrderBook Market Spec BookProofs MarketProofs MarketFacts
  NewOrderProps NewOrderProps2 EventProps ExchangeSpec ExchangeProofs InstrProps HistoryProps PlaceProofs FundsProofs CustodyProofs
  Engine PartsSpec PartsProofs BestSpec BestProofs ClientSpec LadderSpec.
From Coq Require Import Sorted ZifyBool ZifyNat ZifyN.

(** ** Ladders *)
Lemma slices_0 l : slices 0 l = [].
Proof. by destruct l as [|[s p] l]. Qed.
Lemma slices_depth b l : b <= depth l -> depth (slices b l) = b.
Proof.
  revert b. induction l as [|[s p] l IH]; intros b Hb; [cbn in *; lia|]. cbn [slices].
  destruct (b =? 0) eqn:E; [cbn; lia|]. cbn [depth sumN fst] in *. unfold depth in IH. rewrite IH; lia.
Qed.
Lemma slices_app b l k : b <= depth l -> slices b (l ++ k) = slices b l.
Proof.
  revert b. induction l as [|[s p] l IH]; intros b Hb; [cbn in *; assert (b = 0) as -> by lia; by rewrite slices_0|].
  cbn [app slices]. destruct (b =? 0) eqn:E; [done|]. f_equal. apply IH. cbn [depth sumN fst] in Hb. unfold depth. lia.
Qed.
Lemma slices_full b s p l : 0 < s -> slices (s + b) ((s, p) :: l) = (s, p) :: slices b l.
Proof. intros Hs. cbn [slices]. replace (s + b =? 0) with false by lia. replace (N.min s (s + b)) with s by lia. do 2 f_equal. lia. Qed.
Lemma slices_part b s p l : 0 < b -> b <= s -> slices b ((s, p) :: l) = [(b, p)].
Proof. intros Hb Hs. cbn [slices]. replace (b =? 0) with false by lia. replace (N.min s b) with b by lia. by rewrite N.sub_diag, slices_0. Qed.
Lemma value_cost sd b p : slice_value sd (b, p) = cost sd b p.
Proof. by destruct sd. Qed.
Lemma filter_mapl {A B} (g : A -> B) f l : List.filter f (map g l) = map g (List.filter (fun x => f (g x)) l).
Proof. induction l as [|x l IH]; [done|]. cbn. rewrite IH. by destruct (f (g x)). Qed.

Lemma cost_mono b b' p : b <= b' -> cost Bid b p <= cost Bid b' p.
Proof. intros H. unfold cost. apply N.div_le_mono; [done|]. nia. Qed.
Lemma too_dear b quote p : 0 < p -> pays_for quote p < b -> quote < cost Bid b p.
Proof.
  intros Hp H. pose proof (cost_up b p) as [Hc _]. unfold pays_for in H. change (2 ^ 32) with W in H.
  pose proof (N.div_mod (quote * W) p ltac:(lia)). pose proof (N.mod_lt (quote * W) p ltac:(lia)).
  set (d := quote * W / p) in *. nia.
Qed.

Definition n_deals {C} (ns : list (notice C)) : list (N * N) :=
  flat_map (fun n => match n with Traded _ id b _ _ _ => [(b, id / 2 ^ 64)] | _ => [] end) ns.
Definition x_step {C} (o : xorder C) : N * N := (x_size o, x_price o).

Section Trade.
Context {C : Type} (same_id : C -> C -> bool) (r : rules) (p : params C).
Notation trade := (trade same_id r p).
Notation sd := (p_side p).
Notation xladder n ms := (map x_step (List.filter (fun o => negb (withdrawn same_id p o)) (take n (List.filter (acceptable p) ms)))).

Lemma unacceptable o os : acceptable p o = false -> Forall (dearer sd (x_price o)) os -> List.filter (acceptable p) os = [].
Proof.
  intros Ho Hd. induction Hd as [|x os Hx Hd IH]; [done|]. cbn [List.filter]. rewrite IH.
  unfold acceptable in *. destruct sd; cbn [dearer] in Hx; case_match; lia || done.
Qed.
(** One round of [trade] with an order that is not withdrawn. *)
Lemma trade_round n base quote o os b : acceptable p o = true -> post_only p = false -> withdrawn same_id p o = false ->
  b = N.min (N.min (x_size o) base) (pays_for quote (x_price o)) -> b <> 0 -> cost sd b (x_price o) <> 0 ->
  trade (S n) base quote (o :: os) = ([], None) \/
  let left := x_size o - b in
  let traded := Traded sd (x_id (opposite sd) o) b (cost sd b (x_price o)) (x_owner o) (p_callback p) in
  trade (S n) base quote (o :: os) = if left <? r_min r
     then ([traded; Removed (opposite sd) (x_id (opposite sd) o) left (x_owner o)] ++ fst (trade n (base - b) (quote - cost sd b (x_price o)) os),
           snd (trade n (base - b) (quote - cost sd b (x_price o)) os))
     else ([traded] ++ fst (trade n (base - b) (quote - cost sd b (x_price o)) (mk_xorder (x_price o) (x_time o) left (x_owner o) :: os)),
           snd (trade n (base - b) (quote - cost sd b (x_price o)) (mk_xorder (x_price o) (x_time o) left (x_owner o) :: os))).
Proof.
  intros Ha Hpo Hw -> Hb Hq. cbn zeta. cbn [ExchangeSpec.trade]. rewrite Ha, Hpo. cbn [negb orb].
  set (b := N.min _ _) in *. rewrite (proj2 (N.eqb_neq _ _) Hb), (proj2 (N.eqb_neq _ _) Hq). cbn [orb].
  unfold withdrawn in Hw. destruct (stb p), (own_order same_id p o); try done; auto.
Qed.
Lemma trade_withdraw n base quote o os : withdrawn same_id p o = true ->
  (exists f, trade (S n) base quote (o :: os) = ([], Some (base, quote, o :: os, f))) \/
  trade (S n) base quote (o :: os) =
    ([Removed (opposite sd) (x_id (opposite sd) o) (x_size o) (x_owner o)] ++ fst (trade n base quote os), snd (trade n base quote os)).
Proof.
  intros Hw. cbn [ExchangeSpec.trade]. destruct (negb (acceptable p o)); [left; by eexists|].
  destruct (post_only p || _ || _); [left; by eexists|]. right. unfold withdrawn in Hw. destruct (stb p); try done. by rewrite Hw.
Qed.

(** A buyer. *)
Lemma trade_buy : sd = Bid -> post_only p = false -> 0 < r_min r -> forall n base quote ms ns b1 q1 ms1 f,
  trade n base quote ms = (ns, Some (b1, q1, ms1, f)) -> ranked sd ms -> Forall (fun o => 0 < x_price o) ms ->
  Forall (fun o => 0 < x_size o) ms -> Forall (fun o => x_id (opposite sd) o / 2 ^ 64 = x_price o) ms ->
  let L := xladder n ms in let B := sumN n_base ns in
  n_deals ns = slices B L /\ sumN n_quote ns = total Bid (slices B L) /\ B <= base /\ B <= depth L /\ sumN n_quote ns <= quote /\
  forall B', B' <= base -> B' <= depth L -> total Bid (slices B' L) <= quote -> B' <= B.
Proof.
  intros Esd Hpo Hmin. induction n as [|n IH]; intros base quote ms ns b1 q1 ms1 f H Hr Hp Hz Hid.
  { cbn in H. injection H as <- <- <- <- <-. rewrite take_0. cbn. repeat split; lia. }
  destruct ms as [|o os]; [cbn in H; injection H as <- <- <- <- <-; cbn [List.filter]; rewrite take_nil; cbn; repeat split; lia|].
  destruct Hr as [Hd Hr]. inversion Hp as [|?? Hpr Hp']; inversion Hz as [|?? Hsz Hz']; inversion Hid as [|?? Hio Hid']; subst.
  destruct (acceptable p o) eqn:Ha; cycle 1.
  { cbn [ExchangeSpec.trade] in H. rewrite Ha in H. cbn [negb] in H. injection H as <- <- <- <- <-.
    cbn [List.filter]. rewrite Ha, (unacceptable o os Ha Hd), take_nil. cbn. repeat split; lia. }
  cbn [List.filter]. rewrite Ha, firstn_cons. cbn [List.filter].
  destruct (withdrawn same_id p o) eqn:Hw; cbn [negb].
  { destruct (trade_withdraw n base quote o os Hw) as [(f'&E)|E].
    - pose proof E as E0. rewrite E in H. injection H as <- <- <- <- <-. cbn zeta. change (sumN n_base (@nil (notice C))) with 0. rewrite slices_0.
      split; [done|]. split; [done|]. split; [lia|]. split; [lia|]. split; [cbn; lia|]. intros B' HB1 HB2 HB3.
      cbn [ExchangeSpec.trade] in E0. rewrite Ha, Hpo in E0. cbn [negb orb] in E0.
      set (b := N.min (N.min (x_size o) base) (pays_for quote (x_price o))) in *.
      assert (Hb0 : b = 0).
      { destruct (b =? 0) eqn:Eb; [lia|]. cbn [orb] in E0. assert (cost sd b (x_price o) <> 0).
        { rewrite Esd. pose proof (cost_up b (x_price o)) as [Hc _]. intros E1. rewrite E1 in Hc. nia. }
        rewrite (proj2 (N.eqb_neq _ _) H) in E0. unfold withdrawn in Hw. destruct (stb p); try done. rewrite Hw in E0. done. }
      destruct (N.eq_dec base 0) as [->|Hb]; [lia|]. assert (Hpf : pays_for quote (x_price o) = 0) by lia.
      destruct (N.eq_dec B' 0) as [->|HB]; [lia|]. exfalso.
      (* the cheapest slice is too dear *)
      set (L := map x_step _) in *. assert (HL : Forall (fun s => x_price o <= snd s /\ 0 < fst s) L).
      { apply Forall_map, Forall_forall. intros x Hx. apply elem_of_list_In, List.filter_In in Hx as [Hx _].
        apply elem_of_list_In, elem_of_take in Hx as (i&Hx&_). apply elem_of_list_lookup_2, elem_of_list_In, List.filter_In in Hx as [Hx _].
        apply elem_of_list_In in Hx. rewrite Forall_forall in Hd, Hz'. specialize (Hd x Hx). specialize (Hz' x Hx).
        rewrite Esd in Hd. cbn in *. lia. }
      destruct L as [|[s q] L]; [cbn in HB2; lia|]. inversion HL as [|?? [Hq Hs] _]; subst. cbn [snd fst] in *.
      cbn [slices] in HB3. replace (B' =? 0) with false in HB3 by lia. unfold total in HB3. cbn [sumN] in HB3.
      rewrite value_cost in HB3. pose proof (too_dear 1 quote (x_price o) Hpr ltac:(lia)) as T.
      pose proof (cost_up (N.min s B') q) as [K1 _]. pose proof (cost_up 1 (x_price o)) as [_ K2].
      assert (1 * x_price o <= N.min s B' * q) by nia. nia.
    - rewrite E in H. destruct (trade n base quote os) as [ns' rr] eqn:Et. cbn [fst snd] in H. injection H as <- ->.
      apply IH in Et; [|done..]. cbn zeta in Et |- *. cbn [app sumN n_base n_quote n_deals flat_map]. rewrite !N.add_0_l. exact Et. }
  set (b := N.min (N.min (x_size o) base) (pays_for quote (x_price o))) in *.
  destruct (N.eq_dec b 0) as [Hb0|Hb0].
  { cbn [ExchangeSpec.trade] in H. rewrite Ha, Hpo in H. cbn [negb orb] in H. fold b in H. rewrite (proj2 (N.eqb_eq _ _) Hb0) in H. cbn [orb] in H.
    injection H as <- <- <- <- <-. cbn zeta. change (sumN n_base (@nil (notice C))) with 0. rewrite slices_0.
    split; [done|]. split; [done|]. split; [lia|]. split; [lia|]. split; [cbn; lia|]. intros B' HB1 HB2 HB3.
    destruct (N.eq_dec B' 0) as [->|HB]; [lia|]. exfalso. cbn [map x_step slices] in HB3. unfold x_step in HB3 at 1.
    replace (B' =? 0) with false in HB3 by lia. unfold total in HB3. cbn [sumN] in HB3. rewrite value_cost in HB3.
    pose proof (too_dear (N.min (x_size o) B') quote (x_price o) Hpr ltac:(lia)). lia. }
  assert (Hq0 : cost sd b (x_price o) <> 0).
  { rewrite Esd. pose proof (cost_up b (x_price o)) as [Hc _]. intros E1. rewrite E1 in Hc. nia. }
  assert (Hqq : cost Bid b (x_price o) <= quote).
  { destruct (N.le_gt_cases (cost Bid b (x_price o)) quote) as [|Hgt]; [done|].
    pose proof (cost_up b (x_price o)) as [_ Hc]. assert (Hbp : b <= pays_for quote (x_price o)) by lia. unfold pays_for in Hbp.
    change (2 ^ 32) with W in Hbp. pose proof (N.mul_div_le (quote * W) (x_price o) ltac:(lia)).
    assert (quote + 1 <= cost Bid b (x_price o)) by lia. nia. }
  destruct (trade_round n base quote o os b Ha Hpo Hw eq_refl Hb0 Hq0) as [E|E]; rewrite E in H; [done|]. clear E.
  cbn zeta in H. cbn [map]. change (x_step o) with (x_size o, x_price o). destruct (N.eq_dec b (x_size o)) as [Hb|Hb].
  - replace (x_size o - b <? r_min r) with true in H by lia.
    destruct (trade n (base - b) _ os) as [ns' rr] eqn:Et. cbn [fst snd] in H. injection H as <- ->.
    apply IH in Et; [|done..]. cbn zeta in Et |- *. set (L := xladder n os) in *. destruct Et as (I1&I2&I3&I4&I5&I6).
    cbn [app sumN n_base n_quote n_deals flat_map]. rewrite !N.add_0_l, Hio, Hb, Esd in *. set (B := sumN n_base ns') in *.
    rewrite (slices_full B) by done. fold (n_deals ns').
    split; [by rewrite I1|]. split; [unfold total; cbn [sumN]; rewrite value_cost; unfold total in I2; lia|]. split; [lia|].
    split; [cbn [depth sumN fst]; unfold depth in I4; lia|]. split; [lia|].
    intros B' HB1 HB2 HB3. destruct (N.le_gt_cases B' (x_size o)) as [|Hgt]; [lia|].
    replace B' with (x_size o + (B' - x_size o)) in HB3 by lia. rewrite slices_full in HB3 by done.
    unfold total in HB3. cbn [sumN] in HB3. rewrite value_cost in HB3.
    specialize (I6 (B' - x_size o) ltac:(lia) ltac:(cbn [depth sumN fst] in HB2; unfold depth; lia)). unfold total in I6. lia.
  - assert (Hdead : base - b = 0 \/ pays_for (quote - cost sd b (x_price o)) (x_price o) = 0).
    { destruct (N.le_gt_cases base (pays_for quote (x_price o))) as [|Hlt]; [left; lia|]. right.
      rewrite Esd. apply paid_out; [done|lia]. }
    assert (Hend : forall n ms', (exists os', ms' = os \/ ms' = mk_xorder (x_price o) (x_time o) os' (x_owner o) :: os) ->
      exists f, trade n (base - b) (quote - cost sd b (x_price o)) ms' = ([], Some (base - b, quote - cost sd b (x_price o), ms', f))).
    { intros n' ms' Hms. apply trade_dead. destruct Hdead as [?|Hzz]; [by left|]. right.
      assert (F : Forall (fun o0 => pays_for (quote - cost sd b (x_price o)) (x_price o0) = 0) os).
      { eapply Forall_impl; [exact Hd|]. rewrite Esd. cbn [dearer]. intros o' Ho'.
        assert (pays_for (quote - cost Bid b (x_price o)) (x_price o') <= pays_for (quote - cost Bid b (x_price o)) (x_price o)); [|rewrite Esd in Hzz; lia].
        unfold pays_for. apply N.div_le_compat_l. lia. }
      destruct Hms as (os'&[-> | ->]); [done|]. constructor; done. }
    assert (Hone : n_deals ns = [(b, x_price o)] /\ sumN n_base ns = b /\ sumN n_quote ns = cost Bid b (x_price o)).
    { destruct (x_size o - b <? r_min r).
      - destruct (Hend n os ltac:(exists 0; by left)) as (f'&Et). rewrite Et in H. cbn [fst snd] in H.
        injection H as <- _ _ _ _. cbn [app n_deals flat_map sumN n_base n_quote]. rewrite Hio, Esd. repeat split; lia.
      - destruct (Hend n _ ltac:(exists (x_size o - b); right; reflexivity)) as (f'&Et). rewrite Et in H. cbn [fst snd] in H.
        injection H as <- _ _ _ _. cbn [app n_deals flat_map sumN n_base n_quote]. rewrite Hio, Esd. repeat split; lia. }
    destruct Hone as (->&->&->). cbn zeta. rewrite slices_part by lia. unfold total at 1. cbn [sumN]. rewrite value_cost.
    split; [done|]. split; [lia|]. split; [lia|]. split; [cbn [depth sumN fst]; lia|]. split; [lia|].
    intros B' HB1 HB2 HB3. destruct (N.le_gt_cases B' b) as [|Hgt]; [done|]. exfalso.
    cbn [slices] in HB3. replace (B' =? 0) with false in HB3 by lia. unfold total in HB3. cbn [sumN] in HB3. rewrite value_cost in HB3.
    pose proof (too_dear (N.min (x_size o) B') quote (x_price o) Hpr ltac:(lia)). lia.
Qed.

(** A seller who is not limited in quote units. *)
Lemma trade_sell : sd = Ask -> post_only p = false -> 0 < r_min r -> forall n base quote ms ns b1 q1 ms1 f,
  trade n base quote ms = (ns, Some (b1, q1, ms1, f)) -> ranked sd ms -> Forall (fun o => 0 < x_price o) ms ->
  Forall (fun o => 0 < x_size o) ms -> Forall (fun o => x_id (opposite sd) o / 2 ^ 64 = x_price o) ms ->
  Forall (fun o => acceptable p o = true -> withdrawn same_id p o = false) ms ->
  sumN (fun o => cost Bid (x_size o) (x_price o)) ms <= quote ->
  let S := worth_selling (slices base (xladder n ms)) in
  n_deals ns = S /\ sumN n_base ns = depth S /\ sumN n_quote ns = total Ask S.
Proof.
  intros Esd Hpo Hmin. induction n as [|n IH]; intros base quote ms ns b1 q1 ms1 f H Hr Hp Hz Hid Hown Hq.
  { cbn in H. injection H as <- <- <- <- <-. by rewrite take_0. }
  destruct ms as [|o os]; [cbn in H; injection H as <- <- <- <- <-; cbn [List.filter]; by rewrite take_nil|].
  destruct Hr as [Hd Hr]. inversion Hp as [|?? Hpr Hp']; inversion Hz as [|?? Hsz Hz']; inversion Hid as [|?? Hio Hid'];
    inversion Hown as [|?? Ho Hown']; subst.
  destruct (acceptable p o) eqn:Ha; cycle 1.
  { cbn [ExchangeSpec.trade] in H. rewrite Ha in H. cbn [negb] in H. injection H as <- <- <- <- <-.
    cbn [List.filter]. by rewrite Ha, (unacceptable o os Ha Hd), take_nil. }
  cbn [List.filter]. rewrite Ha, firstn_cons. cbn [List.filter]. specialize (Ho eq_refl). rewrite Ho. cbn [negb map].
  change (x_step o) with (x_size o, x_price o). cbn [sumN] in Hq.
  assert (Hpay : x_size o <= pays_for quote (x_price o)).
  { unfold pays_for. apply N.div_le_lower_bound; [lia|]. change (2 ^ 32) with W. pose proof (cost_up (x_size o) (x_price o)) as [Hc _]. nia. }
  assert (Eb : N.min (N.min (x_size o) base) (pays_for quote (x_price o)) = N.min (x_size o) base) by lia.
  set (b := N.min (x_size o) base) in *. cbn [slices]. fold b.
  destruct (base =? 0) eqn:E0.
  { assert (Hb0 : b = 0) by lia. cbn [ExchangeSpec.trade] in H. rewrite Ha, Hpo in H. cbn [negb orb] in H. fold b in H. rewrite Eb, Hb0 in H. cbn [N.eqb orb] in H.
    injection H as <- <- <- <- <-. done. }
  assert (Hb0 : b <> 0) by lia. cbn [worth_selling]. rewrite value_cost. destruct (cost Ask b (x_price o) =? 0) eqn:Ec.
  { cbn [ExchangeSpec.trade] in H. rewrite Ha, Hpo in H. cbn [negb orb] in H. fold b in H. rewrite Eb, Esd, Ec, orb_true_r in H.
    injection H as <- <- <- <- <-. done. }
  assert (Hq0 : cost sd b (x_price o) <> 0) by (rewrite Esd; lia).
  destruct (trade_round n base quote o os b Ha Hpo Ho (eq_sym Eb) Hb0 Hq0) as [E|E]; rewrite E in H; [done|]. clear E. cbn zeta in H.
  destruct (N.eq_dec b (x_size o)) as [Hb|Hb].
  - replace (x_size o - b <? r_min r) with true in H by lia.
    destruct (trade n (base - b) _ os) as [ns' rr] eqn:Et. cbn [fst snd] in H. injection H as <- ->.
    apply IH in Et; [|done..|].
    2:{ rewrite Esd. pose proof (cost_up (x_size o) (x_price o)). pose proof (cost_down (x_size o) (x_price o)). rewrite Hb. lia. }
    cbn zeta in Et |- *. destruct Et as (I1&I2&I3). cbn [app sumN n_base n_quote n_deals flat_map]. fold (n_deals ns').
    rewrite I1, I2, I3, Hio, Esd. unfold total, depth. cbn [sumN fst]. rewrite value_cost. repeat split; lia.
  - assert (base - b = 0) as Hbb by lia.
    assert (Hone : n_deals ns = [(b, x_price o)] /\ sumN n_base ns = b /\ sumN n_quote ns = cost Ask b (x_price o)).
    { destruct (x_size o - b <? r_min r).
      - destruct (trade_dead same_id r p n (base - b) (quote - cost sd b (x_price o)) os ltac:(by left)) as (f'&Et). rewrite Et in H. cbn [fst snd] in H.
        injection H as <- _ _ _ _. cbn [app n_deals flat_map sumN n_base n_quote]. rewrite Hio, Esd. repeat split; lia.
      - destruct (trade_dead same_id r p n (base - b) (quote - cost sd b (x_price o)) (mk_xorder (x_price o) (x_time o) (x_size o - b) (x_owner o) :: os) ltac:(by left)) as (f'&Et).
        rewrite Et in H. cbn [fst snd] in H.
        injection H as <- _ _ _ _. cbn [app n_deals flat_map sumN n_base n_quote]. rewrite Hio, Esd. repeat split; lia. }
    destruct Hone as (->&->&->). cbn zeta. rewrite Hbb, slices_0. cbn [worth_selling]. unfold total, depth. cbn [sumN fst]. rewrite value_cost. repeat split; lia.
Qed.
End Trade.

(** ** Ladders of price levels *)
Lemma selling_slices b l : Forall (fun s => 0 < fst s) l ->
  worth_selling (slices b l) = slices (depth (worth_selling (slices b l))) l.
Proof.
  intros Hl. revert b. induction Hl as [|[s p] l Hs Hl IH]; intros b; [done|]. cbn [fst] in Hs.
  destruct (N.eq_dec b 0) as [->|Hb]; [by rewrite !slices_0|]. destruct (N.le_gt_cases b s) as [H|H].
  - rewrite (slices_part b s p l) by lia. cbn [worth_selling]. destruct (_ =? 0); [by rewrite slices_0|].
    cbn [depth sumN fst]. rewrite N.add_0_r. by rewrite slices_part by lia.
  - replace b with (s + (b - s)) by lia. rewrite (slices_full _ s p l) by done. cbn [worth_selling].
    destruct (_ =? 0); [by rewrite slices_0|]. cbn [depth sumN fst]. change (sumN fst) with depth.
    rewrite (slices_full _ s p l) by done. f_equal. apply IH.
Qed.

(** Neighbouring steps of the same price are one level. *)
Inductive grouped : list (N * N) -> list (N * N) -> Prop :=
| grouped_nil : grouped [] []
| grouped_one s p l g : grouped l g -> grouped ((s, p) :: l) ((s, p) :: g)
| grouped_more s t p l g : grouped l ((t, p) :: g) -> grouped ((s, p) :: l) ((s + t, p) :: g).
Lemma grouped_depth l g : grouped l g -> depth g = depth l.
Proof. unfold depth. induction 1; cbn [sumN fst] in *; lia. Qed.
Lemma cost_add sd a b p :
  match sd with
  | Bid => cost sd (a + b) p <= cost sd a p + cost sd b p <= cost sd (a + b) p + 1
  | Ask => cost sd a p + cost sd b p <= cost sd (a + b) p <= cost sd a p + cost sd b p + 1
  end.
Proof.
  destruct sd.
  - pose proof (cost_up a p). pose proof (cost_up b p). pose proof (cost_up (a + b) p). nia.
  - pose proof (cost_down a p). pose proof (cost_down b p). pose proof (cost_down (a + b) p). nia.
Qed.
Definition near (sd : side) (l g : list (N * N)) : Prop :=
  let k := N.of_nat (length l) - N.of_nat (length g) in
  (length g <= length l)%nat /\
  match sd with
  | Bid => total Bid g <= total Bid l <= total Bid g + k
  | Ask => total Ask l <= total Ask g <= total Ask l + k
  end.
Lemma near_refl sd l : near sd l l.
Proof. unfold near. split; [lia|]. destruct sd; lia. Qed.
Lemma near_cons sd s l g : near sd l g -> near sd (s :: l) (s :: g).
Proof. unfold near, total. intros [H1 H2]. cbn [length sumN]. split; [lia|]. destruct sd; lia. Qed.
Lemma grouped_near sd l g : grouped l g -> Forall (fun s => 0 < fst s) l -> forall b, near sd (slices b l) (slices b g).
Proof.
  induction 1 as [|s p l g Hg IH|s t p l g Hg IH]; intros Hl b; [apply near_refl|..]; inversion Hl as [|?? Hs Hl']; subst; cbn [fst] in Hs.
  - cbn [slices]. destruct (b =? 0); [apply near_refl|]. by apply near_cons, IH.
  - destruct (N.eq_dec b 0) as [->|Hb0]; [rewrite !slices_0; apply near_refl|].
    destruct (N.le_gt_cases b s) as [H|H]; [rewrite !slices_part by lia; apply near_refl|].
    specialize (IH Hl' (b - s)). replace b with (s + (b - s)) at 1 by lia. rewrite slices_full by done.
    cbn [slices] in IH |- *. replace (b - s =? 0) with false in IH by lia. replace (b =? 0) with false by lia.
    replace (N.min (s + t) b) with (s + N.min t (b - s)) by lia. replace (b - (s + N.min t (b - s))) with (b - s - N.min t (b - s)) by lia.
    set (x := N.min t (b - s)) in *. set (lo := slices (b - s) l) in *. set (hi := slices (b - s - x) g) in *.
    unfold near, total in IH |- *. cbn [length sumN] in IH |- *. rewrite !value_cost in *. destruct IH as [I1 I2]. split; [lia|].
    pose proof (cost_add sd s x p). destruct sd; rewrite ?value_cost in *; lia.
Qed.
Lemma grouped_take l g n : grouped l g -> exists l1 l2, l = l1 ++ l2 /\ grouped l1 (take n g).
Proof.
  intros H. revert n. induction H as [|s p l g Hg IH|s t p l g Hg IH]; intros n.
  - exists [], []. rewrite take_nil. split; [done|constructor].
  - destruct n as [|n]; [exists [], ((s, p) :: l); split; [done|constructor]|]. destruct (IH n) as (l1&l2&->&G).
    exists ((s, p) :: l1), l2. split; [done|]. cbn. by constructor.
  - destruct n as [|n]; [exists [], ((s, p) :: l); split; [done|constructor]|]. destruct (IH (S n)) as (l1&l2&->&G).
    exists ((s, p) :: l1), l2. split; [done|]. cbn in *. by constructor.
Qed.

Lemma levels_group {C} (R : N -> N -> Prop) (os : list (order C)) : (forall a, ~ R a a) -> (forall a b, R a b -> R b a -> False) ->
  forall prices, StronglySorted (fun x y => id_price (o_id x) = id_price (o_id y) \/ R (id_price (o_id x)) (id_price (o_id y))) os ->
  StronglySorted R prices ->
  (forall p, p ∈ prices <-> exists o, o ∈ os /\ id_price (o_id o) = p) ->
  grouped (map step_of os) (map (fun p => (ClientSpec.at_price os p, p)) prices).
Proof.
  intros Hirr Hasym. induction os as [|o os IH]; intros prices Hs Hp Hc.
  { destruct prices as [|p ps]; [constructor|]. destruct (proj1 (Hc p) ltac:(left)) as (o&Ho&_). by apply elem_of_nil in Ho. }
  inversion Hs as [|?? Hs' Hall]; subst. rewrite Forall_forall in Hall. set (po := id_price (o_id o)) in *.
  destruct prices as [|p ps].
  { exfalso. apply (not_elem_of_nil po), Hc. exists o. split; [left|done]. }
  inversion Hp as [|?? Hp' Hall']; subst. rewrite Forall_forall in Hall'.
  assert (p = po) as ->.
  { assert (Hpo : po ∈ p :: ps) by (apply Hc; exists o; split; [left|done]). apply elem_of_cons in Hpo as [->|Hpo]; [done|].
    pose proof (Hall' _ Hpo) as H1. destruct (proj1 (Hc p) ltac:(left)) as (x&Hx&Ex). apply elem_of_cons in Hx as [->|Hx]; [done|].
    destruct (Hall _ Hx) as [H2|H2]; rewrite Ex in H2; [done|]. destruct (Hasym _ _ H1 H2). }
  assert (Hps : forall q, q ∈ ps -> q <> po) by (intros q Hq ->; exact (Hirr _ (Hall' _ Hq))).
  assert (Hat : forall q, q ∈ ps -> ClientSpec.at_price (o :: os) q = ClientSpec.at_price os q).
  { intros q Hq. unfold ClientSpec.at_price. cbn [List.filter]. fold po. specialize (Hps q Hq). by replace (po =? q) with false by lia. }
  assert (Hpo : ClientSpec.at_price (o :: os) po = o_qty o + ClientSpec.at_price os po).
  { unfold ClientSpec.at_price. cbn [List.filter]. fold po. rewrite N.eqb_refl. done. }
  assert (Hmap : map (fun q => (ClientSpec.at_price (o :: os) q, q)) ps = map (fun q => (ClientSpec.at_price os q, q)) ps).
  { apply map_ext_in. intros q Hq. apply elem_of_list_In in Hq. by rewrite Hat. }
  cbn [map]. rewrite Hpo, Hmap. change (step_of o) with (o_qty o, po).
  destruct (existsb (fun x => id_price (o_id x) =? po) os) eqn:Ex.
  - apply existsb_exists in Ex as (x&Hx&Epx). apply elem_of_list_In in Hx. apply grouped_more.
    apply (IH (po :: ps) Hs' Hp). intros q. rewrite Hc. split.
    + intros (y&Hy&<-). apply elem_of_cons in Hy as [->|Hy]; [exists x; split; [done|lia]|by exists y].
    + intros (y&Hy&Eq). exists y. split; [by right|done].
  - assert (Hno : forall x, x ∈ os -> id_price (o_id x) <> po).
    { intros x Hx E. assert (existsb (fun x => id_price (o_id x) =? po) os = true); [|congruence].
      apply existsb_exists. exists x. split; [by apply elem_of_list_In|lia]. }
    assert (ClientSpec.at_price os po = 0) as ->.
    { clear -Hno. unfold ClientSpec.at_price. induction os as [|x os IH]; [done|]. cbn [List.filter].
      specialize (Hno x ltac:(left)) as Hx. replace (id_price (o_id x) =? po) with false by lia. apply IH. intros y Hy. apply Hno. by right. }
    rewrite N.add_0_r. apply grouped_one. apply (IH ps Hs' Hp'). intros q. split.
    + intros Hq. destruct (proj1 (Hc q) ltac:(by right)) as (y&Hy&Ey). apply elem_of_cons in Hy as [->|Hy]; [|by exists y].
      destruct (Hps q Hq). by rewrite <- Ey.
    + intros (y&Hy&Ey). assert (Hq : q ∈ po :: ps) by (apply Hc; exists y; split; [by right|done]).
      apply elem_of_cons in Hq as [->|Hq]; [|done]. destruct (Hno y Hy Ey).
Qed.

(** ** Markets *)
Section Market.
Context {C : Type} (same_id : C -> C -> bool).

Lemma facing_view (m : market C) sd : x_side (view m) (opposite sd) = map (xorder_of (opposite sd)) (facing m sd).
Proof. destruct sd; cbn; [done|]. by rewrite map_rev. Qed.
Lemma ladder_view (m : market C) p :
  map x_step (List.filter (fun o => negb (withdrawn same_id p o))
    (take (N.to_nat (match_limit p)) (List.filter (acceptable p) (x_side (view m) (opposite (p_side p)))))) = ladder same_id m p.
Proof. rewrite facing_view, filter_mapl, firstn_map, filter_mapl, map_map. unfold ladder. done. Qed.
Lemma view_sizes c m sd : reachable same_id c m -> Forall (fun o => 0 < x_size o) (x_side (view m) sd).
Proof.
  intros Hr. destruct (reachable_minv _ _ _ Hr) as (L&pend&Hm&Hsq). destruct (view_minv _ _ _ _ Hm) as (V&_&_).
  rewrite V. apply Forall_map. eapply Forall_impl; [exact (mi_ok _ _ _ _ Hm sd)|].
  intros o Ho. destruct (order_ok_price _ _ _ _ Hsq Ho) as (_&_&_&_&_&_&Hq&_). destruct Hr as ((?&_)&_). cbn. lia.
Qed.
Lemma notices_deals (l : list (event_ref C)) : deals l = n_deals (map notice_of l).
Proof. unfold deals. induction l as [|ev l IH]; [done|]. destruct ev; cbn [map List.filter is_fill n_deals flat_map]; fold (n_deals (map notice_of l)); by rewrite <- IH. Qed.

Lemma accepted_deals c m p sm m' : accepted same_id c m p sm m' -> exists ns b q makers free,
  trade same_id (rules_of c) p (N.to_nat (match_limit p)) (max_base_qty p) (max_quote_qty p) (x_side (view m) (opposite (p_side p))) =
    (ns, Some (b, q, makers, free)) /\
  deals (emitted m m') = n_deals ns /\ sumN fill_base (emitted m m') = sumN n_base ns /\ sumN fill_quote (emitted m m') = sumN n_quote ns.
Proof.
  intros (Hr&Hty&He). destruct (view_new_order _ _ _ _ _ _ Hr Hty He) as (a&Ha&Hrule).
  cbn [answer_of] in Ha. injection Ha as <-. unfold new_order_rule in Hrule. set (sd := p_side p) in *.
  destruct (negb _ || _) in Hrule; [done|].
  destruct (trade same_id _ _ _ _ _ _) as [ns [res|]] eqn:Et; [|by destruct (_ <=? _)%nat in Hrule].
  destruct res as [[[b q] makers] free].
  destruct (if free then _ else _) as [[[n2 posted] own] clock] eqn:Ep.
  destruct (_ <=? _)%nat in Hrule; [|done]. injection Hrule as _ _ _ _ Hv.
  exists ns, b, q, makers, free. split; [done|].
  assert (En : map notice_of (emitted m m') = ns ++ n2).
  { unfold emitted. assert (En : x_notices (view m') = x_notices (view m) ++ ns ++ n2).
    { rewrite <- Hv. by destruct sd. }
    cbn [view x_notices] in En. rewrite <- skipn_map, En. apply drop_app_alt. by rewrite map_length. }
  assert (H0 : sumN n_base n2 = 0 /\ sumN n_quote n2 = 0 /\ n_deals n2 = []).
  { destruct free; [|by injection Ep as <- _ _ _]. revert Ep. unfold post_rest.
    destruct (negb _ || _); [intros Ep; by injection Ep as <- _ _ _|].
    destruct (_ <? _)%nat; [intros Ep; by injection Ep as <- _ _ _|].
    destruct (last _); [|intros Ep; by injection Ep as <- _ _ _].
    destruct (not_worse _ _ _); intros Ep; by injection Ep as <- _ _ _. }
  destruct H0 as (Z1&Z2&Z3). rewrite notices_base, notices_quote, notices_deals, En, !sum_app, Z1, Z2.
  unfold n_deals in *. rewrite flat_map_app, Z3, app_nil_r. split_and!; [done|lia..].
Qed.

Lemma buys c m p sm m' : accepted same_id c m p sm m' -> p_side p = Bid -> post_only p = false ->
  let L := ladder same_id m p in let B := sumN fill_base (emitted m m') in
  deals (emitted m m') = slices B L /\ sumN fill_quote (emitted m m') = total Bid (slices B L) /\
  B <= max_base_qty p /\ B <= depth L /\ sumN fill_quote (emitted m m') <= max_quote_qty p /\
  forall B', B' <= max_base_qty p -> B' <= depth L -> total Bid (slices B' L) <= max_quote_qty p -> B' <= B.
Proof.
  intros H Esd Hpo. pose proof H as (Hr&_). destruct (accepted_deals _ _ _ _ _ H) as (ns&b&q&mk&f&Et&->&->&->).
  pose proof Hr as (Hc&_). assert (Hmin : 0 < r_min (rules_of c)) by (cbn; apply Hc).
  pose proof (trade_buy same_id _ p Esd Hpo Hmin _ _ _ _ _ _ _ _ _ Et (view_ranked _ _ _ _ Hr) (view_prices _ _ _ _ Hr)
    (view_sizes _ _ _ Hr) (view_ids _ _ _ _ Hr)) as G. rewrite ladder_view in G. exact G.
Qed.

Lemma sells c m p sm m' : accepted same_id c m p sm m' -> p_side p = Ask -> post_only p = false ->
  worth Bid m <= max_quote_qty p ->
  (forall o, o ∈ resting m Bid -> within_limit p o = true -> withdraws same_id p o = false) ->
  let S := worth_selling (slices (max_base_qty p) (ladder same_id m p)) in
  deals (emitted m m') = S /\ sumN fill_base (emitted m m') = depth S /\ sumN fill_quote (emitted m m') = total Ask S.
Proof.
  intros H Esd Hpo Hw Hown. pose proof H as (Hr&_). destruct (accepted_deals _ _ _ _ _ H) as (ns&b&q&mk&f&Et&->&->&->).
  pose proof Hr as (Hc&_). assert (Hmin : 0 < r_min (rules_of c)) by (cbn; apply Hc).
  pose proof (trade_sell same_id _ p Esd Hpo Hmin _ _ _ _ _ _ _ _ _ Et (view_ranked _ _ _ _ Hr) (view_prices _ _ _ _ Hr)
    (view_sizes _ _ _ Hr) (view_ids _ _ _ _ Hr)) as G. rewrite ladder_view in G. apply G.
  - rewrite facing_view. apply Forall_map, Forall_forall. intros o Ho Ha. rewrite Esd in Ho. cbn [facing] in Ho.
    apply (Hown o); [by rewrite <- elem_of_reverse, <- rev_alt in Ho || (apply elem_of_list_In; apply elem_of_list_In in Ho; by apply in_rev)|].
    exact Ha.
  - rewrite Esd. cbn [opposite]. by rewrite view_worth.
Qed.

Lemma facing_sorted c m sd : reachable same_id c m ->
  StronglySorted (fun x y => id_price (o_id x) = id_price (o_id y) \/
    (match sd with Bid => N.lt | Ask => N.gt end) (id_price (o_id x)) (id_price (o_id y))) (facing m sd).
Proof.
  intros Hr. pose proof (view_ranked same_id c m sd Hr) as H. rewrite facing_view in H.
  induction (facing m sd) as [|o os IH]; [constructor|]. cbn [map ranked] in H. destruct H as [Hd H]. constructor; [by apply IH|].
  rewrite Forall_map in Hd. eapply Forall_impl; [exact Hd|]. intros x Hx. destruct sd; cbn in *; lia.
Qed.
Lemma facing_sizes c m sd : reachable same_id c m -> Forall (fun s => 0 < fst s) (map step_of (facing m sd)).
Proof.
  intros Hr. pose proof (view_sizes c m (opposite sd) Hr) as H. rewrite facing_view, Forall_map in H. apply Forall_map. exact H.
Qed.
Lemma ladder_facing c m p : reachable same_id c m ->
  (forall o, o ∈ facing m (p_side p) -> within_limit p o = true -> withdraws same_id p o = false) ->
  exists k, map step_of (facing m (p_side p)) = ladder same_id m p ++ k.
Proof.
  intros Hr Hown. pose proof (view_ranked same_id c m (p_side p) Hr) as H. rewrite facing_view in H.
  assert (Hpre : exists k, facing m (p_side p) = List.filter (within_limit p) (facing m (p_side p)) ++ k).
  { clear Hown. induction (facing m (p_side p)) as [|o os IH]; [by exists []|]. cbn [map ranked] in H. destruct H as [Hd H].
    destruct (IH H) as (k&Hk). cbn [List.filter]. destruct (within_limit p o) eqn:Ew.
    - exists k. cbn [app]. by rewrite <- Hk.
    - assert (E : List.filter (within_limit p) os = []).
      { pose proof (unacceptable p (xorder_of (opposite (p_side p)) o) _ Ew Hd) as E. rewrite filter_mapl in E.
        apply map_eq_nil in E. exact E. }
      exists (o :: os). by rewrite E. }
  destruct Hpre as (k&Hk). unfold ladder. set (F := List.filter (within_limit p) (facing m (p_side p))) in *.
  assert (EF : List.filter (fun o => negb (withdraws same_id p o)) (take (N.to_nat (match_limit p)) F) = take (N.to_nat (match_limit p)) F).
  { assert (HF : forall o, o ∈ take (N.to_nat (match_limit p)) F -> withdraws same_id p o = false).
    { intros o Ho. apply elem_of_take in Ho as (i&Ho&_). apply elem_of_list_lookup_2, elem_of_list_In, List.filter_In in Ho as [Ho Hw].
      apply Hown; [by apply elem_of_list_In|done]. }
    induction (take (N.to_nat (match_limit p)) F) as [|o l IH]; [done|]. cbn [List.filter]. rewrite (HF o ltac:(left)). cbn [negb].
    f_equal. apply IH. intros x Hx. apply HF. by right. }
  rewrite EF. exists (map step_of (drop (N.to_nat (match_limit p)) F ++ k)). rewrite <- map_app, app_assoc, take_drop. by rewrite <- Hk.
Qed.

Lemma levels c m p sm m' prices n : accepted same_id c m p sm m' -> post_only p = false ->
  (p_side p = Ask -> worth Bid m <= max_quote_qty p) ->
  (forall o, o ∈ facing m (p_side p) -> within_limit p o = true -> withdraws same_id p o = false) ->
  StronglySorted (match p_side p with Bid => N.lt | Ask => N.gt end) prices ->
  (forall q, q ∈ prices <-> exists o, o ∈ facing m (p_side p) /\ id_price (o_id o) = q) ->
  let g := take n (map (fun q => (ClientSpec.at_price (facing m (p_side p)) q, q)) prices) in
  let B := sumN fill_base (emitted m m') in
  B <= depth g -> near (p_side p) (deals (emitted m m')) (slices B g) /\ sumN fill_quote (emitted m m') = total (p_side p) (deals (emitted m m')).
Proof.
  intros H Hpo Hw Hown Hs Hp g B HB. pose proof H as (Hr&_).
  destruct (ladder_facing c m p Hr Hown) as (k&Hk). pose proof (facing_sizes c m (p_side p) Hr) as Hz.
  assert (Hd : deals (emitted m m') = slices B (ladder same_id m p) /\ B <= depth (ladder same_id m p) /\
    sumN fill_quote (emitted m m') = total (p_side p) (deals (emitted m m'))).
  { destruct (p_side p) eqn:Esd.
    - destruct (buys _ _ _ _ _ H Esd Hpo) as (D1&D2&_&D4&_). rewrite <- D1 in D2. done.
    - destruct (sells _ _ _ _ _ H Esd Hpo (Hw eq_refl)) as (D1&D2&D3).
      { intros o Ho. apply Hown. cbn [facing]. apply elem_of_list_In, in_rev. rewrite rev_involutive. by apply elem_of_list_In. }
      rewrite D1. split; [|split; [|done]].
      + unfold B. rewrite D2. apply selling_slices. rewrite Hk in Hz. by apply Forall_app in Hz as [Hz _].
      + unfold B. rewrite D2. generalize (max_base_qty p). clear. induction (ladder same_id m p) as [|[s q] l IH]; intros b; [done|].
        cbn [slices]. destruct (b =? 0); [cbn; lia|]. cbn [worth_selling]. destruct (_ =? 0); [cbn; lia|].
        specialize (IH (b - N.min s b)). cbn [depth sumN fst] in *. unfold depth in IH. lia. }
  destruct Hd as (D1&D2&D3). split; [|done]. rewrite D1, <- (slices_app B _ k), <- Hk by done.
  pose proof (levels_group (match p_side p with Bid => N.lt | Ask => N.gt end) (facing m (p_side p))
    ltac:(intros x; destruct (p_side p); lia) ltac:(intros x y; destruct (p_side p); lia) prices (facing_sorted c m (p_side p) Hr) Hs Hp) as G.
  destruct (grouped_take _ _ n G) as (l1&l2&E&G1). fold g in G1.
  rewrite E, slices_app by (by rewrite <- (grouped_depth _ _ G1)). apply grouped_near; [done|]. rewrite E in Hz. by apply Forall_app in Hz as [Hz _].
Qed.
End Market.
