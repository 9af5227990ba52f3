(** * BooksProofs.v: every book that fits a market can be built by requests (C83) *)
From Coq Require Import Sorting.Sorted.
From stdpp Require Import list.
From Verif Require Import Machine Critbit EventQueue OrderBook Market Spec MarketProofs MarketFacts HistoryProps
  ExchangeSpec ExchangeProofs NamesSpec NamesProofs DelaySpec DelayProofs BookProofs Engine BooksSpec.
From Coq Require Import ZifyBool ZifyNat ZifyN.

Section Build.
Context {C : Type} (same_id : C -> C -> bool) (c : config C) (Hc : config_ok c).
Notation r := (rules_of c).

(** A book without notices. *)
Definition book_of (L : side -> list (xorder C)) (clock : N) : exchange C := mk_exchange (L Bid) (L Ask) [] clock.
Lemma book_side L clock sd : x_side (book_of L clock) sd = L sd.
Proof. by destruct sd. Qed.
Lemma book_with L sd own clock : with_sides sd own (L (opposite sd)) [] clock =
  book_of (fun s => match sd, s with Bid, Bid | Ask, Ask => own | _, _ => L s end) clock.
Proof. by destruct sd. Qed.

(** The request that puts an order into the book. *)
Definition request (sd : side) (o : xorder C) : params C :=
  mk_params (x_size o) (2 ^ 64 - 1) (x_price o) sd 1 (x_owner o) false true DecrementTake.
Lemma request_rests sd o clock : may_rest c o ->
  resting_of (request sd o) clock = mk_xorder (x_price o) clock (x_size o) (x_owner o).
Proof.
  intros (Hp&_&_&Hv). unfold resting_of, request. cbn. f_equal. apply N.min_l. unfold pays_for.
  apply N.div_le_lower_bound; [lia|]. rewrite N.mul_comm. exact Hv.
Qed.
Lemma request_quiet sd o L clock : may_rest c o -> (length (L sd) < capacity c sd)%nat ->
  (forall z, z ∈ L (opposite sd) -> match sd with Bid => x_price o < x_price z | Ask => x_price z < x_price o end) ->
  quiet r (request sd o) (book_of L clock).
Proof.
  intros Ho Hl Hx. pose proof Ho as (Hp&[k Hk]&Hs&Hv). destruct Hc as (_&Ht&_).
  split_and!; cbn [request limit_price post_allowed match_limit p_side]; rewrite ?book_side; try done.
  - apply orb_false_intro.
    + apply negb_false_iff, N.eqb_eq. cbn. rewrite Hk. apply N.mod_mul. lia.
    + cbn. apply N.ltb_ge. assert (k <> 0) by (intros ->; lia). nia.
  - intros z Hz. assert (Hin : z ∈ L (opposite sd)) by (destruct (L (opposite sd)); [done|]; injection Hz as ->; left).
    apply Hx in Hin. unfold acceptable. cbn. destruct sd; apply N.leb_gt; done.
  - rewrite (request_rests _ _ _ Ho). cbn. lia.
  - cbn. lia.
Qed.

(** Withdrawing the newest order. *)
Lemma join_remove (p : params C) sd (o : xorder C) os : (forall z, z ∈ os -> x_id sd z <> x_id sd o) ->
  List.filter (fun z => negb (x_id sd z =? x_id sd o)) (join p o os) = os.
Proof.
  intros H.
  assert (E : List.filter (fun z => negb (x_id sd z =? x_id sd o)) os = os).
  { clear -H. induction os as [|z os IH]; [done|]. cbn [List.filter].
    rewrite (proj2 (N.eqb_neq _ _)) by (apply H; left). cbn. f_equal. apply IH. intros y Hy. apply H. by right. }
  induction os as [|z os IH]; cbn [join List.filter].
  { by rewrite N.eqb_refl. }
  destruct (not_worse p (x_price o) z).
  - cbn [List.filter] in *. rewrite (proj2 (N.eqb_neq _ _)) in * by (apply H; left). cbn in *.
    f_equal. apply IH; [intros y Hy; apply H; by right|congruence].
  - cbn [List.filter]. rewrite N.eqb_refl. cbn. exact E.
Qed.
Lemma join_find (p : params C) sd (o : xorder C) os : (forall z, z ∈ os -> x_id sd z <> x_id sd o) ->
  List.find (fun z => x_id sd z =? x_id sd o) (join p o os) = Some o.
Proof.
  intros H. induction os as [|z os IH]; cbn [join List.find]; [by rewrite N.eqb_refl|].
  destruct (not_worse p (x_price o) z); cbn [List.find]; [|by rewrite N.eqb_refl].
  rewrite (proj2 (N.eqb_neq _ _)) by (apply H; left). apply IH. intros y Hy. apply H. by right.
Qed.
Lemma filter_none sd id (os : list (xorder C)) : (forall z, z ∈ os -> x_id sd z <> id) ->
  List.filter (fun z => negb (x_id sd z =? id)) os = os.
Proof.
  intros H. induction os as [|z os IH]; [done|]. cbn [List.filter].
  rewrite (proj2 (N.eqb_neq _ _)) by (apply H; left). cbn. f_equal. apply IH. intros y Hy. apply H. by right.
Qed.
Lemma find_none sd id (os : list (xorder C)) : (forall z, z ∈ os -> x_id sd z <> id) ->
  List.find (fun z => x_id sd z =? id) os = None.
Proof.
  intros H. induction os as [|z os IH]; [done|]. cbn [List.find].
  rewrite (proj2 (N.eqb_neq _ _)) by (apply H; left). apply IH. intros y Hy. apply H. by right.
Qed.

Definition past_all (L : side -> list (xorder C)) (clock : N) : Prop := forall sd, early clock (L sd).
Lemma new_ids L clock sd (o : xorder C) s z : past_all L clock -> clock < 2 ^ 63 -> x_time o = clock -> z ∈ L s ->
  x_id s z <> x_id sd o.
Proof.
  intros Hp Hk Ho Hz. pose proof (Hp s) as Hs. unfold early in Hs. rewrite Forall_forall in Hs. apply Hs in Hz.
  destruct (side_cases sd s) as [-> | ->].
  - intros E. apply x_id_time in E as [_ E]; lia.
  - intros E. symmetry in E. revert E. apply x_id_side; lia.
Qed.
(** Placing an order and withdrawing it moves the clock by one and nothing else. *)
Lemma burn L clock sd o : may_rest c o -> quiet r (request sd o) (book_of L clock) -> past_all L clock -> clock < 2 ^ 63 ->
  snd (rule_run same_id r [NewOrder (request sd o); CancelOrder (x_id sd (mk_xorder (x_price o) clock (x_size o) (x_owner o)))]
         (book_of L clock)) = book_of L (clock + 1).
Proof.
  intros Ho Hq Hp Hk. cbn [rule_run rule]. rewrite (quiet_rule _ _ _ _ Hq).
  set (o' := mk_xorder (x_price o) clock (x_size o) (x_owner o)).
  unfold joined. rewrite (request_rests _ _ _ Ho). cbn [p_side request]. rewrite !book_side. cbn [x_notices x_clock book_of]. fold o'.
  assert (Hids : forall s z, z ∈ L s -> x_id s z <> x_id sd o') by (intros s z; by apply (new_ids L clock)).
  set (x := with_sides sd _ _ [] (clock + 1)).
  assert (Hown : x_side x sd = join (request sd o) o' (L sd)) by (by destruct sd).
  assert (Hopp : x_side x (opposite sd) = L (opposite sd)) by (by destruct sd).
  assert (Hlook : x_lookup (x_id sd o') x = Some o').
  { unfold x_lookup, x_find. destruct sd; cbn [opposite] in *.
    - rewrite Hown. by rewrite join_find by (apply Hids).
    - rewrite Hopp, find_none by (apply Hids). rewrite Hown. by rewrite join_find by (apply Hids). }
  assert (Hrem : x_remove (x_id sd o') x = book_of L (clock + 1)).
  { unfold x_remove, book_of. destruct sd; cbn [opposite] in *; rewrite Hown, Hopp; f_equal;
      (rewrite join_remove || rewrite filter_none); try done; apply Hids. }
  cbn [cancel_rule]. rewrite Hlook, Hrem. destruct Ho as (_&_&Hs&Hv).
  replace (0 + x_size o' <? 2 ^ 64) with true by (symmetry; apply N.ltb_lt; cbn; lia).
  replace (0 + x_size o' * x_price o' / 2 ^ 32 <? 2 ^ 64) with true.
  2:{ symmetry. apply N.ltb_lt. rewrite N.add_0_l. apply N.div_lt_upper_bound; [done|]. cbn. lia. }
  done.
Qed.
Lemma rule_run_app a : forall b (x : exchange C), snd (rule_run same_id r (a ++ b) x) = snd (rule_run same_id r b (snd (rule_run same_id r a x))).
Proof.
  induction a as [|o a IH]; intros b x; [done|]. cbn [app rule_run].
  destruct (rule same_id r o x) as [? x1]. specialize (IH b x1).
  destruct (rule_run same_id r (a ++ b) x1), (rule_run same_id r a x1). done.
Qed.

Definition id_ok (o : xorder C) : Prop := x_time o < 2 ^ 63 /\ x_price o < 2 ^ 64.
Lemma id_typed sd (o : xorder C) : id_ok o -> x_id sd o < p128.
Proof. intros [H1 H2]. unfold x_id. change p128 with (2 ^ 64 * 2 ^ 64). destruct sd; nia. Qed.
Lemma request_typed sd o : may_rest c o -> op_typed (NewOrder (request sd o)).
Proof. intros ((_&H1)&_&(_&H2)&_). split; [exact H2|]. split; [done|]. split; [exact H1|done]. Qed.

Lemma burn_many sd o L : may_rest c o -> forall (n : nat) clock,
  quiet r (request sd o) (book_of L clock) -> past_all L clock -> clock + N.of_nat n <= 2 ^ 63 ->
  exists ops, Forall op_typed ops /\ length ops = (2 * n)%nat /\
    snd (rule_run same_id r ops (book_of L clock)) = book_of L (clock + N.of_nat n).
Proof.
  intros Ho. induction n as [|n IH]; intros clock Hq Hp Hk.
  { exists []. rewrite N.add_0_r. done. }
  destruct (IH (clock + 1)) as (ops&T&Hl&E).
  - exact Hq.
  - intros s. eapply early_le; [|apply Hp]. lia.
  - lia.
  - exists ([NewOrder (request sd o); CancelOrder (x_id sd (mk_xorder (x_price o) clock (x_size o) (x_owner o)))] ++ ops).
    split.
    { constructor; [by apply request_typed|]. constructor; [|done].
      cbn. apply id_typed. destruct Ho as (?&_). split; cbn; lia. }
    split; [cbn; lia|]. rewrite rule_run_app.
    rewrite (burn L clock sd o) by (done || lia). rewrite E. f_equal. lia.
Qed.

(** The newest order goes to where it stands. *)
Lemma join_back sd (p : params C) o l1 l2 : p_side p = sd ->
  Forall (fun z => not_worse p (x_price o) z = true) l1 -> Forall (fun z => not_worse p (x_price o) z = false) l2 ->
  join p o (l1 ++ l2) = l1 ++ o :: l2.
Proof.
  intros _ H1 H2. induction H1 as [|z l1 Hz H1 IH]; cbn [app join].
  - destruct H2 as [|z l2 Hz H2]; [done|]. cbn [join]. by rewrite Hz.
  - rewrite Hz. by f_equal.
Qed.
Lemma ss_mid {A} (R : A -> A -> Prop) l1 o l2 : StronglySorted R (l1 ++ o :: l2) ->
  Forall (fun z => R z o) l1 /\ Forall (R o) l2 /\ StronglySorted R (l1 ++ l2).
Proof.
  induction l1 as [|a l1 IH]; cbn [app]; intros H; apply StronglySorted_inv in H as [H1 H2].
  - split; [constructor|]. by split.
  - destruct (IH H1) as (I1&I2&I3). apply Forall_app in H2 as [H2 H3]. apply Forall_cons in H3 as [H3 H4].
    split; [by constructor|]. split; [done|]. constructor; [done|]. apply Forall_app. by split.
Qed.
Lemma max_time : forall (l : list (xorder C)), l <> [] ->
  exists o, o ∈ l /\ forall z, z ∈ l -> x_time z <= x_time o.
Proof.
  induction l as [|a l IH]; [done|]. intros _. destruct l as [|b l].
  { exists a. split; [left|]. intros z Hz. apply elem_of_list_singleton in Hz as ->. lia. }
  destruct IH as (o&Ho&Hmax); [done|]. destruct (N.le_ge_cases (x_time a) (x_time o)) as [Hl|Hl].
  - exists o. split; [by right|]. intros z Hz. apply elem_of_cons in Hz as [-> | Hz]; [done|by apply Hmax].
  - exists a. split; [left|]. intros z Hz. apply elem_of_cons in Hz as [-> | Hz]; [lia|]. apply Hmax in Hz. lia.
Qed.
Lemma sublist_nodup {A} (l k : list A) : sublist l k -> NoDup k -> NoDup l.
Proof.
  induction 1 as [|x l k H IH|x l k H IH]; intros Hn; [constructor|..]; apply NoDup_cons in Hn as [Hx Hn].
  - apply NoDup_cons. split; [|by apply IH]. intros Hin. apply Hx. eapply elem_of_submseteq; [exact Hin|]. by apply sublist_submseteq.
  - by apply IH.
Qed.

Definition sides (bids asks : list (xorder C)) (sd : side) : list (xorder C) := match sd with Bid => bids | Ask => asks end.
(** [fits], side by side. *)
Definition fitsL (L : side -> list (xorder C)) : Prop :=
  (forall sd, (length (L sd) <= capacity c sd)%nat /\ Forall (may_rest c) (L sd) /\ StronglySorted (stands_before sd) (L sd)) /\
  NoDup (map x_time (L Bid) ++ map x_time (L Ask)) /\
  (forall b a, b ∈ L Bid -> a ∈ L Ask -> x_price b < x_price a).
Lemma fits_sides bids asks : fits c bids asks <-> fitsL (sides bids asks).
Proof.
  unfold fits, fitsL. split.
  - intros (A1&A2&A3&A4&A5&A6&A7&A8). split; [|done]. intros []; by split_and!.
  - intros (A&A7&A8). destruct (A Bid) as (?&?&?), (A Ask) as (?&?&?). by split_and!.
Qed.

Definition without (sd : side) (own : list (xorder C)) (L : side -> list (xorder C)) : side -> list (xorder C) :=
  fun s => match sd, s with Bid, Bid | Ask, Ask => own | _, _ => L s end.
Lemma without_own sd own L : without sd own L sd = own.
Proof. by destruct sd. Qed.
Lemma without_opp sd own L : without sd own L (opposite sd) = L (opposite sd).
Proof. by destruct sd. Qed.
Lemma nodup_without sd l1 o l2 L : L sd = l1 ++ o :: l2 -> NoDup (map x_time (L Bid) ++ map x_time (L Ask)) ->
  NoDup (map x_time (without sd (l1 ++ l2) L Bid) ++ map x_time (without sd (l1 ++ l2) L Ask)) /\
  (forall s z, z ∈ without sd (l1 ++ l2) L s -> x_time z <> x_time o).
Proof.
  intros E H.
  assert (P : map x_time (L Bid) ++ map x_time (L Ask) ≡ₚ
    x_time o :: (map x_time (without sd (l1 ++ l2) L Bid) ++ map x_time (without sd (l1 ++ l2) L Ask))).
  { destruct sd; cbn [without]; rewrite E, !map_app; cbn [map]; solve_Permutation. }
  rewrite P in H. apply NoDup_cons in H as [Hni H]. split; [done|]. intros s z Hz Ez. apply Hni. rewrite <- Ez.
  apply elem_of_app. destruct s; [left|right]; by apply (elem_of_list_fmap_1 x_time).
Qed.
Lemma fits_without sd l1 o l2 L : L sd = l1 ++ o :: l2 -> fitsL L -> fitsL (without sd (l1 ++ l2) L).
Proof.
  intros E (A&B&D). split; [|split].
  - intros s. destruct (side_cases sd s) as [-> | ->]; [rewrite without_own|rewrite without_opp; apply A].
    destruct (A sd) as (A1&A2&A3). rewrite E in A1, A2, A3. apply ss_mid in A3 as (_&_&A3).
    apply Forall_app in A2 as [A2 A2']. apply Forall_cons in A2' as [_ A2'].
    rewrite app_length in *. cbn in A1. split; [lia|]. split; [by apply Forall_app|done].
  - by apply (nodup_without _ _ o).
  - intros b a Hb Ha. assert (Hsub : forall s z, z ∈ without sd (l1 ++ l2) L s -> z ∈ L s).
    { intros s z. destruct (side_cases sd s) as [-> | ->]; [rewrite without_own, E|by rewrite without_opp].
      rewrite !elem_of_app, elem_of_cons. tauto. }
    by apply D; apply Hsub.
Qed.
Lemma book_ext L L' k : (forall s, L s = L' s) -> book_of L k = book_of L' k.
Proof. intros H. unfold book_of. by rewrite !H. Qed.

Lemma build : forall n L t, (length (L Bid) + length (L Ask) = n)%nat -> fitsL L -> past_all L t -> t <= 2 ^ 61 ->
  exists ops k, Forall op_typed ops /\ N.of_nat (length ops) <= 2 * k /\ k <= t /\ past_all L k /\
    snd (rule_run same_id r ops opening) = book_of L k.
Proof.
  induction n as [|n IH]; intros L t Hn Hf Hp Ht.
  { exists [], 0. split; [done|]. split; [cbn; lia|]. split; [lia|]. unfold book_of, past_all.
    destruct (L Bid) eqn:E1, (L Ask) eqn:E2; cbn in Hn; try lia. split; [|done].
    intros []; rewrite ?E1, ?E2; constructor. }
  destruct (max_time (L Bid ++ L Ask)) as (o&Ho&Hmax).
  { intros E. apply app_eq_nil in E as [E1 E2]. rewrite E1, E2 in Hn. done. }
  assert (Hsd : exists sd, o ∈ L sd) by (apply elem_of_app in Ho as [?|?]; [by exists Bid|by exists Ask]).
  destruct Hsd as (sd&Hin). apply elem_of_list_split in Hin as (l1&l2&E).
  set (L0 := without sd (l1 ++ l2) L).
  pose proof (fits_without sd l1 o l2 L E Hf) as Hf0. fold L0 in Hf0.
  destruct (nodup_without sd l1 o l2 L E (proj1 (proj2 Hf))) as [_ Hne]. fold L0 in Hne.
  assert (Hsub : forall s z, z ∈ L0 s -> z ∈ L s).
  { intros s z. unfold L0. destruct (side_cases sd s) as [-> | ->]; [rewrite without_own, E|by rewrite without_opp].
    rewrite !elem_of_app, elem_of_cons. tauto. }
  assert (Hp0 : past_all L0 (x_time o)).
  { intros s. apply Forall_forall. intros z Hz. pose proof (Hne s z Hz). apply Hsub in Hz.
    assert (x_time z <= x_time o); [|lia]. apply Hmax. apply elem_of_app. destruct s; [by left|by right]. }
  assert (Hto : x_time o < t).
  { pose proof (Hp sd) as H. unfold early in H. rewrite Forall_forall in H. apply H. rewrite E. apply elem_of_app. right. left. }
  destruct (IH L0 (x_time o)) as (ops&k&T&Hlen&Hk&Hpk&Hrun); [|done|done|lia|].
  { assert (P : L Bid ++ L Ask ≡ₚ o :: (L0 Bid ++ L0 Ask))
      by (unfold L0; destruct sd; cbn [without]; rewrite E; solve_Permutation).
    apply Permutation_length in P. cbn in P. rewrite !app_length in P. lia. }
  assert (Hrest : may_rest c o).
  { destruct Hf as (A&_). destruct (A sd) as (_&A2&_). rewrite E in A2. apply Forall_app in A2 as [_ A2].
    by apply Forall_cons in A2 as [A2 _]. }
  assert (Hq : forall clock, quiet r (request sd o) (book_of L0 clock)).
  { intros clock. apply request_quiet; [done|..].
    - unfold L0. rewrite without_own. destruct Hf as (A&_). destruct (A sd) as (A1&_). rewrite E in A1.
      rewrite app_length in *. cbn in A1. lia.
    - intros z Hz. apply Hsub in Hz. destruct Hf as (_&_&D).
      assert (Hin : o ∈ L sd) by (rewrite E; apply elem_of_app; right; left).
      destruct sd; cbn [opposite] in Hz; by apply D. }
  destruct (burn_many sd o L0 Hrest (N.to_nat (x_time o - k)) k (Hq k)) as (ops1&T1&Hlen1&Hrun1).
  { done. }
  { lia. }
  exists (ops ++ ops1 ++ [NewOrder (request sd o)]), (x_time o + 1).
  split; [rewrite !Forall_app; split_and!; [done|done|]; by repeat constructor; apply request_typed|].
  split; [rewrite !app_length; cbn [length]; lia|]. split; [lia|].
  split.
  { intros s. apply Forall_forall. intros z Hz. assert (x_time z <= x_time o); [|lia].
    apply Hmax. apply elem_of_app. destruct s; [by left|by right]. }
  rewrite !rule_run_app, Hrun, Hrun1. replace (k + N.of_nat (N.to_nat (x_time o - k))) with (x_time o) by lia.
  cbn [rule_run rule]. rewrite (quiet_rule _ _ _ _ (Hq _)). cbn [snd]. unfold joined.
  rewrite (request_rests _ _ _ Hrest). cbn [p_side request]. rewrite !book_side. cbn [x_notices x_clock book_of].
  destruct Hf as (A&_). destruct (A sd) as (_&_&A3). rewrite E in A3. apply ss_mid in A3 as (S1&S2&_).
  unfold L0. rewrite without_own, without_opp.
  replace (mk_xorder (x_price o) (x_time o) (x_size o) (x_owner o)) with o by (by destruct o).
  rewrite (join_back sd _ o l1 l2), <- E, book_with; [|done|..].
  - apply book_ext. intros s. by destruct sd, s.
  - eapply Forall_impl; [exact S1|]. intros z Hz. unfold not_worse, stands_before in *. cbn. destruct sd; lia.
  - rewrite Forall_forall in S2. apply Forall_forall. intros z Hz. pose proof (S2 z Hz) as Hz'.
    assert (Hin : z ∈ L0 sd) by (unfold L0; rewrite without_own; apply elem_of_app; by right).
    pose proof (Hp0 sd) as He. unfold early in He. rewrite Forall_forall in He. apply He in Hin.
    unfold not_worse, stands_before in *. cbn. destruct sd; lia.
Qed.
End Build.

(** ** Nothing else arises *)
Section Only.
Context {C : Type} (same_id : C -> C -> bool) (r : rules).

Definition covered (o : xorder C) : Prop := x_size o * x_price o <= (2 ^ 64 - 1) * 2 ^ 32.
Definition times (x : exchange C) : list N := map x_time (x_bids x) ++ map x_time (x_asks x).
Definition sound (x : exchange C) : Prop :=
  NoDup (times x) /\ Forall (fun t => t < x_clock x) (times x) /\ forall sd, Forall covered (x_side x sd).

Lemma covered_le (o : xorder C) size : size <= x_size o -> covered o -> covered (mk_xorder (x_price o) (x_time o) size (x_owner o)).
Proof. unfold covered. cbn [x_size x_price]. intros H1 H2. etransitivity; [|exact H2]. by apply N.mul_le_mono_r. Qed.
Lemma trade_sound (p : params C) : forall n base quote ms ns b q l free,
  trade same_id r p n base quote ms = (ns, Some (b, q, l, free)) -> Forall covered ms ->
  map x_time l ⊆+ map x_time ms /\ Forall covered l /\ q <= quote.
Proof.
  induction n as [|n IH]; intros base quote ms ns b q l free H Hc; [by injection H as <- <- <- <- <-|].
  destruct ms as [|o os]; [by injection H as <- <- <- <- <-|]. cbn [trade] in H.
  destruct (negb _); [by injection H as <- <- <- <- <-|].
  destruct (_ || _ || _); [by injection H as <- <- <- <- <-|].
  pose proof Hc as Hc0. apply Forall_cons in Hc as [Ho Hos].
  set (bb := N.min _ _) in H.
  assert (Hgo : forall m base' quote' ms', quote' <= quote -> map x_time ms' ⊆+ map x_time (o :: os) -> Forall covered ms' ->
    forall pre, (pre ++ fst (trade same_id r p m base' quote' ms'), snd (trade same_id r p m base' quote' ms')) = (ns, Some (b, q, l, free)) ->
    m = n -> map x_time l ⊆+ map x_time (o :: os) /\ Forall covered l /\ q <= quote).
  { intros m base' quote' ms' Hq Hs Hf pre E ->. destruct (trade same_id r p n base' quote' ms') as [ns' rr] eqn:Et.
    cbn [fst snd] in E. injection E as _ ->. apply IH in Et as (I1&I2&I3); [|done].
    split; [by etransitivity|]. split; [done|]. lia. }
  assert (Hsub : map x_time os ⊆+ map x_time (o :: os)) by (cbn; by apply submseteq_cons).
  assert (Hpart : Forall covered (mk_xorder (x_price o) (x_time o) (x_size o - bb) (x_owner o) :: os))
    by (constructor; [apply covered_le; [lia|done]|done]).
  destruct (stb p), (own_order same_id p o); try done; try (destruct (x_size o - bb <? r_min r));
    (eapply Hgo; [..|exact H|done]); try done; lia.
Qed.
Lemma join_times (p : params C) o os : map x_time (join p o os) ≡ₚ x_time o :: map x_time os.
Proof.
  induction os as [|z os IH]; [done|]. cbn [join]. destruct (not_worse _ _ _); [|done]. cbn [map]. rewrite IH.
  by rewrite Permutation_swap.
Qed.
Lemma join_covered (p : params C) o os : covered o -> Forall covered os -> Forall covered (join p o os).
Proof. intros Ho H. induction H as [|z os Hz H IH]; cbn [join]; [by repeat constructor|]. destruct (not_worse _ _ _); by repeat constructor. Qed.
Lemma removelast_sub {A} (l : list A) : sublist (removelast l) l.
Proof. induction l as [|a l IH]; [done|]. cbn. destruct l; [by apply sublist_cons|]. by apply sublist_skip. Qed.
Lemma map_sublist {A B} (f : A -> B) l k : sublist l k -> sublist (map f l) (map f k).
Proof. induction 1; cbn; by constructor. Qed.
Lemma post_sound (p : params C) clock base quote own ns posted own' clock' : quote <= 2 ^ 64 - 1 -> Forall covered own ->
  post_rest r p clock base quote own = (ns, posted, own', clock') ->
  Forall covered own' /\
  (map x_time own' ⊆+ map x_time own /\ clock <= clock' \/
   map x_time own' ⊆+ clock :: map x_time own /\ clock' = clock + 1).
Proof.
  intros Hq Hc. unfold post_rest. set (size := N.min _ _). destruct (_ || _); [intros [= _ _ <- <-]; split; [done|left; split; [done|lia]]|].
  assert (Ho : covered (mk_xorder (limit_price p) clock size (p_callback p))).
  { unfold covered. cbn [x_size x_price].
    assert (H : size <= pays_for quote (limit_price p)) by apply N.le_min_r. unfold pays_for in H.
    destruct (N.eq_dec (limit_price p) 0) as [->|Hp]; [rewrite N.mul_0_r; lia|].
    apply (N.mul_le_mono_r _ _ (limit_price p)) in H.
    pose proof (N.mul_div_le (quote * 2 ^ 32) (limit_price p) Hp) as Hd. rewrite N.mul_comm in Hd.
    etransitivity; [exact H|]. etransitivity; [exact Hd|]. by apply N.mul_le_mono_r. }
  destruct (length own <? side_room r p)%nat.
  { intros [= _ _ <- <-]. split; [by apply join_covered|]. right. rewrite join_times. done. }
  destruct (last own) as [w|].
  2:{ intros [= _ _ <- <-]. split; [done|]. left. split; [done|lia]. }
  destruct (not_worse _ _ _); intros [= _ _ <- <-]; [split; [done|]; left; split; [done|lia]|].
  split.
  - apply join_covered; [done|]. pose proof (removelast_sub own) as Hs. rewrite Forall_forall in *. intros z Hz. apply Hc.
    eapply elem_of_submseteq; [exact Hz|]. by apply sublist_submseteq.
  - right. rewrite join_times. cbn [x_time]. split; [|done]. apply submseteq_skip, sublist_submseteq, map_sublist, removelast_sub.
Qed.
Lemma nodup_sub {A} (l k : list A) : l ⊆+ k -> NoDup k -> NoDup l.
Proof. intros H Hn. apply submseteq_Permutation in H as (z&P). rewrite P in Hn. by apply NoDup_app in Hn as (?&_). Qed.
Lemma forall_sub {A} (P : A -> Prop) (l k : list A) : l ⊆+ k -> Forall P k -> Forall P l.
Proof. intros H Hf. rewrite Forall_forall in *. intros z Hz. apply Hf. by eapply elem_of_submseteq. Qed.
Lemma times_with sd own opp ns k : times (with_sides sd own opp ns k) ≡ₚ map x_time own ++ map x_time opp.
Proof. destruct sd; unfold times; cbn; [done|apply Permutation_app_comm]. Qed.
Lemma times_side x sd : times x ≡ₚ map x_time (x_side x sd) ++ map x_time (x_side x (opposite sd)).
Proof. destruct sd; unfold times; cbn; [done|apply Permutation_app_comm]. Qed.
Lemma new_sound (p : params C) x : max_quote_qty p < 2 ^ 64 -> sound x -> sound (snd (new_order_rule same_id r p x)).
Proof.
  intros Hq (N1&N2&N3). unfold new_order_rule. destruct (_ || _); [done|].
  destruct (trade same_id r p _ _ _ _) as [n1 [[[[b q] makers] free]|]] eqn:Et; [|done].
  apply trade_sound in Et as (T1&T2&T3); [|apply N3].
  destruct (if free then post_rest r p (x_clock x) b q (x_side x (p_side p)) else ([], None, x_side x (p_side p), x_clock x))
    as [[[n2 posted] own] clock] eqn:Ep.
  assert (Hp : Forall covered own /\
    (map x_time own ⊆+ map x_time (x_side x (p_side p)) /\ x_clock x <= clock \/
     map x_time own ⊆+ x_clock x :: map x_time (x_side x (p_side p)) /\ clock = x_clock x + 1)).
  { destruct free; [eapply post_sound; [|apply N3|exact Ep]; lia|]. injection Ep as <- <- <- <-.
    split; [apply N3|]. left. split; [done|lia]. }
  destruct Hp as (Hc&Hp). destruct (_ <=? _)%nat; [|done]. cbn [snd].
  rewrite (times_side x (p_side p)) in N1, N2.
  split; [|split].
  - rewrite times_with. destruct Hp as [[Hp _]|[Hp _]].
    + eapply nodup_sub; [by apply submseteq_app|]. done.
    + eapply nodup_sub; [apply submseteq_app; [exact Hp|exact T1]|]. cbn. apply NoDup_cons. split; [|done].
      intros Hin. rewrite Forall_forall in N2. apply N2 in Hin. lia.
  - rewrite times_with. replace (x_clock (with_sides _ _ _ _ _)) with clock by (by destruct (p_side p)).
    destruct Hp as [[Hp Hk]|[Hp Hk]].
    + eapply forall_sub; [by apply submseteq_app|]. eapply Forall_impl; [exact N2|]. cbn. lia.
    + eapply forall_sub; [apply submseteq_app; [exact Hp|exact T1]|]. cbn. constructor; [lia|].
      eapply Forall_impl; [exact N2|]. cbn. lia.
  - intros s. destruct (side_cases (p_side p) s) as [-> | ->].
    + by destruct (p_side p).
    + by destruct (p_side p).
Qed.
Lemma filter_sub {A} (f : A -> bool) l : sublist (List.filter f l) l.
Proof. induction l as [|a l IH]; [done|]. cbn. destruct (f a); [by apply sublist_skip|by apply sublist_cons]. Qed.
Lemma remove_sound id x : sound x -> sound (x_remove id x).
Proof.
  intros (N1&N2&N3).
  assert (S : times (x_remove id x) ⊆+ times x).
  { unfold times, x_remove. cbn [x_bids x_asks]. apply submseteq_app; apply sublist_submseteq, map_sublist, filter_sub. }
  split; [by eapply nodup_sub|]. split; [by eapply forall_sub|].
  intros s. eapply forall_sub; [|apply (N3 s)]. apply sublist_submseteq. destruct s; apply filter_sub.
Qed.
Lemma cancel_sound : forall ids base quote x, sound x -> sound (snd (cancel_rule ids base quote x)).
Proof.
  induction ids as [|id ids IH]; intros base quote x Hs; [done|]. cbn [cancel_rule].
  destruct (x_lookup id x); [|done]. destruct (_ && _); [|done]. by apply IH, remove_sound.
Qed.
Lemma rule_sound o x : op_typed o -> sound x -> sound (snd (rule same_id r o x)).
Proof.
  intros Ht Hs. destruct o as [p|id|ids|n]; cbn [rule].
  - destruct Ht as (_&Hq&_). by apply new_sound.
  - unfold all_or_nothing. destruct (fst _); try done. by apply (cancel_sound [id]).
  - unfold all_or_nothing. destruct (fst _); try done. by apply cancel_sound.
  - destruct Hs as (?&?&H). split; [done|]. split; [done|]. intros s. apply (H s).
Qed.
Lemma run_sound : forall os x, Forall op_typed os -> sound x -> sound (snd (rule_run same_id r os x)).
Proof.
  induction os as [|o os IH]; intros x Ht Hs; [done|]. apply Forall_cons in Ht as [Ht Ho]. cbn [rule_run].
  pose proof (rule_sound o x Ht Hs) as H1. destruct (rule same_id r o x) as [a x1]. cbn [snd] in H1.
  specialize (IH x1 Ho H1). by destruct (rule_run same_id r os x1).
Qed.
Lemma opening_sound : sound opening.
Proof. split; [constructor|]. split; [constructor|]. intros []; constructor. Qed.
End Only.

Section Lift.
Context {C : Type} (same_id : C -> C -> bool).

Lemma history_typed c log m : history same_id c log m -> Forall op_typed (map (@en_op C) log).
Proof. induction 1; [constructor|]. rewrite map_app. apply Forall_app. split; [done|]. by repeat constructor. Qed.
Lemma history_of c : forall os : list (op C), Forall op_typed os -> exists log m, history same_id c log m /\ map en_op log = os.
Proof.
  induction os as [|o os IH] using rev_ind; intros Ht; [exists [], (init_market c); split; [constructor|done]|].
  apply Forall_app in Ht as [Ht Ho]. apply Forall_cons in Ho as [Ho _]. destruct (IH Ht) as (log&m&Hh&<-).
  destruct (exec same_id o m) as [res m'] eqn:E. eexists _, m'. split; [by eapply steps_snoc|]. by rewrite map_app.
Qed.
Lemma arises (c : config C) bids asks : config_ok c -> fits c bids asks ->
  Forall (fun o => x_time o < 2 ^ 61) bids -> Forall (fun o => x_time o < 2 ^ 61) asks ->
  exists m, reachable same_id c m /\ x_bids (view m) = bids /\ x_asks (view m) = asks /\ pending m = [].
Proof.
  intros Hc Hf Hb Ha. apply fits_sides in Hf.
  destruct (build same_id c Hc _ (sides bids asks) (2 ^ 61) eq_refl Hf) as (ops&k&T&Hl&Hk&_&Hrun); [by intros []|lia|].
  destruct (history_of c ops T) as (log&m&Hh&<-). rewrite map_length in Hl.
  assert (Hlen : N.of_nat (length log) < p63). { change p63 with (4 * 2 ^ 61). lia. }
  destruct (view_history _ _ _ _ Hc Hh Hlen) as (l&Hv&_). rewrite Hv in Hrun. cbn [snd] in Hrun.
  exists m. split; [split; [done|]; by exists log|]. rewrite Hrun. split; [done|]. split; [done|].
  apply (f_equal x_notices) in Hrun. cbn in Hrun. by destruct (pending m).
Qed.
Lemma only (c : config C) m : reachable same_id c m -> fits c (x_bids (view m)) (x_asks (view m)).
Proof.
  intros Hr. destruct (reachable_minv _ _ _ Hr) as (L&pend&Hm&Hsq). destruct (view_minv _ _ _ _ Hm) as (V&_&Vc).
  pose proof Hr as (Hc&log&Hh&Hlen). destruct (view_history _ _ _ _ Hc Hh Hlen) as (l&Hv&_).
  pose proof (run_sound same_id (rules_of c) _ opening (history_typed _ _ _ Hh) opening_sound) as Hs. rewrite Hv in Hs.
  destruct Hs as (S1&_&S3). cbn [snd] in *.
  change (x_bids (view m)) with (x_side (view m) Bid). change (x_asks (view m)) with (x_side (view m) Ask).
  assert (Hrest : forall sd, Forall (may_rest c) (x_side (view m) sd)).
  { intros sd. pose proof (S3 sd) as Hcov. rewrite V in *. rewrite Forall_forall in *. intros o Ho. pose proof (Hcov o Ho) as Hco.
    apply elem_of_list_fmap in Ho as (y&->&Hy). pose proof (minv_ok _ _ _ _ _ _ Hm Hy) as Hok.
    destruct (order_ok_price _ _ _ _ Hsq Hok) as (E1&E2&E3&_&_&_&E7&_). rewrite E1 in E2, E3.
    split_and!; cbn; try lia; done. }
  assert (Hord : forall sd, StronglySorted (stands_before sd) (x_side (view m) sd)).
  { intros sd. rewrite V. pose proof (minv_sorted _ _ _ _ sd Hm) as Hso. unfold sorted in Hso.
    pose proof (mi_ok _ _ _ _ Hm sd) as Hok.
    induction Hso as [|o os Hso IH Hall]; [constructor|]. apply Forall_cons in Hok as [Ho Hok]. cbn [map]. constructor; [by apply IH|].
    apply Forall_map. rewrite Forall_forall in *. intros y Hy. pose proof (Hall y Hy) as Hlt. pose proof (Hok y Hy) as Hy'.
    pose proof (order_ok_good _ _ _ _ Hsq Ho) as (Go&_). pose proof (order_ok_good _ _ _ _ Hsq Hy') as (Gy&_).
    pose proof (x_id_of sd o Go) as Io. pose proof (x_id_of sd y Gy) as Iy.
    destruct (order_ok_price _ _ _ _ Hsq Ho) as (_&_&_&_&_&_&_&So&_). destruct (order_ok_price _ _ _ _ Hsq Hy') as (_&_&_&_&_&_&_&Sy&_).
    unfold before in Hlt. rewrite <- Io, <- Iy in Hlt. unfold x_id, stands_before in *.
    change (x_time (xorder_of sd o)) with (id_seq sd (o_id o)) in *. change (x_time (xorder_of sd y)) with (id_seq sd (o_id y)) in *.
    destruct sd; lia. }
  assert (Hcap : forall sd, (length (x_side (view m) sd) <= capacity c sd)%nat).
  { intros sd. rewrite V, map_length. etransitivity; [eapply lrep_le, (mi_rep _ _ _ _ Hm sd)|].
    rewrite (mi_caps _ _ _ _ Hm sd). by destruct sd. }
  split_and!; try done; [apply (Hcap Bid)|apply (Hcap Ask)|].
  intros b a Hb Ha. rewrite V in Hb, Ha. apply elem_of_list_fmap in Hb as (y&->&Hy). apply elem_of_list_fmap in Ha as (z&->&Hz).
  pose proof (mi_unc _ _ _ _ Hm y z Hy Hz) as Hlt.
  destruct (order_ok_price _ _ _ _ Hsq (minv_ok _ _ _ _ _ _ Hm Hy)) as (E1&_). destruct (order_ok_price _ _ _ _ Hsq (minv_ok _ _ _ _ _ _ Hm Hz)) as (E2&_).
  cbn. by rewrite <- E1, <- E2.
Qed.
End Lift.
