(** * NamesProofs.v: the rules do not look at arrival numbers (C79) *)
From Verif Require Import Machine Critbit EventQueue OrderBook Market Spec MarketProofs MarketFacts HistoryProps
  ExchangeSpec ExchangeProofs NamesSpec.
From Coq Require Import ZifyBool ZifyNat ZifyN.

Lemma renames_le c c' t : renames c t -> c <= c' -> renames c' t.
Proof.
  intros (H1&H2&H3) Hc. split_and!; [done| |intros; apply H3; lia].
  intros a Ha. destruct (N.lt_ge_cases a c) as [Hl|Hl]; [specialize (H2 a Hl); lia|by rewrite H3].
Qed.
Lemma renames_swap c : renames (c + 2) (swap c (c + 1)).
Proof.
  unfold swap. split_and!.
  - intros a b. destruct (N.eqb_spec a c), (N.eqb_spec a (c + 1)), (N.eqb_spec b c), (N.eqb_spec b (c + 1)); lia.
  - intros a. destruct (N.eqb_spec a c), (N.eqb_spec a (c + 1)); lia.
  - intros a. destruct (N.eqb_spec a c), (N.eqb_spec a (c + 1)); lia.
Qed.

Lemma div_low a b : b < 2 ^ 64 -> (a * 2 ^ 64 + b) / 2 ^ 64 = a.
Proof. intros H. symmetry. apply (N.div_unique _ _ _ b); lia. Qed.
Lemma mod_low a b : b < 2 ^ 64 -> (a * 2 ^ 64 + b) mod 2 ^ 64 = b.
Proof. intros H. symmetry. apply (N.mod_unique _ _ a); lia. Qed.

Section Names.
Context {C : Type} (same_id : C -> C -> bool) (t : N -> N).

Lemma renames_small c : renames c t -> c <= 2 ^ 63 -> forall a, a < 2 ^ 63 -> t a < 2 ^ 63.
Proof. intros Hr Hc a Ha. by apply (renames_le _ _ _ Hr Hc). Qed.

Lemma rename_x_id c sd (o : xorder C) : renames c t -> c <= 2 ^ 63 -> x_time o < 2 ^ 63 ->
  rename_id t (x_id sd o) = x_id sd (rename_order t o).
Proof.
  intros Hr Hc Ho. pose proof (renames_small c Hr Hc _ Ho) as Ht.
  unfold rename_id, x_id, rename_order. cbn [x_price x_time].
  destruct sd; rewrite div_low, mod_low by lia.
  - destruct (2 ^ 64 - 1 - x_time o <? 2 ^ 63) eqn:E; [lia|]. do 3 f_equal. f_equal. lia.
  - destruct (x_time o <? 2 ^ 63) eqn:E; [done|lia].
Qed.

Lemma rename_id_inj c a b : renames c t -> c <= 2 ^ 63 -> rename_id t a = rename_id t b -> a = b.
Proof.
  intros Hr Hc. unfold rename_id.
  pose proof (N.div_mod a (2 ^ 64) ltac:(done)) as Ea. pose proof (N.div_mod b (2 ^ 64) ltac:(done)) as Eb.
  pose proof (N.mod_lt a (2 ^ 64) ltac:(done)) as La. pose proof (N.mod_lt b (2 ^ 64) ltac:(done)) as Lb.
  set (ha := a / 2 ^ 64) in *. set (hb := b / 2 ^ 64) in *.
  set (la := a mod 2 ^ 64) in *. set (lb := b mod 2 ^ 64) in *.
  pose proof (renames_small c Hr Hc) as Ht. destruct Hr as (Hi&_&_).
  assert (Hlow : forall l, l < 2 ^ 64 ->
    (if l <? 2 ^ 63 then t l else 2 ^ 64 - 1 - t (2 ^ 64 - 1 - l)) < 2 ^ 64).
  { intros l Hl. destruct (N.ltb_spec l (2 ^ 63)); [specialize (Ht l ltac:(lia)); lia|lia]. }
  intros E. pose proof (Hlow la La) as Ha. pose proof (Hlow lb Lb) as Hb.
  match type of E with ha * _ + ?x = hb * _ + ?y => set (xa := x) in *; set (xb := y) in * end.
  assert (Eh : ha = hb) by (rewrite <- (div_low ha xa), <- (div_low hb xb) by lia; by rewrite E).
  assert (El : xa = xb) by lia. subst xa xb.
  assert (la = lb); [|lia].
  destruct (N.ltb_spec la (2 ^ 63)), (N.ltb_spec lb (2 ^ 63)).
  - by apply Hi.
  - pose proof (Ht la ltac:(lia)). pose proof (Ht (2 ^ 64 - 1 - lb) ltac:(lia)). lia.
  - pose proof (Ht lb ltac:(lia)). pose proof (Ht (2 ^ 64 - 1 - la) ltac:(lia)). lia.
  - pose proof (Ht (2 ^ 64 - 1 - la) ltac:(lia)). pose proof (Ht (2 ^ 64 - 1 - lb) ltac:(lia)).
    assert (2 ^ 64 - 1 - la = 2 ^ 64 - 1 - lb) by (apply Hi; lia). lia.
Qed.

Lemma rename_id_bound c id : renames c t -> c <= 2 ^ 63 -> id < 2 ^ 128 -> rename_id t id < 2 ^ 128.
Proof.
  intros Hr Hc Hid. unfold rename_id. pose proof (N.mod_lt id (2 ^ 64) ltac:(done)) as La.
  assert (Hd : id / 2 ^ 64 < 2 ^ 64) by (apply N.div_lt_upper_bound; lia).
  pose proof (renames_small c Hr Hc) as Ht.
  destruct (N.ltb_spec (id mod 2 ^ 64) (2 ^ 63)) as [Hl|Hl]; [specialize (Ht _ Hl); lia|lia].
Qed.

Definition early (clock : N) (os : list (xorder C)) : Prop := Forall (fun o => x_time o < clock) os.

(** ** Trading *)
Lemma trade_rename c r p : renames c t -> c <= 2 ^ 63 -> forall n base quote os, early c os ->
  trade same_id r p n base quote (map (rename_order t) os) =
  let '(ns, res) := trade same_id r p n base quote os in
  (map (rename_notice t) ns,
   option_map (fun '(b, q, l, free) => (b, q, map (rename_order t) l, free)) res).
Proof.
  intros Hr Hc. induction n as [|n IH]; intros base quote os Ho; [done|].
  destruct os as [|o os]; [done|]. apply Forall_cons in Ho as [Ho Hos].
  cbn [map trade]. rewrite <- (rename_x_id c) by (done || (cbn; lia)).
  change (x_price (rename_order t o)) with (x_price o). change (x_size (rename_order t o)) with (x_size o).
  change (x_owner (rename_order t o)) with (x_owner o).
  change (acceptable p (rename_order t o)) with (acceptable p o).
  change (own_order same_id p (rename_order t o)) with (own_order same_id p o).
  destruct (negb (acceptable p o)); [done|].
  match goal with |- context [if post_only p || ?a || ?b then _ else _] => destruct (post_only p || a || b) end; [done|].
  set (b := N.min (N.min (x_size o) base) (pays_for quote (x_price o))).
  set (q := cost (p_side p) b (x_price o)).
  assert (Hrest : trade same_id r p n (base - b) (quote - q) (map (rename_order t) os) =
    let '(ns, res) := trade same_id r p n (base - b) (quote - q) os in
    (map (rename_notice t) ns,
     option_map (fun '(b, q, l, free) => (b, q, map (rename_order t) l, free)) res)) by by apply IH.
  assert (Hleft : trade same_id r p n (base - b) (quote - q)
      (mk_xorder (x_price o) (x_time (rename_order t o)) (x_size o - b) (x_owner o) :: map (rename_order t) os) =
    let '(ns, res) := trade same_id r p n (base - b) (quote - q)
      (mk_xorder (x_price o) (x_time o) (x_size o - b) (x_owner o) :: os) in
    (map (rename_notice t) ns,
     option_map (fun '(b, q, l, free) => (b, q, map (rename_order t) l, free)) res)).
  { rewrite <- IH by (constructor; done). done. }
  assert (Hcp : trade same_id r p n base quote (map (rename_order t) os) =
    let '(ns, res) := trade same_id r p n base quote os in
    (map (rename_notice t) ns,
     option_map (fun '(b, q, l, free) => (b, q, map (rename_order t) l, free)) res)) by by apply IH.
  rewrite Hrest, Hleft, Hcp. clear.
  destruct (stb p), (own_order same_id p o); try done;
    destruct (x_size o - b <? r_min r);
    repeat match goal with |- context [trade same_id r p n ?a ?b ?l] => destruct (trade same_id r p n a b l) as [??] end;
    done.
Qed.

(** ** Joining the book *)
Lemma join_rename p (o : xorder C) os : join p (rename_order t o) (map (rename_order t) os) = map (rename_order t) (join p o os).
Proof.
  induction os as [|x os IH]; [done|]. cbn [map join].
  change (x_price (rename_order t o)) with (x_price o). change (not_worse p (x_price o) (rename_order t x)) with (not_worse p (x_price o) x).
  destruct (not_worse p (x_price o) x); [|done]. cbn [map]. by rewrite IH.
Qed.

Lemma post_rename r (p : params C) clock base quote own : renames clock t -> clock < 2 ^ 63 -> early clock own ->
  post_rest r p clock base quote (map (rename_order t) own) =
  let '(ns, posted, own', clock') := post_rest r p clock base quote own in
  (map (rename_notice t) ns, posted, map (rename_order t) own', clock').
Proof.
  intros Hr Hc Ho. unfold post_rest.
  destruct (negb (post_allowed p) || _); [done|]. rewrite map_length.
  set (o := mk_xorder (limit_price p) clock _ (p_callback p)).
  assert (Eo : rename_order t o = o).
  { unfold rename_order, o. cbn [x_price x_time x_size x_owner]. destruct Hr as (_&_&Hr). by rewrite Hr. }
  assert (Ej : forall l, join p o (map (rename_order t) l) = map (rename_order t) (join p o l)).
  { intros l. by rewrite <- join_rename, Eo. }
  destruct (length own <? side_room r p)%nat; [by rewrite Ej|].
  rewrite last_map. destruct (last own) as [w|] eqn:Hw; [|done]. cbn [fmap option_fmap option_map].
  change (not_worse p (limit_price p) (rename_order t w)) with (not_worse p (limit_price p) w).
  destruct (not_worse p (limit_price p) w); [done|].
  rewrite removelast_map, Ej. cbn [map rename_notice]. rewrite (rename_x_id clock); [done|done|lia|].
  apply last_Some_elem_of in Hw. unfold early in Ho. rewrite Forall_forall in Ho. specialize (Ho w Hw). lia.
Qed.

(** ** One request *)
Definition times_ok (x : exchange C) : Prop :=
  x_clock x < 2 ^ 63 /\ early (x_clock x) (x_bids x) /\ early (x_clock x) (x_asks x).
Lemma side_rename (x : exchange C) sd : x_side (rename_exchange t x) sd = map (rename_order t) (x_side x sd).
Proof. by destruct sd. Qed.
Lemma times_side (x : exchange C) sd : times_ok x -> early (x_clock x) (x_side x sd).
Proof. intros (_&H1&H2). by destruct sd. Qed.

Lemma new_rename r p (x : exchange C) : times_ok x -> renames (x_clock x) t ->
  new_order_rule same_id r p (rename_exchange t x) =
  let '(a, x') := new_order_rule same_id r p x in (a, rename_exchange t x').
Proof.
  intros Hx Hr. pose proof Hx as (Hc&_&_). unfold new_order_rule.
  destruct (negb _ || _); [done|]. rewrite !side_rename.
  change (x_clock (rename_exchange t x)) with (x_clock x).
  rewrite (trade_rename (x_clock x)) by (done || lia || by apply times_side).
  destruct (trade same_id r p _ _ _ _) as [n1 [[[[base quote] makers] free]|]]; cbn [option_map].
  2:{ change (x_notices (rename_exchange t x)) with (map (rename_notice t) (x_notices x)). rewrite !map_length.
      by destruct (_ <=? _)%nat. }
  set (f := if free then post_rest r p (x_clock x) base quote (map (rename_order t) (x_side x (p_side p)))
            else ([], None, map (rename_order t) (x_side x (p_side p)), x_clock x)).
  assert (Ef : f = let '(ns, posted, own', clock') :=
      if free then post_rest r p (x_clock x) base quote (x_side x (p_side p)) else ([], None, x_side x (p_side p), x_clock x) in
    (map (rename_notice t) ns, posted, map (rename_order t) own', clock')).
  { unfold f. destruct free; [|done]. apply post_rename; [done..|by apply times_side]. }
  rewrite Ef. clear f Ef.
  destruct (if free then post_rest r p (x_clock x) base quote (x_side x (p_side p)) else _) as [[[n2 posted] own] clock].
  change (x_notices (rename_exchange t x)) with (map (rename_notice t) (x_notices x)).
  rewrite <- map_app, !map_length. destruct (_ <=? _)%nat; [|done]. f_equal.
  unfold rename_exchange, with_sides. rewrite <- map_app. by destruct (p_side p).
Qed.

Lemma find_rename c sd id (os : list (xorder C)) : renames c t -> c <= 2 ^ 63 -> early c os ->
  List.find (fun o => x_id sd o =? rename_id t id) (map (rename_order t) os) =
  option_map (rename_order t) (List.find (fun o => x_id sd o =? id) os).
Proof.
  intros Hr Hc Ho. induction Ho as [|o os Ho Hos IH]; [done|]. cbn [map List.find].
  rewrite <- (rename_x_id c) by (done || lia).
  destruct (N.eqb_spec (x_id sd o) id) as [->|Hn]; [by rewrite N.eqb_refl|].
  destruct (N.eqb_spec (rename_id t (x_id sd o)) (rename_id t id)) as [E|_]; [|exact IH].
  by apply (rename_id_inj c) in E.
Qed.
Lemma filter_rename c sd id (os : list (xorder C)) : renames c t -> c <= 2 ^ 63 -> early c os ->
  List.filter (fun o => negb (x_id sd o =? rename_id t id)) (map (rename_order t) os) =
  map (rename_order t) (List.filter (fun o => negb (x_id sd o =? id)) os).
Proof.
  intros Hr Hc Ho. induction Ho as [|o os Ho Hos IH]; [done|]. cbn [map List.filter].
  rewrite <- (rename_x_id c) by (done || lia). rewrite IH.
  destruct (N.eqb_spec (x_id sd o) id) as [->|Hn]; [by rewrite N.eqb_refl|].
  destruct (N.eqb_spec (rename_id t (x_id sd o)) (rename_id t id)) as [E|_]; [|done].
  by apply (rename_id_inj c) in E.
Qed.
Lemma early_filter c f (os : list (xorder C)) : early c os -> early c (List.filter f os).
Proof.
  intros H. induction H as [|o os Ho Hos IH]; [constructor|]. cbn. destruct (f o); [by constructor|done].
Qed.

Lemma cancel_rename : forall ids base quote (x : exchange C), times_ok x -> renames (x_clock x) t ->
  cancel_rule (map (rename_id t) ids) base quote (rename_exchange t x) =
  let '(a, x') := cancel_rule ids base quote x in (a, rename_exchange t x').
Proof.
  induction ids as [|id ids IH]; intros base quote x Hx Hr; [done|]. cbn [map cancel_rule].
  pose proof Hx as (Hc&Hb&Ha).
  assert (El : x_lookup (rename_id t id) (rename_exchange t x) = option_map (rename_order t) (x_lookup id x)).
  { unfold x_lookup, x_find. rewrite !side_rename.
    rewrite !(find_rename (x_clock x)) by (done || lia || by apply times_side).
    by destruct (List.find _ (x_side x Bid)). }
  rewrite El. destruct (x_lookup id x) as [o|]; cbn [option_map]; [|done].
  change (x_size (rename_order t o)) with (x_size o). change (x_price (rename_order t o)) with (x_price o).
  destruct (_ && _); [|done].
  assert (Er : x_remove (rename_id t id) (rename_exchange t x) = rename_exchange t (x_remove id x)).
  { unfold x_remove. rewrite !side_rename.
    rewrite !(filter_rename (x_clock x)) by (done || lia || by apply times_side). done. }
  rewrite Er. apply IH; [|done]. split_and!; [done|by apply early_filter..].
Qed.

Lemma rule_rename r o (x : exchange C) : times_ok x -> renames (x_clock x) t ->
  rule same_id r (rename_op t o) (rename_exchange t x) =
  let '(a, x') := rule same_id r o x in (a, rename_exchange t x').
Proof.
  intros Hx Hr. destruct o as [p|id|ids|n]; cbn [rename_op rule].
  - by apply new_rename.
  - change [rename_id t id] with (map (rename_id t) [id]). unfold all_or_nothing.
    rewrite cancel_rename by done. destruct (cancel_rule [id] 0 0 x) as [a x']. cbn [fst]. by destruct a.
  - unfold all_or_nothing.
    rewrite cancel_rename by done. destruct (cancel_rule ids 0 0 x) as [a x']. cbn [fst]. by destruct a.
  - unfold rename_exchange. cbn [x_notices x_bids x_asks x_clock]. by rewrite <- skipn_map.
Qed.
End Names.

(** ** Two orders that join the book without trading *)
Section Quiet.
Context {C : Type} (same_id : C -> C -> bool) (r : rules).

(** The order that [p] puts into the book at time [clock]. *)
Definition resting_of (p : params C) (clock : N) : xorder C :=
  mk_xorder (limit_price p) clock (N.min (max_base_qty p) (pays_for (max_quote_qty p) (limit_price p))) (p_callback p).
Definition joined (p : params C) (x : exchange C) : exchange C :=
  with_sides (p_side p) (join p (resting_of p (x_clock x)) (x_side x (p_side p))) (x_side x (opposite (p_side p)))
    (x_notices x) (x_clock x + 1).
Definition quiet (p : params C) (x : exchange C) : Prop :=
  negb (limit_price p mod r_tick r =? 0) || (post_allowed p && (limit_price p <? r_tick r)) = false /\
  match_limit p <> 0 /\ (forall o, head (x_side x (opposite (p_side p))) = Some o -> acceptable p o = false) /\
  post_allowed p = true /\ r_min r <= x_size (resting_of p 0) /\
  (length (x_side x (p_side p)) < side_room r p)%nat /\ (length (x_notices x) <= r_room r)%nat.
Definition quiet_answer (p : params C) (x : exchange C) : answer :=
  let size := x_size (resting_of p 0) in
  Accepted (Some (x_id (p_side p) (resting_of p (x_clock x)))) size (cost (p_side p) size (limit_price p)) size.

Lemma quiet_rule p x : quiet p x -> new_order_rule same_id r p x = (quiet_answer p x, joined p x).
Proof.
  intros (Q1&Q2&Q3&Q4&Q5&Q6&Q7). unfold new_order_rule. rewrite Q1.
  destruct (N.to_nat (match_limit p)) as [|n] eqn:En; [lia|].
  assert (Et : trade same_id r p (S n) (max_base_qty p) (max_quote_qty p) (x_side x (opposite (p_side p))) =
    ([], Some (max_base_qty p, max_quote_qty p, x_side x (opposite (p_side p)), true))).
  { cbn [trade]. destruct (x_side x (opposite (p_side p))) as [|o os]; [done|]. by rewrite (Q3 o eq_refl). }
  rewrite Et. unfold post_rest. rewrite Q4. cbn [negb orb].
  change (N.min (max_base_qty p) (pays_for (max_quote_qty p) (limit_price p))) with (x_size (resting_of p 0)).
  destruct (N.ltb_spec (x_size (resting_of p 0)) (r_min r)) as [H|_]; [lia|].
  destruct (Nat.ltb_spec (length (x_side x (p_side p))) (side_room r p)) as [_|H]; [|lia].
  cbn [option_map fst x_size app length].
  destruct (Nat.leb_spec (length (x_notices x) + 0) (r_room r)) as [_|H]; [|lia].
  unfold quiet_answer, joined. rewrite app_nil_r, !N.sub_diag, !N.add_0_l. done.
Qed.

Lemma trade_quiet p n base quote makers b q l free :
  trade same_id r p n base quote makers = ([], Some (b, q, l, free)) ->
  b = base /\ q = quote /\ l = makers /\
  (free = true -> n <> O /\ forall o, head makers = Some o -> acceptable p o = false).
Proof.
  destruct n as [|n]; [cbn; intros E; injection E as <- <- <- <-; by split_and!|].
  destruct makers as [|o os]; [cbn; intros E; injection E as <- <- <- <-; by split_and!|].
  cbn [trade]. destruct (acceptable p o) eqn:Ea; cbn [negb].
  2:{ intros E; injection E as <- <- <- <-. split_and!; try done. split; [done|]. intros z Hz. cbn in Hz. by injection Hz as <-. }
  destruct (post_only p || _ || _); [intros E; injection E as <- <- <- <-; by split_and!|].
  destruct (stb p), (own_order same_id p o); try (destruct (_ <? r_min r));
    cbn [app fst snd]; intros E; by inversion E.
Qed.

Lemma quiet_inv p x id base quote size x' : new_order_rule same_id r p x = (Accepted (Some id) base quote size, x') ->
  length (x_notices x') = length (x_notices x) -> quiet p x.
Proof.
  unfold new_order_rule. destruct (negb _ || _) eqn:Q1; [done|].
  destruct (trade same_id r p _ _ _ _) as [n1 [[[[b q] makers] free]|]] eqn:Et; [|by destruct (_ <=? _)%nat].
  destruct (if free then _ else _) as [[[n2 posted] own] clock] eqn:Ep.
  destruct (Nat.leb_spec (length (x_notices x) + length (n1 ++ n2)) (r_room r)) as [Hroom|]; [|done].
  intros E Hn. injection E as E1 _ _ _ <-.
  assert (Hn' : length (n1 ++ n2) = 0%nat).
  { revert Hn. unfold with_sides. destruct (p_side p); cbn [x_notices]; rewrite !app_length; lia. }
  apply nil_length_inv, app_eq_nil in Hn' as [-> ->].
  apply trade_quiet in Et as (->&->&->&Hf). destruct free; [|injection Ep as <- <- <-; done].
  destruct (Hf eq_refl) as [F1 F2]. unfold post_rest in Ep.
  destruct (post_allowed p) eqn:Hpa; cbn [negb orb] in Ep; [|injection Ep as <- <- <-; done].
  change (N.min (max_base_qty p) (pays_for (max_quote_qty p) (limit_price p))) with (x_size (resting_of p 0)) in Ep.
  destruct (N.ltb_spec (x_size (resting_of p 0)) (r_min r)) as [|Hs]; [injection Ep as <- <- <-; done|].
  destruct (Nat.ltb_spec (length (x_side x (p_side p))) (side_room r p)) as [Hl|].
  2:{ destruct (last _) as [w|]; [destruct (not_worse _ _ _)|]; injection Ep; intros; subst; done. }
  split_and!; try done; cbn in Hroom; try lia.
Qed.

(** *** The other order *)
Lemma join_other p q (o o' : xorder C) os : p_side p = p_side q -> x_price o <> x_price o' ->
  join p o (join q o' os) = join q o' (join p o os).
Proof.
  intros Hs Hp.
  assert (Hnw : forall a b, not_worse p a b = not_worse q a b) by (intros; unfold not_worse; by rewrite Hs).
  assert (Hj : forall a l, join p a l = join q a l).
  { intros a l. induction l as [|x l IH]; [done|]. cbn. by rewrite Hnw, IH. }
  rewrite !Hj. clear Hj Hnw Hs p.
  induction os as [|x os IH]; cbn [join].
  - unfold not_worse. destruct (p_side q).
    + destruct (N.leb_spec (x_price o) (x_price o')), (N.leb_spec (x_price o') (x_price o)); lia || done.
    + destruct (N.leb_spec (x_price o) (x_price o')), (N.leb_spec (x_price o') (x_price o)); lia || done.
  - destruct (not_worse q (x_price o') x) eqn:E1, (not_worse q (x_price o) x) eqn:E2; cbn [join]; rewrite ?E1, ?E2.
    + by rewrite IH.
    + assert (E3 : not_worse q (x_price o') o = true) by (revert E1 E2; unfold not_worse; destruct (p_side q); lia).
      by rewrite E3.
    + assert (E3 : not_worse q (x_price o) o' = true) by (revert E1 E2; unfold not_worse; destruct (p_side q); lia).
      by rewrite E3.
    + destruct (not_worse q (x_price o') o) eqn:E3, (not_worse q (x_price o) o') eqn:E4; try done;
        exfalso; revert E3 E4; unfold not_worse; destruct (p_side q); lia.
Qed.

Lemma join_length p (o : xorder C) os : length (join p o os) = S (length os).
Proof. induction os as [|x os IH]; [done|]. cbn. destruct (not_worse _ _ _); cbn; by rewrite ?IH. Qed.
Lemma join_head p (o : xorder C) os :
  (exists x rest, os = x :: rest /\ not_worse p (x_price o) x = true /\ head (join p o os) = Some x) \/
  (head (join p o os) = Some o /\ forall x, head os = Some x -> not_worse p (x_price o) x = false).
Proof.
  destruct os as [|x os]; [right; split; [done|by intros ?]|]. cbn [join].
  destruct (not_worse p (x_price o) x) eqn:E; [left; by exists x, os|right]. split; [done|]. intros z Hz. by injection Hz as <-.
Qed.
Lemma joined_own p x : x_side (joined p x) (p_side p) = join p (resting_of p (x_clock x)) (x_side x (p_side p)).
Proof. unfold joined, with_sides. by destruct (p_side p). Qed.
Lemma joined_opp p x : x_side (joined p x) (opposite (p_side p)) = x_side x (opposite (p_side p)).
Proof. unfold joined, with_sides. by destruct (p_side p). Qed.
Lemma side_cases (s s' : side) : s' = s \/ s' = opposite s.
Proof. destruct s, s'; auto. Qed.

Lemma quiet_other p q x : quiet p x -> quiet q (joined p x) -> quiet q x /\ quiet p (joined q x).
Proof.
  intros (P1&P2&P3&P4&P5&P6&P7) (Q1&Q2&Q3&Q4&Q5&Q6&Q7).
  destruct (side_cases (p_side p) (p_side q)) as [Hs|Hs].
  - rewrite Hs in Q3. rewrite joined_opp in Q3.
    assert (Hr : side_room r q = side_room r p) by (unfold side_room; by rewrite Hs).
    assert (Hl : (S (length (x_side x (p_side p))) < side_room r p)%nat).
    { rewrite Hs, joined_own, join_length, Hr in Q6. exact Q6. }
    split; split_and!; try done.
    + by rewrite Hs.
    + rewrite Hs, Hr. lia.
    + rewrite <- Hs, joined_opp, Hs. exact P3.
    + rewrite <- Hs, joined_own, join_length, Hs. exact Hl.
    + unfold joined, with_sides. by destruct (p_side q).
  - assert (Hso : p_side p = opposite (p_side q)) by (rewrite Hs; by destruct (p_side p)).
    rewrite <- Hso in Q3. rewrite joined_own in Q3. rewrite Hs, joined_opp in Q6.
    destruct (join_head p (resting_of p (x_clock x)) (x_side x (p_side p))) as [(z&rest&Ez&Hz&Hh)|[Hh Hz]].
    + (* the best order of p's side stays the best *)
      rewrite Hh in Q3. specialize (Q3 z eq_refl).
      assert (Hqp : acceptable p (resting_of q (x_clock x)) = false).
      { revert Hz Q3. unfold not_worse, acceptable. rewrite Hs. cbn [resting_of x_price]. destruct (p_side p); cbn [opposite]; lia. }
      split; split_and!; try done.
      * rewrite <- Hso, Ez. intros o Ho. by injection Ho as <-.
      * by rewrite Hs.
      * rewrite <- Hs, joined_own. intros o Ho.
        destruct (join_head q (resting_of q (x_clock x)) (x_side x (p_side q))) as [(z'&rest'&Ez'&Hz'&Hh')|[Hh' Hz']].
        -- rewrite Hh' in Ho. injection Ho as <-. apply P3. by rewrite <- Hs, Ez'.
        -- rewrite Hh' in Ho. by injection Ho as <-.
      * by rewrite Hso, joined_opp, <- Hso.
      * unfold joined, with_sides. by destruct (p_side q).
    + rewrite Hh in Q3. specialize (Q3 _ eq_refl).
      assert (Hqp : acceptable p (resting_of q (x_clock x)) = false).
      { revert Q3. unfold acceptable. rewrite Hs. cbn [resting_of x_price]. destruct (p_side p); cbn [opposite]; lia. }
      split; split_and!; try done.
      * rewrite <- Hso. intros o Ho. specialize (Hz o Ho). revert Hz Q3. unfold not_worse, acceptable. rewrite Hs.
        cbn [resting_of x_price]. destruct (p_side p); cbn [opposite]; lia.
      * by rewrite Hs.
      * rewrite <- Hs, joined_own. intros o Ho.
        destruct (join_head q (resting_of q (x_clock x)) (x_side x (p_side q))) as [(z'&rest'&Ez'&Hz'&Hh')|[Hh' Hz']].
        -- rewrite Hh' in Ho. injection Ho as <-. apply P3. by rewrite <- Hs, Ez'.
        -- rewrite Hh' in Ho. by injection Ho as <-.
      * by rewrite Hso, joined_opp, <- Hso.
      * unfold joined, with_sides. by destruct (p_side q).
Qed.
End Quiet.

(** ** Numbers given out so far *)
Section Past.
Context {C : Type} (same_id : C -> C -> bool) (r : rules).

Definition past_id (clock id : N) : Prop := exists sd (o : xorder C), id = x_id sd o /\ x_time o < clock.
Definition past_notice (clock : N) (n : notice C) : Prop :=
  match n with Traded _ id _ _ _ _ => past_id clock id | Removed _ id _ _ => past_id clock id end.
Definition past (x : exchange C) : Prop :=
  early (x_clock x) (x_bids x) /\ early (x_clock x) (x_asks x) /\ Forall (past_notice (x_clock x)) (x_notices x).

Lemma early_le c c' (os : list (xorder C)) : c <= c' -> early c os -> early c' os.
Proof. intros Hc H. eapply Forall_impl; [exact H|]. intros o Ho. cbn in *. lia. Qed.
Lemma past_notice_le c c' n : c <= c' -> past_notice c n -> past_notice c' n.
Proof. intros Hc. destruct n; cbn; intros (sd0&o&->&Ho); exists sd0, o; split; (done || lia). Qed.
Lemma past_notices_le c c' ns : c <= c' -> Forall (past_notice c) ns -> Forall (past_notice c') ns.
Proof. intros Hc H. eapply Forall_impl; [exact H|]. intros n. by apply past_notice_le. Qed.

Lemma trade_past c p : forall n base quote os ns res, early c os ->
  trade same_id r p n base quote os = (ns, res) ->
  Forall (past_notice c) ns /\ match res with Some (_, _, l, _) => early c l | None => True end.
Proof.
  induction n as [|n IH]; intros base quote os ns res Ho; [cbn; intros E; by injection E as <- <-|].
  destruct os as [|o os]; [cbn; intros E; by injection E as <- <-|].
  pose proof Ho as Ho0. apply Forall_cons in Ho as [Ho Hos]. cbn [trade].
  destruct (negb (acceptable p o)); [intros E; by injection E as <- <-|].
  destruct (post_only p || _ || _); [intros E; by injection E as <- <-|].
  set (b := N.min _ _). set (q := cost _ _ _).
  assert (Hp : past_id c (x_id (opposite (p_side p)) o)) by (exists (opposite (p_side p)), o; done).
  assert (Hmore : forall (l : list (notice C)) base quote os', Forall (past_notice c) l -> early c os' ->
    (l ++ fst (trade same_id r p n base quote os'), snd (trade same_id r p n base quote os')) = (ns, res) ->
    Forall (past_notice c) ns /\ match res with Some (_, _, l, _) => early c l | None => True end).
  { intros l base' quote' os' Hl Ho' E. destruct (trade same_id r p n base' quote' os') as [ns' res'] eqn:Et.
    injection E as <- <-. destruct (IH _ _ _ _ _ Ho' Et) as [H1 H2]. split; [by apply Forall_app|done]. }
  destruct (stb p), (own_order same_id p o);
    try (intros E; injection E as <- <-; by split);
    try (destruct (x_size o - b <? r_min r));
    apply Hmore; repeat constructor; done.
Qed.

Lemma join_early c p (o : xorder C) os : x_time o < c -> early c os -> early c (join p o os).
Proof.
  intros Hc Ho. induction Ho as [|x os Hx Hos IH]; [by repeat constructor|]. cbn.
  destruct (not_worse _ _ _); repeat constructor; done.
Qed.
Lemma post_past p clock base quote own ns posted own' clock' : early clock own ->
  post_rest r p clock base quote own = (ns, posted, own', clock') ->
  clock <= clock' /\ Forall (past_notice clock') ns /\ early clock' own'.
Proof.
  intros Ho. unfold post_rest. destruct (negb (post_allowed p) || _); [intros E; by injection E as <- <- <- <-|].
  destruct (length own <? side_room r p)%nat.
  { intros E; injection E as <- <- <- <-. split_and!; [lia|done|]. apply join_early; [cbn; lia|]. by apply (early_le clock); [lia|]. }
  destruct (last own) as [w|] eqn:Hw.
  2:{ intros E; injection E as <- <- <- <-. split_and!; [lia|done|]. by apply (early_le clock); [lia|]. }
  destruct (not_worse _ _ _).
  { intros E; injection E as <- <- <- <-. split_and!; [lia|done|]. by apply (early_le clock); [lia|]. }
  intros E; injection E as <- <- <- <-. split_and!; [lia| |].
  - apply Forall_singleton. exists (p_side p), w. split; [done|].
    apply last_Some_elem_of in Hw. unfold early in Ho. rewrite Forall_forall in Ho. specialize (Ho w Hw). lia.
  - apply join_early; [cbn; lia|]. apply (early_le clock); [lia|]. by apply removelast_forall.
Qed.

Lemma past_side x sd : past x -> early (x_clock x) (x_side x sd).
Proof. intros (H1&H2&_). by destruct sd. Qed.
Lemma cancel_past : forall ids base quote (x : exchange C), past x -> past (snd (cancel_rule ids base quote x)).
Proof.
  induction ids as [|id ids IH]; intros base quote x Hx; [done|]. cbn [cancel_rule].
  destruct (x_lookup id x); [|done]. destruct (_ && _); [|done]. apply IH. destruct Hx as (H1&H2&H3).
  split_and!; [by apply early_filter..|done].
Qed.

Lemma rule_past o x : past x -> past (snd (rule same_id r o x)).
Proof.
  intros Hx. destruct o as [p|id|ids|n]; cbn [rule].
  - unfold new_order_rule. destruct (negb _ || _); [done|].
    destruct (trade same_id r p _ _ _ _) as [n1 [[[[b q] makers] free]|]] eqn:Et; [|by destruct (_ <=? _)%nat].
    destruct (trade_past _ _ _ _ _ _ _ _ (past_side x _ Hx) Et) as [H1 H2].
    destruct (if free then _ else _) as [[[n2 posted] own] clock] eqn:Ep.
    assert (Hp : x_clock x <= clock /\ Forall (past_notice clock) n2 /\ early clock own).
    { destruct free; [by apply (post_past _ _ _ _ _ _ _ _ _ (past_side x _ Hx)) in Ep|].
      injection Ep as <- _ <- <-. split_and!; [lia|done|by apply past_side]. }
    destruct Hp as (Hc&Hn2&Hown). destruct (_ <=? _)%nat; [|done]. cbn [snd].
    pose proof Hx as (_&_&Hn). apply (early_le _ _ _ Hc) in H2. apply (past_notices_le _ _ _ Hc) in H1, Hn.
    unfold past, with_sides. destruct (p_side p); cbn [x_bids x_asks x_notices x_clock];
      (split_and!; [done..|by repeat apply Forall_app_2]).
  - pose proof (cancel_past [id] 0 0 x Hx) as H. unfold all_or_nothing. destruct (cancel_rule [id] 0 0 x) as [a x']. by destruct a.
  - pose proof (cancel_past ids 0 0 x Hx) as H. unfold all_or_nothing. destruct (cancel_rule ids 0 0 x) as [a x']. by destruct a.
  - destruct Hx as (H1&H2&H3). split_and!; [done..|]. by apply Forall_drop.
Qed.
Lemma run_past : forall os x, past x -> past (snd (rule_run same_id r os x)).
Proof.
  induction os as [|o os IH]; intros x Hx; [done|]. cbn [rule_run]. pose proof (rule_past o x Hx) as H.
  destruct (rule same_id r o x) as [a x1]. specialize (IH x1 H). by destruct (rule_run same_id r os x1).
Qed.

Lemma rename_past t clock (x : exchange C) : past x -> renames clock t -> clock <= 2 ^ 63 -> x_clock x <= 2 ^ 63 ->
  (forall a, a < x_clock x -> t a = a) -> map (rename_notice t) (x_notices x) = x_notices x.
Proof.
  intros (_&_&H) Hr Hcl Hc Ht. induction H as [|n ns Hn Hns IH]; [done|]. cbn [map]. rewrite IH. f_equal.
  assert (E : forall id, past_id (x_clock x) id -> rename_id t id = id).
  { intros id (sd&o&->&Ho). rewrite (rename_x_id _ clock) by (done || lia).
    unfold rename_order. rewrite Ht by done. by destruct o. }
  destruct n; cbn in Hn |- *; by rewrite E.
Qed.

(** The two orders one after the other. *)
Lemma joined_other p q (x : exchange C) : past x -> x_clock x + 2 <= 2 ^ 63 ->
  (p_side p <> p_side q \/ limit_price p <> limit_price q) ->
  joined p (joined q x) = rename_exchange (swap (x_clock x) (x_clock x + 1)) (joined q (joined p x)).
Proof.
  intros Hx Hc Hd. set (c := x_clock x) in *. set (t := swap c (c + 1)).
  pose proof (renames_swap c) as Hr. fold t in Hr.
  assert (Ht : forall a, a < c -> t a = a).
  { intros a Ha. unfold t, swap. destruct (N.eqb_spec a c), (N.eqb_spec a (c + 1)); lia. }
  assert (Ht0 : t c = c + 1) by (unfold t, swap; by rewrite N.eqb_refl).
  assert (Ht1 : t (c + 1) = c).
  { unfold t, swap. destruct (N.eqb_spec (c + 1) c); [lia|]. by rewrite N.eqb_refl. }
  assert (Hid : forall sd, map (rename_order t) (x_side x sd) = x_side x sd).
  { intros sd. pose proof (past_side x sd Hx) as He. fold c in He. induction He as [|o os Ho Hos IH]; [done|].
    cbn [map]. rewrite IH. f_equal. unfold rename_order. rewrite Ht by done. by destruct o. }
  assert (Hn : map (rename_notice t) (x_notices x) = x_notices x).
  { apply (rename_past t (c + 2)); (done || lia || (fold c; lia) || idtac). }
  assert (Hq : forall u : params C, rename_order t (resting_of u (c + 1)) = resting_of u c).
  { intros u. unfold rename_order, resting_of. cbn [x_price x_time x_size x_owner]. by rewrite Ht1. }
  assert (Hp : forall u : params C, rename_order t (resting_of u c) = resting_of u (c + 1)).
  { intros u. unfold rename_order, resting_of. cbn [x_price x_time x_size x_owner]. by rewrite Ht0. }
  pose proof (Hid Bid) as Hb. pose proof (Hid Ask) as Ha. cbn [x_side] in Hb, Ha.
  unfold joined, with_sides. destruct (p_side p) eqn:Hs, (p_side q) eqn:Hs';
    cbn [x_side x_bids x_asks x_notices x_clock opposite]; fold c;
    unfold rename_exchange; cbn [x_bids x_asks x_notices x_clock]; rewrite <- !(join_rename t), ?Hb, ?Ha, ?Hq, ?Hp, Hn.
  all: try done.
  - f_equal. apply join_other; [congruence|]. cbn. by destruct Hd.
  - f_equal. apply join_other; [congruence|]. cbn. by destruct Hd.
Qed.
End Past.
