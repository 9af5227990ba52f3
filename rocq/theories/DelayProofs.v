(** * DelayProofs.v: an order can be withdrawn earlier if nothing concerns it (C80) *)
From Verif Require Import Machine Critbit EventQueue OrderBook Market Spec MarketProofs MarketFacts HistoryProps
  ExchangeSpec ExchangeProofs NamesSpec NamesProofs DelaySpec.
From Coq Require Import Sorting.Sorted ZifyBool ZifyNat ZifyN.

Section Without.
Context {C : Type} (same_id : C -> C -> bool) (r : rules).

(** Best prices first. *)
Definition lined_up (sd : side) (os : list (xorder C)) : Prop :=
  StronglySorted (fun a b => match sd with Bid => x_price b <= x_price a | Ask => x_price a <= x_price b end) os.
Definition keep (sd : side) (id : N) (os : list (xorder C)) : list (xorder C) :=
  List.filter (fun o => negb (x_id sd o =? id)) os.

Lemma keep_yes sd id o os : x_id sd o <> id -> keep sd id (o :: os) = o :: keep sd id os.
Proof. intros H. apply N.eqb_neq in H. unfold keep. cbn. by rewrite H. Qed.
Lemma keep_no sd id o os : x_id sd o = id -> keep sd id (o :: os) = keep sd id os.
Proof. intros H. apply N.eqb_eq in H. unfold keep. cbn. by rewrite H. Qed.
Lemma keep_in sd id os o : o ∈ keep sd id os -> o ∈ os /\ x_id sd o <> id.
Proof.
  unfold keep. rewrite elem_of_list_In, filter_In. intros [H1 H2]. rewrite <- elem_of_list_In in H1. split; [done|].
  destruct (N.eqb_spec (x_id sd o) id); done.
Qed.
Lemma keep_length sd id os : (length (keep sd id os) <= length os)%nat.
Proof. unfold keep. induction os as [|o os IH]; [done|]. cbn. destruct (negb _); cbn; lia. Qed.
Lemma find_keep sd id id' os : id' <> id ->
  List.find (fun o => x_id sd o =? id') (keep sd id os) = List.find (fun o => x_id sd o =? id') os.
Proof.
  intros Hn. unfold keep. induction os as [|o os IH]; [done|]. cbn.
  destruct (N.eqb_spec (x_id sd o) id) as [E|E]; cbn.
  - destruct (N.eqb_spec (x_id sd o) id') as [E'|_]; [congruence|done].
  - by destruct (N.eqb_spec (x_id sd o) id').
Qed.
Lemma keep_keep sd id id' os : keep sd id' (keep sd id os) = keep sd id (keep sd id' os).
Proof.
  unfold keep. induction os as [|o os IH]; [done|]. cbn.
  destruct (N.eqb_spec (x_id sd o) id) as [E|E], (N.eqb_spec (x_id sd o) id') as [E'|E']; cbn;
    repeat match goal with
    | H : ?a = ?b |- context [?a =? ?b] => rewrite (proj2 (N.eqb_eq a b) H)
    | H : ?a <> ?b |- context [?a =? ?b] => rewrite (proj2 (N.eqb_neq a b) H)
    end; cbn; by rewrite ?IH.
Qed.

(** ** Trading *)
Lemma acceptable_behind (p : params C) a b : match opposite (p_side p) with Bid => x_price b <= x_price a | Ask => x_price a <= x_price b end ->
  acceptable p a = false -> acceptable p b = false.
Proof. unfold acceptable. destruct (p_side p); cbn; lia. Qed.

Lemma trade_without (p : params C) id : let sd := opposite (p_side p) in forall n base quote os,
  lined_up sd os -> (forall o, o ∈ os -> x_id sd o = id -> acceptable p o = false) ->
  trade same_id r p n base quote (keep sd id os) =
  let '(ns, res) := trade same_id r p n base quote os in
  (ns, option_map (fun '(b, q, l, free) => (b, q, keep sd id l, free)) res).
Proof.
  intros sd. induction n as [|n IH]; intros base quote os Hs Hid; [done|].
  destruct os as [|o os]; [done|]. pose proof Hs as Hs0. apply StronglySorted_inv in Hs as [Hs Hall].
  destruct (N.eq_dec (x_id sd o) id) as [E|E].
  { pose proof (Hid o (elem_of_list_here _ _) E) as Hna. rewrite keep_no by done.
    cbn [trade]. rewrite Hna. cbn [negb option_map]. rewrite keep_no by done.
    destruct (keep sd id os) as [|h t] eqn:Ek; [done|].
    assert (Hh : h ∈ os) by (apply (keep_in sd id); rewrite Ek; by left).
    rewrite Forall_forall in Hall. specialize (Hall h Hh). by rewrite (acceptable_behind p o h Hall Hna). }
  rewrite keep_yes by done. cbn [trade].
  destruct (negb (acceptable p o)); [cbn [option_map]; by rewrite keep_yes|].
  destruct (post_only p || _ || _); [cbn [option_map]; by rewrite keep_yes|].
  set (b := N.min _ _). set (q := cost _ _ _).
  assert (Hos : forall o', o' ∈ os -> x_id sd o' = id -> acceptable p o' = false) by (intros o' Ho'; apply Hid; by right).
  pose proof (IH (base - b) (quote - q) os Hs Hos) as Hrest.
  pose proof (IH base quote os Hs Hos) as Hcp.
  assert (Hleft : trade same_id r p n (base - b) (quote - q)
      (mk_xorder (x_price o) (x_time o) (x_size o - b) (x_owner o) :: keep sd id os) =
    let '(ns, res) := trade same_id r p n (base - b) (quote - q)
      (mk_xorder (x_price o) (x_time o) (x_size o - b) (x_owner o) :: os) in
    (ns, option_map (fun '(b, q, l, free) => (b, q, keep sd id l, free)) res)).
  { rewrite <- (IH _ _ (mk_xorder (x_price o) (x_time o) (x_size o - b) (x_owner o) :: os)).
    - by rewrite keep_yes.
    - by constructor.
    - intros o' Ho' Eo'. apply elem_of_cons in Ho' as [->|Ho']; [|by apply Hos]. by destruct (E Eo'). }
  rewrite Hrest, Hleft, Hcp. clear.
  destruct (stb p), (own_order same_id p o); try done;
    destruct (x_size o - b <? r_min r);
    repeat match goal with |- context [trade same_id r p n ?a ?b ?l] => destruct (trade same_id r p n a b l) as [??] end;
    done.
Qed.

(** What is left of the makers is a tail of them, but for the size of its head. *)
Lemma trade_tail (p : params C) : let sd := opposite (p_side p) in forall n base quote os ns b q l free,
  trade same_id r p n base quote os = (ns, Some (b, q, l, free)) ->
  exists pre, os = pre ++ l \/ exists o o' l', os = pre ++ o :: l' /\ l = o' :: l' /\ x_price o' = x_price o /\
    x_time o' = x_time o /\ x_owner o' = x_owner o.
Proof.
  intros sd. induction n as [|n IH]; intros base quote os ns b q l free.
  { cbn. intros E. injection E as <- <- <- <- <-. exists []. by left. }
  destruct os as [|o os]; [cbn; intros E; injection E as <- <- <- <- <-; exists []; by left|].
  cbn [trade].
  destruct (negb (acceptable p o)); [intros E; injection E as <- <- <- <- <-; exists []; by left|].
  destruct (post_only p || _ || _); [intros E; injection E as <- <- <- <- <-; exists []; by left|].
  set (b0 := N.min _ _). set (q0 := cost _ _ _).
  assert (Hmore : forall (nn : list (notice C)) base quote,
    (nn ++ fst (trade same_id r p n base quote os), snd (trade same_id r p n base quote os)) = (ns, Some (b, q, l, free)) ->
    exists pre, o :: os = pre ++ l \/ exists o1 o' l', o :: os = pre ++ o1 :: l' /\ l = o' :: l' /\ x_price o' = x_price o1 /\
    x_time o' = x_time o1 /\ x_owner o' = x_owner o1).
  { intros nn base' quote' E. destruct (trade same_id r p n base' quote' os) as [ns' res'] eqn:Et.
    injection E as <- E. cbn [snd] in E. subst res'. destruct (IH _ _ _ _ _ _ _ _ Et) as (pre&[->|(o1&o'&l'&->&->&H)]).
    - exists (o :: pre). by left.
    - exists (o :: pre). right. by exists o1, o', l'. }
  assert (Hleft : forall (nn : list (notice C)) base quote,
    let os' := mk_xorder (x_price o) (x_time o) (x_size o - b0) (x_owner o) :: os in
    (nn ++ fst (trade same_id r p n base quote os'), snd (trade same_id r p n base quote os')) = (ns, Some (b, q, l, free)) ->
    exists pre, o :: os = pre ++ l \/ exists o1 o' l', o :: os = pre ++ o1 :: l' /\ l = o' :: l' /\ x_price o' = x_price o1 /\
    x_time o' = x_time o1 /\ x_owner o' = x_owner o1).
  { intros nn base' quote' os' E. destruct (trade same_id r p n base' quote' os') as [ns' res'] eqn:Et.
    injection E as <- E. cbn [snd] in E. subst res'. destruct (IH _ _ _ _ _ _ _ _ Et) as (pre&[E|(o1&o'&l'&E&->&H)]).
    - destruct pre as [|x pre]; cbn in E.
      + exists []. right. exists o, (mk_xorder (x_price o) (x_time o) (x_size o - b0) (x_owner o)), os. by rewrite <- E.
      + injection E as <- E. exists (o :: pre). left. by rewrite E.
    - destruct pre as [|x pre]; cbn in E.
      + injection E as <- <-. exists []. right. by exists o, o', os.
      + injection E as <- E. exists (o :: pre). right. exists o1, o', l'. by rewrite E. }
  destruct (stb p), (own_order same_id p o); try done;
    try (destruct (x_size o - b0 <? r_min r)); first [apply Hmore|apply Hleft].
Qed.

Lemma find_last {A} (f : A -> bool) l l' : (forall x, x ∈ l -> f x = false) -> List.find f (l ++ l') = List.find f l'.
Proof.
  induction l as [|x l IH]; intros H; [done|]. cbn. rewrite (H x) by by left. apply IH. intros y Hy. apply H. by right.
Qed.
(** The orders that are not acceptable stay. *)
Lemma trade_stay (p : params C) id : let sd := opposite (p_side p) in forall n base quote os ns b q l free,
  (forall o, o ∈ os -> x_id sd o = id -> acceptable p o = false) ->
  trade same_id r p n base quote os = (ns, Some (b, q, l, free)) ->
  List.find (fun o => x_id sd o =? id) l = List.find (fun o => x_id sd o =? id) os.
Proof.
  intros sd. induction n as [|n IH]; intros base quote os ns b q l free Hid.
  { cbn. intros E. by injection E as <- <- <- <- <-. }
  destruct os as [|o os]; [cbn; intros E; by injection E as <- <- <- <- <-|].
  cbn [trade]. destruct (acceptable p o) eqn:Ha; cbn [negb]; [|intros E; by injection E as <- <- <- <- <-].
  destruct (post_only p || _ || _); [intros E; by injection E as <- <- <- <- <-|].
  set (b0 := N.min _ _). set (q0 := cost _ _ _).
  assert (Ho : x_id sd o <> id) by (intros E; rewrite (Hid o (elem_of_list_here _ _) E) in Ha; done).
  assert (Hos : forall o', o' ∈ os -> x_id sd o' = id -> acceptable p o' = false) by (intros o' Ho'; apply Hid; by right).
  assert (Ef : List.find (fun o => x_id sd o =? id) (o :: os) = List.find (fun o => x_id sd o =? id) os).
  { cbn. apply N.eqb_neq in Ho. by rewrite Ho. }
  assert (Hmore : forall (nn : list (notice C)) base quote,
    (nn ++ fst (trade same_id r p n base quote os), snd (trade same_id r p n base quote os)) = (ns, Some (b, q, l, free)) ->
    List.find (fun o => x_id sd o =? id) l = List.find (fun o => x_id sd o =? id) (o :: os)).
  { intros nn base' quote' E. destruct (trade same_id r p n base' quote' os) as [ns' res'] eqn:Et.
    injection E as <- E. cbn [snd] in E. subst res'. rewrite Ef. by eapply IH. }
  assert (Hleft : forall (nn : list (notice C)) base quote,
    let os' := mk_xorder (x_price o) (x_time o) (x_size o - b0) (x_owner o) :: os in
    (nn ++ fst (trade same_id r p n base quote os'), snd (trade same_id r p n base quote os')) = (ns, Some (b, q, l, free)) ->
    List.find (fun o => x_id sd o =? id) l = List.find (fun o => x_id sd o =? id) (o :: os)).
  { intros nn base' quote' os' E. destruct (trade same_id r p n base' quote' os') as [ns' res'] eqn:Et.
    assert (Hos' : forall o', o' ∈ os' -> x_id sd o' = id -> acceptable p o' = false).
    { intros o' Ho'. unfold os' in Ho'. apply elem_of_cons in Ho' as [->|Ho']; [|by apply Hos]. intros E'. by destruct (Ho E'). }
    injection E as <- E. cbn [snd] in E. subst res'. rewrite (IH _ _ _ _ _ _ _ _ Hos' Et), Ef.
    unfold os'. cbn [List.find]. apply N.eqb_neq in Ho. unfold x_id in *. cbn [x_price x_time]. by rewrite Ho. }
  destruct (stb p), (own_order same_id p o); try done;
    try (destruct (x_size o - b0 <? r_min r)); first [apply Hmore|apply Hleft].
Qed.

(** An order that stays behind another one has not been met. *)
Lemma trade_behind (p : params C) id : let sd := opposite (p_side p) in forall n base quote os ns b q h t free,
  NoDup (map (x_id sd) os) -> trade same_id r p n base quote os = (ns, Some (b, q, h :: t, free)) ->
  id ∈ map (x_id sd) t ->
  trade same_id r p n base quote (keep sd id os) = (ns, Some (b, q, keep sd id (h :: t), free)) /\
  List.find (fun o => x_id sd o =? id) (h :: t) = List.find (fun o => x_id sd o =? id) os.
Proof.
  intros sd. induction n as [|n IH]; intros base quote os ns b q h t free Hnd.
  { cbn. intros E. injection E as <- <- <- -> <-. done. }
  destruct os as [|o os]; [done|]. intros Ht Hin.
  assert (Ho : x_id sd o <> id).
  { destruct (trade_tail _ _ _ _ _ _ _ _ _ _ Ht) as (pre&Hpre).
    assert (E : exists pre', x_id sd o :: map (x_id sd) os = pre' ++ x_id sd h :: map (x_id sd) t).
    { exists (map (x_id sd) pre). change (x_id sd o :: map (x_id sd) os) with (map (x_id sd) (o :: os)).
      destruct Hpre as [E|(o1&o'&l'&E&El&E1&E2&_)].
      - by rewrite E, map_app.
      - injection El as -> ->. rewrite E, map_app. cbn [map]. do 2 f_equal. unfold x_id. by rewrite E1, E2. }
    destruct E as ([|i pre']&E); cbn [app] in E; cbn [map] in Hnd; rewrite E in Hnd; apply NoDup_cons in Hnd as [Hno _].
    - injection E as -> _. congruence.
    - injection E as -> _. intros ->. apply Hno. rewrite elem_of_app, elem_of_cons. auto. }
  assert (Ef : forall (y : xorder C) l, x_id sd y <> id -> List.find (fun o => x_id sd o =? id) (y :: l) = List.find (fun o => x_id sd o =? id) l).
  { intros y l Hy. apply N.eqb_neq in Hy. cbn. by rewrite Hy. }
  revert Ht. rewrite (keep_yes sd id o) by done. cbn [trade].
  destruct (negb (acceptable p o)). { intros E. injection E as <- <- <- <- <- <-. by rewrite keep_yes. }
  destruct (post_only p || _ || _). { intros E. injection E as <- <- <- <- <- <-. by rewrite keep_yes. }
  set (b0 := N.min _ _). set (q0 := cost _ _ _).
  cbn [map] in Hnd. pose proof (NoDup_cons_1_2 _ _ Hnd) as Hnd'.
  assert (Hmore : forall (nn : list (notice C)) base quote,
    (nn ++ fst (trade same_id r p n base quote os), snd (trade same_id r p n base quote os)) = (ns, Some (b, q, h :: t, free)) ->
    (nn ++ fst (trade same_id r p n base quote (keep sd id os)), snd (trade same_id r p n base quote (keep sd id os))) =
      (ns, Some (b, q, keep sd id (h :: t), free)) /\
    List.find (fun o => x_id sd o =? id) (h :: t) = List.find (fun o => x_id sd o =? id) (o :: os)).
  { intros nn base' quote' E. destruct (trade same_id r p n base' quote' os) as [ns' res'] eqn:Et.
    injection E as <- E. cbn [snd] in E. subst res'. destruct (IH _ _ _ _ _ _ _ _ _ Hnd' Et Hin) as [H1 H2].
    rewrite H1, (Ef o os) by done. done. }
  assert (Hleft : forall (nn : list (notice C)) base quote,
    let o' := mk_xorder (x_price o) (x_time o) (x_size o - b0) (x_owner o) in
    (nn ++ fst (trade same_id r p n base quote (o' :: os)), snd (trade same_id r p n base quote (o' :: os))) = (ns, Some (b, q, h :: t, free)) ->
    (nn ++ fst (trade same_id r p n base quote (o' :: keep sd id os)), snd (trade same_id r p n base quote (o' :: keep sd id os))) =
      (ns, Some (b, q, keep sd id (h :: t), free)) /\
    List.find (fun o => x_id sd o =? id) (h :: t) = List.find (fun o => x_id sd o =? id) (o :: os)).
  { intros nn base' quote' o' E. destruct (trade same_id r p n base' quote' (o' :: os)) as [ns' res'] eqn:Et.
    injection E as <- E. cbn [snd] in E. subst res'.
    destruct (IH _ _ (o' :: os) _ _ _ _ _ _ Hnd Et Hin) as [H1 H2].
    rewrite (keep_yes sd id o') in H1 by done. rewrite H1, (Ef o os) by done. rewrite (Ef o' os) in H2 by done. done. }
  destruct (stb p), (own_order same_id p o); try done;
    try (destruct (x_size o - b0 <? r_min r)); first [apply Hmore|apply Hleft].
Qed.

(** ** Joining *)
Lemma join_front (p : params C) (o : xorder C) os : (forall x, x ∈ os -> not_worse p (x_price o) x = false) -> join p o os = o :: os.
Proof. destruct os as [|x os]; [done|]. intros H. cbn. by rewrite (H x) by by left. Qed.
Lemma join_keep (p : params C) (o : xorder C) id os : let sd := p_side p in lined_up sd os -> x_id sd o <> id ->
  join p o (keep sd id os) = keep sd id (join p o os).
Proof.
  intros sd Hs Ho. induction Hs as [|x os Hs IH Hall]; [change ([o] = keep sd id [o]); by rewrite keep_yes|].
  cbn [join]. destruct (not_worse p (x_price o) x) eqn:Ew.
  - destruct (N.eq_dec (x_id sd x) id) as [E|E].
    + by rewrite !keep_no.
    + rewrite !keep_yes by done. cbn [join]. by rewrite Ew, IH.
  - rewrite (keep_yes _ _ o) by done. apply join_front. intros y Hy. apply keep_in in Hy as [Hy _].
    apply elem_of_cons in Hy as [->|Hy]; [done|]. rewrite Forall_forall in Hall. specialize (Hall y Hy).
    cbn beta in Hall. unfold not_worse in *. fold sd in Ew |- *. destruct sd; lia.
Qed.
Lemma find_join (p : params C) (o : xorder C) sd id os : x_id sd o <> id ->
  List.find (fun o => x_id sd o =? id) (join p o os) = List.find (fun o => x_id sd o =? id) os.
Proof.
  intros Ho. apply N.eqb_neq in Ho. induction os as [|x os IH]; cbn; [by rewrite Ho|].
  destruct (not_worse _ _ _); cbn; [by rewrite IH|by rewrite Ho].
Qed.
Lemma post_without (p : params C) id clock base quote own : let sd := p_side p in
  lined_up sd own -> (forall size (owner : C), x_id sd (mk_xorder (limit_price p) clock size owner) <> id) ->
  post_allowed p = false \/ (length own < side_room r p)%nat ->
  post_rest r p clock base quote (keep sd id own) =
    (let '(ns, posted, own', clock') := post_rest r p clock base quote own in (ns, posted, keep sd id own', clock')) /\
  List.find (fun o => x_id sd o =? id) (snd (fst (post_rest r p clock base quote own))) = List.find (fun o => x_id sd o =? id) own.
Proof.
  intros sd Hs Hid Hr. unfold post_rest.
  destruct Hr as [->|Hr]; [done|]. destruct (negb (post_allowed p) || _); [done|].
  pose proof (keep_length sd id own) as Hl.
  destruct (Nat.ltb_spec (length own) (side_room r p)) as [_|]; [|lia].
  destruct (Nat.ltb_spec (length (keep sd id own)) (side_room r p)) as [_|]; [|lia].
  split; [by rewrite join_keep|]. cbn [fst snd]. by rewrite find_join.
Qed.

(** ** Ids *)
Lemma x_id_time sd (a b : xorder C) : x_time a < 2 ^ 64 -> x_time b < 2 ^ 64 -> x_id sd a = x_id sd b ->
  x_price a = x_price b /\ x_time a = x_time b.
Proof. unfold x_id. destruct sd; lia. Qed.
Lemma x_id_side sd (a b : xorder C) : x_time a < 2 ^ 63 -> x_time b < 2 ^ 63 -> x_id sd a <> x_id (opposite sd) b.
Proof. unfold x_id. destruct sd; cbn [opposite]; lia. Qed.
Lemma x_id_price sd (a : xorder C) : x_time a < 2 ^ 64 -> id_price (x_id sd a) = x_price a.
Proof.
  unfold id_price, x_id. change p64 with (2 ^ 64). intros H.
  rewrite N.add_comm, N.div_add by done. destruct sd; rewrite N.div_small by lia; lia.
Qed.

(** ** One request *)
Definition numbered (sd : side) (id : N) (x : exchange C) : Prop :=
  (forall s, early (2 ^ 63) (x_side x s)) /\ exists o : xorder C, id = x_id sd o /\ x_time o < 2 ^ 63.
Lemma keep_other sd id x : numbered sd id x -> keep (opposite sd) id (x_side x (opposite sd)) = x_side x (opposite sd).
Proof.
  intros [Ht (o&->&Ho)]. pose proof (Ht (opposite sd)) as He.
  induction He as [|y os Hy Hos IH]; [done|]. rewrite keep_yes; [by rewrite IH|].
  intros E. symmetry in E. revert E. by apply x_id_side.
Qed.
Lemma remove_sides sd id x : numbered sd id x ->
  x_remove id x = with_sides sd (keep sd id (x_side x sd)) (x_side x (opposite sd)) (x_notices x) (x_clock x).
Proof.
  intros Ha. pose proof (keep_other _ _ _ Ha) as E. unfold x_remove, with_sides.
  destruct sd; cbn [opposite] in E; unfold keep in E; cbn; cbn in E; by rewrite E.
Qed.
Lemma lookup_side sd id x : numbered sd id x -> x_lookup id x = x_find id sd x.
Proof.
  intros [Ht (o&->&Ho)].
  assert (E : x_find (x_id sd o) (opposite sd) x = None).
  { unfold x_find. pose proof (Ht (opposite sd)) as He.
    induction He as [|y os Hy Hos IH]; [done|]. cbn. destruct (N.eqb_spec (x_id (opposite sd) y) (x_id sd o)) as [E|_]; [|done].
    symmetry in E. exfalso. revert E. by apply x_id_side. }
  unfold x_lookup. destruct sd; cbn [opposite] in E; rewrite E; [by destruct (x_find _ Bid x)|done].
Qed.
Lemma x_side_own sd (own opp : list (xorder C)) ns clock : x_side (with_sides sd own opp ns clock) sd = own.
Proof. by destruct sd. Qed.
Lemma x_side_opp sd (own opp : list (xorder C)) ns clock : x_side (with_sides sd own opp ns clock) (opposite sd) = opp.
Proof. by destruct sd. Qed.
Lemma notices_with sd (own opp : list (xorder C)) ns clock : x_notices (with_sides sd own opp ns clock) = ns.
Proof. by destruct sd. Qed.
Lemma clock_with sd (own opp : list (xorder C)) ns clock : x_clock (with_sides sd own opp ns clock) = clock.
Proof. by destruct sd. Qed.
Lemma with_opp sd (own opp : list (xorder C)) ns clock : with_sides (opposite sd) own opp ns clock = with_sides sd opp own ns clock.
Proof. by destruct sd. Qed.
Lemma numbered_with sd id x s own opp ns clock : numbered sd id x -> early (2 ^ 63) own -> early (2 ^ 63) opp ->
  numbered sd id (with_sides s own opp ns clock).
Proof. intros [_ H] H1 H2. split; [|done]. intros s'. by destruct s, s'. Qed.

Record about (sd : side) (id : N) (x : exchange C) : Prop := {
  ab_times : times_ok x;
  ab_line : forall s, lined_up s (x_side x s);
  ab_id : exists o : xorder C, id = x_id sd o /\ x_time o < x_clock x;
}.
Lemma about_numbered sd id x : about sd id x -> numbered sd id x.
Proof.
  intros [Ht _ (o&E&Ho)]. pose proof Ht as (Hc&_). split; [|exists o; split; [done|lia]].
  intros s. apply (early_le (x_clock x)); [lia|]. by apply times_side.
Qed.

Definition has_room (p : params C) (x : exchange C) : Prop :=
  post_allowed p = false \/ (length (x_side x (p_side p)) < side_room r p)%nat.
(** The trading and the posting of an order, what they leave. *)
Definition rest_of (p : params C) (free : bool) (base quote : N) (own : list (xorder C)) (clock : N) :=
  if free then post_rest r p clock base quote own else ([], None, own, clock).
Lemma rest_past p free base quote own clock ns posted own' clock' : early clock own ->
  rest_of p free base quote own clock = (ns, posted, own', clock') -> clock <= clock' /\ early clock' own'.
Proof.
  intros He. unfold rest_of. destruct free; [|intros E; injection E as <- <- <- <-; by split].
  intros E. destruct (post_past _ _ _ _ _ _ _ _ _ _ He E) as (H1&_&H2). done.
Qed.
Lemma rest_clock p free base quote own clock ns posted own' clock' :
  rest_of p free base quote own clock = (ns, posted, own', clock') -> clock' <= clock + 1.
Proof.
  unfold rest_of, post_rest. destruct free; [|intros E; injection E as <- <- <- <-; lia].
  destruct (negb _ || _); [intros E; injection E as <- <- <- <-; lia|].
  destruct (_ <? _)%nat; [intros E; injection E as <- <- <- <-; lia|].
  destruct (last own); [|intros E; injection E as <- <- <- <-; lia].
  destruct (not_worse _ _ _); intros E; injection E as <- <- <- <-; lia.
Qed.

(** A new order on the same side. *)
Lemma new_own p id x : about (p_side p) id x -> has_room p x ->
  new_order_rule same_id r p (x_remove id x) =
    (fst (new_order_rule same_id r p x), x_remove id (snd (new_order_rule same_id r p x))) /\
  x_lookup id (snd (new_order_rule same_id r p x)) = x_lookup id x.
Proof.
  intros Ha Hr. pose proof (about_numbered _ _ _ Ha) as Hn. rewrite (remove_sides _ _ _ Hn).
  unfold new_order_rule. set (sd := p_side p) in *.
  destruct (negb _ || _). { cbn [fst snd]. by rewrite (remove_sides sd id x Hn). }
  rewrite !x_side_opp, !x_side_own, !notices_with, !clock_with.
  destruct (trade same_id r p _ _ _ _) as [n1 [[[[base quote] makers] free]|]] eqn:Et.
  2:{ cbn [fst snd]. by rewrite (remove_sides sd id x Hn). }
  pose proof Ha as [Ht Hl (o&Eid&Ho)]. pose proof Ht as (Hc&_).
  destruct (trade_past same_id r (x_clock x) p _ _ _ _ _ _ (times_side x _ Ht) Et) as [_ Hmk].
  assert (Hnew : forall size (owner : C), x_id sd (mk_xorder (limit_price p) (x_clock x) size owner) <> id).
  { intros size owner E. rewrite Eid in E. apply x_id_time in E as [_ E]; cbn [x_time] in *; lia. }
  pose proof (post_without p id (x_clock x) base quote (x_side x sd) (Hl sd) Hnew Hr) as [P1 P2]. fold sd in P1, P2.
  change (if free then post_rest r p (x_clock x) base quote (keep sd id (x_side x sd)) else ([], None, keep sd id (x_side x sd), x_clock x))
    with (rest_of p free base quote (keep sd id (x_side x sd)) (x_clock x)).
  change (if free then post_rest r p (x_clock x) base quote (x_side x sd) else ([], None, x_side x sd, x_clock x))
    with (rest_of p free base quote (x_side x sd) (x_clock x)).
  assert (Ef : rest_of p free base quote (keep sd id (x_side x sd)) (x_clock x) =
      (let '(ns, posted, own', clock') := rest_of p free base quote (x_side x sd) (x_clock x) in (ns, posted, keep sd id own', clock')) /\
    List.find (fun o => x_id sd o =? id) (snd (fst (rest_of p free base quote (x_side x sd) (x_clock x)))) =
      List.find (fun o => x_id sd o =? id) (x_side x sd)).
  { unfold rest_of. by destruct free. }
  destruct Ef as [-> Eg]. clear P1 P2.
  destruct (rest_of p free base quote (x_side x sd) (x_clock x)) as [[[n2 posted] own'] clock'] eqn:Eq. cbn [fst snd] in Eg.
  destruct (rest_past _ _ _ _ _ _ _ _ _ _ (times_side x sd Ht) Eq) as [Hck Hown].
  pose proof (rest_clock _ _ _ _ _ _ _ _ _ _ Eq) as Hck'.
  destruct (_ <=? _)%nat; cbn [fst snd].
  2:{ by rewrite (remove_sides sd id x Hn). }
  assert (Hn' : numbered sd id (with_sides sd own' makers (x_notices x ++ n1 ++ n2) clock')).
  { eapply numbered_with; [exact Hn|eapply early_le; [|exact Hown]; lia|eapply early_le; [|exact Hmk]; lia]. }
  split.
  - by rewrite (remove_sides _ _ _ Hn'), x_side_own, x_side_opp, notices_with, clock_with.
  - rewrite !(lookup_side sd) by done. unfold x_find. by rewrite x_side_own.
Qed.

(** A new order on the other side that does not reach it. *)
Lemma new_opp p id x : let sd := opposite (p_side p) in about sd id x ->
  (forall o, o ∈ x_side x sd -> x_id sd o = id -> acceptable p o = false) ->
  new_order_rule same_id r p (x_remove id x) =
    (fst (new_order_rule same_id r p x), x_remove id (snd (new_order_rule same_id r p x))) /\
  x_lookup id (snd (new_order_rule same_id r p x)) = x_lookup id x.
Proof.
  intros sd Ha Hna. pose proof (about_numbered _ _ _ Ha) as Hn.
  assert (Hx : x_remove id x = with_sides (p_side p) (x_side x (p_side p)) (keep sd id (x_side x sd)) (x_notices x) (x_clock x)).
  { rewrite (remove_sides _ _ _ Hn). unfold sd. rewrite with_opp. by destruct (p_side p). }
  rewrite Hx. unfold new_order_rule. fold sd.
  destruct (negb _ || _). { cbn [fst snd]. by rewrite Hx. }
  unfold sd at 1. rewrite x_side_opp. fold sd. rewrite x_side_own, !notices_with, !clock_with.
  pose proof Ha as [Ht Hl (o&Eid&Ho)]. pose proof Ht as (Hc&_).
  rewrite (trade_without p id _ _ _ (x_side x sd) (Hl sd) Hna). fold sd.
  destruct (trade same_id r p _ _ _ _) as [n1 [[[[base quote] makers] free]|]] eqn:Et; cbn [option_map].
  2:{ cbn [fst snd]. by rewrite Hx. }
  destruct (trade_past same_id r (x_clock x) p _ _ _ _ _ _ (times_side x _ Ht) Et) as [_ Hmk].
  pose proof (trade_stay p id _ _ _ _ _ _ _ _ _ Hna Et) as Hst. fold sd in Hst.
  change (if free then post_rest r p (x_clock x) base quote (x_side x (p_side p)) else ([], None, x_side x (p_side p), x_clock x))
    with (rest_of p free base quote (x_side x (p_side p)) (x_clock x)).
  destruct (rest_of p free base quote (x_side x (p_side p)) (x_clock x)) as [[[n2 posted] own'] clock'] eqn:Eq.
  destruct (rest_past _ _ _ _ _ _ _ _ _ _ (times_side x _ Ht) Eq) as [Hck Hown].
  pose proof (rest_clock _ _ _ _ _ _ _ _ _ _ Eq) as Hck'.
  destruct (_ <=? _)%nat; cbn [fst snd]; [|by rewrite Hx].
  assert (Hn' : numbered sd id (with_sides (p_side p) own' makers (x_notices x ++ n1 ++ n2) clock')).
  { eapply numbered_with; [exact Hn|eapply early_le; [|exact Hown]; lia|eapply early_le; [|exact Hmk]; lia]. }
  split.
  - rewrite (remove_sides _ _ _ Hn'). unfold sd at 2 3 4. rewrite with_opp, x_side_opp, notices_with, clock_with.
    by destruct (p_side p).
  - rewrite !(lookup_side sd) by done. unfold x_find. unfold sd at 2. by rewrite x_side_opp.
Qed.

(** A new order on the other side that leaves it behind another one. *)
Lemma new_behind p id x a x' h t : let sd := opposite (p_side p) in about sd id x ->
  NoDup (map (x_id sd) (x_side x sd)) -> new_order_rule same_id r p x = (a, x') ->
  (exists i b q s, a = Accepted i b q s) -> x_side x' sd = h :: t -> id ∈ map (x_id sd) t ->
  new_order_rule same_id r p (x_remove id x) = (a, x_remove id x') /\ x_lookup id x' = x_lookup id x.
Proof.
  intros sd Ha Hnd Hr Hacc Hs Hin. pose proof (about_numbered _ _ _ Ha) as Hn.
  assert (Hx : x_remove id x = with_sides (p_side p) (x_side x (p_side p)) (keep sd id (x_side x sd)) (x_notices x) (x_clock x)).
  { rewrite (remove_sides _ _ _ Hn). unfold sd. rewrite with_opp. by destruct (p_side p). }
  rewrite Hx. revert Hr. unfold new_order_rule. fold sd.
  destruct (negb _ || _). { destruct Hacc as (i&b&q&s&->). done. }
  unfold sd at 2. rewrite x_side_opp. fold sd. rewrite x_side_own, !notices_with, !clock_with.
  pose proof Ha as [Ht Hl (o&Eid&Ho)]. pose proof Ht as (Hc&_).
  destruct (trade same_id r p _ _ _ (x_side x sd)) as [n1 [[[[base quote] makers] free]|]] eqn:Et.
  2:{ destruct Hacc as (i&b&q&s&->). by destruct (_ <=? _)%nat. }
  destruct (trade_past same_id r (x_clock x) p _ _ _ _ _ _ (times_side x _ Ht) Et) as [_ Hmk].
  change (if free then post_rest r p (x_clock x) base quote (x_side x (p_side p)) else ([], None, x_side x (p_side p), x_clock x))
    with (rest_of p free base quote (x_side x (p_side p)) (x_clock x)).
  destruct (rest_of p free base quote (x_side x (p_side p)) (x_clock x)) as [[[n2 posted] own'] clock'] eqn:Eq.
  destruct (rest_past _ _ _ _ _ _ _ _ _ _ (times_side x _ Ht) Eq) as [Hck Hown].
  pose proof (rest_clock _ _ _ _ _ _ _ _ _ _ Eq) as Hck'.
  destruct (_ <=? _)%nat eqn:Eroom. 2:{ destruct Hacc as (i&b&q&s&->). done. }
  intros E. injection E as Ea <-. unfold sd in Hs. rewrite x_side_opp in Hs. subst makers.
  destruct (trade_behind p id _ _ _ _ _ _ _ _ _ _ Hnd Et Hin) as [H1 H2]. fold sd in H1, H2. rewrite H1.
  change (if free then post_rest r p (x_clock x) base quote (x_side x (p_side p)) else ([], None, x_side x (p_side p), x_clock x))
    with (rest_of p free base quote (x_side x (p_side p)) (x_clock x)).
  rewrite Eq, Eroom, Ea.
  assert (Hn' : numbered sd id (with_sides (p_side p) own' (h :: t) (x_notices x ++ n1 ++ n2) clock')).
  { eapply numbered_with; [exact Hn|eapply early_le; [|exact Hown]; lia|eapply early_le; [|exact Hmk]; lia]. }
  split.
  - rewrite (remove_sides _ _ _ Hn'). unfold sd at 2 3 4. rewrite with_opp, x_side_opp, notices_with, clock_with.
    by destruct (p_side p).
  - rewrite !(lookup_side sd) by done. unfold x_find. unfold sd at 2. by rewrite x_side_opp.
Qed.

(** Cancelling other orders. *)
Lemma lookup_remove id id' (x : exchange C) : id' <> id -> x_lookup id' (x_remove id x) = x_lookup id' x.
Proof.
  intros Hn. unfold x_lookup, x_find, x_remove. cbn [x_side x_bids x_asks].
  fold (keep Bid id (x_bids x)) (keep Ask id (x_asks x)). by rewrite !find_keep.
Qed.
Lemma remove_remove id id' (x : exchange C) : x_remove id' (x_remove id x) = x_remove id (x_remove id' x).
Proof.
  unfold x_remove. cbn [x_side x_bids x_asks x_notices x_clock].
  fold (keep Bid id (x_bids x)) (keep Ask id (x_asks x)) (keep Bid id' (x_bids x)) (keep Ask id' (x_asks x)).
  f_equal; apply keep_keep.
Qed.
Lemma cancel_without id : forall ids base quote (x : exchange C), id ∉ ids ->
  cancel_rule ids base quote (x_remove id x) =
    (fst (cancel_rule ids base quote x), x_remove id (snd (cancel_rule ids base quote x))) /\
  x_lookup id (snd (cancel_rule ids base quote x)) = x_lookup id x.
Proof.
  induction ids as [|id' ids IH]; intros base quote x Hid; [done|]. apply not_elem_of_cons in Hid as [Hne Hid].
  cbn [cancel_rule]. rewrite lookup_remove by done. destruct (x_lookup id' x) as [o|]; [|done].
  destruct (_ && _); [|done]. rewrite remove_remove. destruct (IH (base + x_size o) (quote + x_size o * x_price o / 2 ^ 32) (x_remove id' x) Hid) as [H1 H2].
  rewrite H1. split; [done|]. rewrite H2. by apply lookup_remove.
Qed.

Definition room_now (o : op C) (sd : side) (x : exchange C) : Prop :=
  match o with NewOrder p => p_side p = sd -> has_room p x | _ => True end.
Lemma rule_without sd id o x : about sd id x -> leaves_alone sd id o -> room_now o sd x ->
  rule same_id r o (x_remove id x) = (fst (rule same_id r o x), x_remove id (snd (rule same_id r o x))) /\
  x_lookup id (snd (rule same_id r o x)) = x_lookup id x.
Proof.
  intros Ha Ho Hr. destruct o as [p|id'|ids|n]; cbn [rule leaves_alone room_now] in *.
  - destruct (side_cases (p_side p) sd) as [E|E].
    + subst sd. apply new_own; [done|by apply Hr].
    + subst sd. apply new_opp; [done|]. intros o Hin Eo. pose proof Ha as [Ht _ _]. pose proof Ht as (Hc&_).
      destruct Ho as [Ho|Ho]; [by destruct (p_side p)|].
      pose proof (times_side x (opposite (p_side p)) Ht) as He. unfold early in He. rewrite Forall_forall in He.
      specialize (He o Hin). cbn beta in He.
      rewrite <- Eo, x_id_price in Ho by lia. unfold acceptable. destruct (p_side p); cbn [opposite] in *; lia.
  - unfold all_or_nothing. destruct (cancel_without id [id'] 0 0 x) as [H1 H2]. { intros Hin. apply elem_of_list_singleton in Hin. congruence. }
    rewrite H1. destruct (cancel_rule [id'] 0 0 x) as [a x']. cbn [fst snd] in *. by destruct a.
  - unfold all_or_nothing. destruct (cancel_without id ids 0 0 x Ho) as [H1 H2].
    rewrite H1. destruct (cancel_rule ids 0 0 x) as [a x']. cbn [fst snd] in *. by destruct a.
  - done.
Qed.

(** How many orders a side has. *)
Lemma rule_length sd o x : (length (x_side (snd (rule same_id r o x)) sd) <= length (x_side x sd) + (if may_join sd o then 1 else 0))%nat.
Proof.
  assert (Hc : forall ids base quote (x : exchange C), (length (x_side (snd (cancel_rule ids base quote x)) sd) <= length (x_side x sd))%nat).
  { induction ids as [|id ids IH]; intros base quote y; [done|]. cbn [cancel_rule].
    destruct (x_lookup id y) as [o'|]; [|done]. destruct (_ && _); [|done].
    etransitivity; [apply IH|]. unfold x_remove. destruct sd; cbn [x_side x_bids x_asks]; apply keep_length. }
  destruct o as [p|id'|ids|n]; cbn [rule may_join].
  - unfold new_order_rule. destruct (negb _ || _); [cbn; lia|].
    destruct (trade same_id r p _ _ _ _) as [n1 [[[[base quote] makers] free]|]] eqn:Et; [|destruct (_ <=? _)%nat; cbn; lia].
    change (if free then post_rest r p (x_clock x) base quote (x_side x (p_side p)) else ([], None, x_side x (p_side p), x_clock x))
      with (rest_of p free base quote (x_side x (p_side p)) (x_clock x)).
    destruct (rest_of p free base quote (x_side x (p_side p)) (x_clock x)) as [[[n2 posted] own'] clock'] eqn:Eq.
    destruct (_ <=? _)%nat; cbn [fst snd]; [|lia].
    assert (Hmk : (length makers <= length (x_side x (opposite (p_side p))))%nat).
    { destruct (trade_tail p _ _ _ _ _ _ _ _ _ Et) as (pre&[->|(o1&o'&l'&->&->&_)]); rewrite app_length; cbn; lia. }
    assert (Hown : (length own' <= length (x_side x (p_side p)) + (if post_allowed p then 1 else 0))%nat).
    { revert Eq. unfold rest_of, post_rest. destruct free; [|intros E; injection E as <- <- <- <-; lia].
      destruct (post_allowed p); cbn [negb orb]; [|intros E; injection E as <- <- <- <-; lia].
      destruct (_ <? r_min r); [intros E; injection E as <- <- <- <-; lia|].
      destruct (_ <? _)%nat; [intros E; injection E as <- <- <- <-; rewrite join_length; lia|].
      destruct (last _) eqn:El; [|intros E; injection E as <- <- <- <-; lia].
      destruct (not_worse _ _ _); intros E; injection E as <- <- <- <-; [lia|]. rewrite join_length.
      assert (Hrl : forall l : list (xorder C), (length (removelast l) <= length l)%nat).
      { intros l. induction l as [|a l IH]; [done|]. cbn. destruct l; cbn in *; lia. }
      pose proof (Hrl (x_side x (p_side p))). lia. }
    destruct (side_cases (p_side p) sd) as [-> | ->].
    + rewrite x_side_own. destruct (post_allowed p), (p_side p); cbn in *; lia.
    + rewrite x_side_opp. destruct (p_side p); cbn in *; lia.
  - pose proof (Hc [id'] 0 0 x) as H. unfold all_or_nothing. destruct (cancel_rule [id'] 0 0 x) as [a x']. destruct a; cbn in *; lia.
  - pose proof (Hc ids 0 0 x) as H. unfold all_or_nothing. destruct (cancel_rule ids 0 0 x) as [a x']. destruct a; cbn in *; lia.
  - destruct sd; cbn; lia.
Qed.
End Without.
