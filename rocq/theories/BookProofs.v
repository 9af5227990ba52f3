(** * BookProofs.v: the array code of new_order computes the list functions of Engine.v *)
From Verif Require Import Machine Bytes Critbit EventQueue OrderBook Market Spec MachineProofs TreeProofs
  SlabProofs SlabProofs2 QueueProofs IdProofs Engine.
From Coq Require Import ZifyBool ZifyNat ZifyN.
From Coq Require Import Sorting.Sorted.

Global Arguments afford : simpl never.
Global Arguments quote_of : simpl never.
Global Arguments match_step : simpl never.
Global Arguments match_loop : simpl never.
Global Arguments post_leaf : simpl never.
Global Arguments try_insert : simpl never.
Global Arguments new_order : simpl never.
Global Arguments no_post : simpl never.
Global Arguments find_bbo : simpl never.
Global Arguments push_out : simpl never.
Global Arguments o_id : simpl never.
Global Arguments o_qty : simpl never.
Global Arguments o_price : simpl never.
Global Arguments o_cb : simpl never.

Section BookProofs.
Context {C : Type} (same_id : C -> C -> bool).
Implicit Types s : slab C.
Implicit Types b : book C.
Implicit Types os : list (order C).

(** ** Lists in priority order *)
Lemma prio_prio {A} sd (l : list A) : prio sd (prio sd l) = l.
Proof. destruct sd; cbn; [apply rev_involutive|done]. Qed.
Lemma prio_length {A} sd (l : list A) : length (prio sd l) = length l.
Proof. destruct sd; cbn; [apply rev_length|done]. Qed.
Lemma prio_elem {A} sd (l : list A) x : x ∈ prio sd l <-> x ∈ l.
Proof. destruct sd; cbn; [|done]. rewrite !elem_of_list_In. symmetry. apply in_rev. Qed.
Lemma prio_map {A B} sd (f : A -> B) l : prio sd (map f l) = map f (prio sd l).
Proof. destruct sd; cbn; [by rewrite map_rev|done]. Qed.
Lemma prio_nil {A} sd (l : list A) : prio sd l = [] -> l = [].
Proof. intros H. rewrite <- (prio_prio sd l), H. by destruct sd. Qed.

Definition lrep (sd : side) s os : Prop :=
  exists es, srep s es /\ os = prio sd (map e_order es).

Lemma lrep_traverse sd s os : lrep sd s os -> traverse s = Ok (prio sd os).
Proof. intros (es&Hs&->). rewrite prio_prio. by apply traverse_ok. Qed.
Lemma lrep_count sd s os : lrep sd s os -> leaf_count (hdr s) = N.of_nat (length os).
Proof. intros (es&Hs&->). rewrite prio_length, map_length. by apply srep_length. Qed.
Lemma lrep_dims sd s os : lrep sd s os -> dims s.
Proof. intros (es&Hs&->). by eapply srep_dims. Qed.
Lemma lrep_le sd s os : lrep sd s os -> (length os <= length (leaf_nodes s))%nat.
Proof. intros (es&Hs&->). rewrite prio_length, map_length. by apply srep_le_cap. Qed.
Lemma lrep_id_lt sd s os o : lrep sd s os -> o ∈ os -> o_id o < p128.
Proof.
  intros (es&Hs&->) Ho. apply prio_elem in Ho. apply elem_of_list_fmap_2 in Ho as (e&->&He).
  by eapply srep_key_lt in He.
Qed.

Definition sorted (sd : side) os : Prop :=
  StronglySorted (fun x y : order C => before sd (o_id x) (o_id y) = true) os.

Lemma ss_snoc {A} (R : A -> A -> Prop) l x :
  StronglySorted R l -> Forall (fun y => R y x) l -> StronglySorted R (l ++ [x]).
Proof.
  induction 1 as [|y l Hl IH Hy]; intros Hf; cbn; [by repeat constructor|].
  apply Forall_cons in Hf as [? ?]. constructor; [by apply IH|].
  apply Forall_app. split; [done|]. by repeat constructor.
Qed.
Lemma ss_rev {A} (R : A -> A -> Prop) l :
  StronglySorted R l -> StronglySorted (fun x y => R y x) (rev l).
Proof.
  induction 1 as [|x l Hl IH Hx]; cbn; [constructor|].
  apply ss_snoc; [done|]. by apply Forall_rev.
Qed.
Lemma ss_mapR {A B} (R : B -> B -> Prop) (f : A -> B) l :
  StronglySorted R (map f l) -> StronglySorted (fun x y => R (f x) (f y)) l.
Proof.
  induction l as [|x l IH]; cbn; intros H; [constructor|].
  inversion H as [|?? H1 H2]; subst. constructor; [by apply IH|].
  apply Forall_forall. intros y Hy. rewrite Forall_forall in H2. apply H2.
  by apply elem_of_list_fmap_1.
Qed.
Lemma ss_impl {A} (R R' : A -> A -> Prop) l : (forall x y, R x y -> R' x y) ->
  StronglySorted R l -> StronglySorted R' l.
Proof.
  intros HR. induction 1 as [|x l Hl IH Hx]; constructor; [done|].
  eapply Forall_impl; [exact Hx|]. auto.
Qed.
Lemma lrep_sorted sd s os : lrep sd s os -> sorted sd os.
Proof.
  intros (es&Hs&->). apply srep_sorted in Hs.
  assert (H : StronglySorted (fun x y : order C => o_id x < o_id y) (map e_order es)).
  { apply ss_mapR. rewrite map_map. done. }
  unfold sorted. destruct sd; cbn.
  - apply ss_rev in H. eapply ss_impl; [|exact H]. intros x y Hxy; cbn in *; by apply N.ltb_lt.
  - eapply ss_impl; [|exact H]. intros x y Hxy; cbn in *; by apply N.ltb_lt.
Qed.
Lemma sorted_app sd os1 os2 : sorted sd (os1 ++ os2) ->
  sorted sd os1 /\ sorted sd os2 /\
  forall x y, x ∈ os1 -> y ∈ os2 -> before sd (o_id x) (o_id y) = true.
Proof.
  induction os1 as [|x os1 IH]; cbn; intros H.
  - split; [constructor|]. split; [done|]. intros ? ? Ha. by apply elem_of_nil in Ha.
  - inversion H as [|?? H1 H2]; subst. apply IH in H1 as (Ha&Hb&Hc).
    apply Forall_app in H2 as [H2 H3]. split; [by constructor|]. split; [done|].
    intros x0 y Hin Hin2. apply elem_of_cons in Hin as [->|Hin]; [|by apply Hc].
    by eapply Forall_forall in H3.
Qed.
Lemma before_irrefl sd a : before sd a a = false.
Proof. destruct sd; cbn; lia. Qed.
Lemma before_asym sd (a b : N) : before sd a b = true -> before sd b a = false.
Proof. destruct sd; cbn; lia. Qed.
Lemma before_total sd (a b : N) : a <> b -> before sd a b = false -> before sd b a = true.
Proof. destruct sd; cbn; lia. Qed.
Lemma before_trans sd (a b c : N) : before sd a b = true -> before sd b c = true -> before sd a c = true.
Proof. destruct sd; cbn; lia. Qed.

Lemma ins_sorted_split sd o os1 os2 :
  sorted sd (os1 ++ o :: os2) -> ins sd o (os1 ++ os2) = os1 ++ o :: os2.
Proof.
  induction os1 as [|x os1 IH]; cbn; intros H.
  - destruct os2 as [|y os2]; [done|]. cbn. inversion H as [|?? _ Hf]; subst.
    apply Forall_cons in Hf as [-> _]. done.
  - inversion H as [|?? H1 Hf]; subst. rewrite IH by done.
    rewrite before_asym; [done|]. apply Forall_app in Hf as [_ Hf].
    by apply Forall_cons in Hf as [? _].
Qed.

(** Focusing on an order. *)
Lemma lrep_focus sd s os1 o os2 : lrep sd s (os1 ++ o :: os2) ->
  exists es1 e es2, srep s (es1 ++ e :: es2) /\ e_order e = o /\
    os1 = map e_order (match sd with Bid => rev es2 | Ask => es1 end) /\
    os2 = map e_order (match sd with Bid => rev es1 | Ask => es2 end).
Proof.
  intros (es&Hs&He).
  assert (Hes : map e_order es = prio sd (os1 ++ o :: os2)) by (by rewrite He, prio_prio).
  destruct sd; cbn in *.
  - rewrite rev_app_distr in Hes. cbn in Hes. rewrite <- app_assoc in Hes.
    apply map_app_split in Hes as (es1&es'&->&H1&H2). cbn in H2.
    destruct es' as [|e es2]; [done|]. cbn in H2. injection H2 as H2 H3.
    exists es1, e, es2. split; [done|]. split; [done|].
    rewrite !map_rev. split; [by rewrite H3, rev_involutive|by rewrite H1, rev_involutive].
  - apply map_app_split in Hes as (es1&es'&->&H1&H2).
    destruct es' as [|e es2]; [done|]. cbn in H2. injection H2 as H2 H3.
    by exists es1, e, es2.
Qed.
Lemma prio_mid sd (es1 es2 : list (@ent C)) e :
  map e_order (match sd with Bid => rev es2 | Ask => es1 end) ++
  e_order e :: map e_order (match sd with Bid => rev es1 | Ask => es2 end) =
  prio sd (map e_order (es1 ++ e :: es2)).
Proof.
  destruct sd; cbn; rewrite map_app; cbn; [|done].
  rewrite rev_app_distr. cbn. rewrite <- app_assoc, !map_rev. done.
Qed.
Lemma prio_del sd (es1 es2 : list (@ent C)) :
  map e_order (match sd with Bid => rev es2 | Ask => es1 end) ++
  map e_order (match sd with Bid => rev es1 | Ask => es2 end) =
  prio sd (map e_order (es1 ++ es2)).
Proof.
  destruct sd; cbn; rewrite map_app; [|done]. by rewrite rev_app_distr, !map_rev.
Qed.
Lemma lrep_remove sd s os1 o os2 : lrep sd s (os1 ++ o :: os2) ->
  exists s', remove_by_key (o_id o) s = (Ok (Some o), s') /\
    lrep sd s' (os1 ++ os2) /\ same_dims s s'.
Proof.
  intros H. destruct (lrep_focus _ _ _ _ _ H) as (es1&e&es2&Hs&<-&->&->).
  destruct (remove_present s es1 e es2 Hs) as (s'&Hr&Hs'&Hd&_).
  exists s'. split; [exact Hr|]. split; [|done]. exists (es1 ++ es2).
  split; [done|]. apply prio_del.
Qed.
Definition handle_of s (h : N) (o : order C) : Prop :=
  idx (leaf_nodes s) h = Ok (fst o) /\ idx (callback_infos s) h = Ok (snd o).

Definition find_best (sd : side) s := match sd with Bid => find_max s | Ask => find_min s end.
Definition find_worst (sd : side) s := match sd with Bid => find_min s | Ask => find_max s end.

Lemma rev_nil {A} (l : list A) : rev l = [] -> l = [].
Proof. intros H. by rewrite <- (rev_involutive l), H. Qed.
Lemma lrep_handle sd s os1 o os2 : lrep sd s (os1 ++ o :: os2) ->
  exists h, handle_of s h o /\
    (os1 = [] -> find_best sd s = Ok (Some h)) /\
    (os2 = [] -> find_worst sd s = Ok (Some h)) /\
    (forall lf, lf_key lf = o_id o ->
       exists s', write_leaf h lf s = (Ok tt, s') /\
         lrep sd s' (os1 ++ (lf, o_cb o) :: os2) /\ same_dims s s').
Proof.
  intros H. destruct (lrep_focus _ _ _ _ _ H) as (es1&e&es2&Hs&<-&->&->).
  exists (e_h e). split; [|split; [|split]].
  - destruct (srep_entry _ _ e Hs) as (?&?&?); [apply elem_of_app; right; left|].
    split; by apply idx_Some.
  - intros Hn. apply map_eq_nil in Hn.
    destruct sd; cbn in *; [apply rev_nil in Hn; unfold find_max|unfold find_min]; subst;
      rewrite (find_min_max_ok _ _ _ Hs); [by rewrite last_snoc|done].
  - intros Hn. apply map_eq_nil in Hn.
    destruct sd; cbn in *; [apply rev_nil in Hn; unfold find_min|unfold find_max]; subst;
      rewrite (find_min_max_ok _ _ _ Hs); [done|by rewrite last_snoc].
  - intros lf Hk. destruct (write_leaf_srep s es1 e es2 lf Hs Hk) as (s'&Hw&Hs'&Hd&_).
    exists s'. split; [done|]. split; [|done]. eexists. split; [exact Hs'|].
    rewrite <- prio_mid. done.
Qed.
Lemma lrep_best_nil sd s : lrep sd s [] -> find_best sd s = Ok None.
Proof.
  intros (es&Hs&He). symmetry in He. apply prio_nil, map_eq_nil in He as ->.
  destruct sd; cbn; [unfold find_max|unfold find_min]; by rewrite (find_min_max_ok _ _ _ Hs).
Qed.

Lemma lrep_insert sd s os lf :
  lrep sd s os -> lf_key lf < p128 -> lf_key lf ∉ map o_id os ->
  (length os < length (leaf_nodes s))%nat ->
  exists h s', insert_leaf lf s = (Ok (h, None), s') /\ same_dims s s' /\
    forall c, exists s'', set_callback_info h c s' = (Ok tt, s'') /\ same_dims s s'' /\
      lrep sd s'' (ins sd (lf, c) os).
Proof.
  intros (es&Hs&->) Hk Hni Hlt. rewrite prio_length, map_length in Hlt.
  destruct (insert_fresh s es lf Hs Hk) as (h&c0&es1&es2&s'&->&Hi&Hs'&Hd&Hcb); [|done|].
  { intros Hin. apply Hni. rewrite <- prio_map. apply prio_elem. rewrite map_map. done. }
  exists h, s'. split; [done|]. split; [done|]. intros c.
  destruct (set_callback_srep s' es1 (mk_ent h lf c0) es2 c Hs') as (s''&Hc&Hs''&Hd').
  exists s''. split; [exact Hc|]. split; [by eapply same_dims_trans|].
  exists (es1 ++ mk_ent h lf c :: es2). split; [exact Hs''|].
  rewrite <- prio_del, <- prio_mid. apply ins_sorted_split.
  eapply lrep_sorted. exists (es1 ++ mk_ent h lf c :: es2). split; [exact Hs''|].
  by rewrite <- prio_mid.
Qed.
Lemma lrep_insert_full sd s os lf :
  lrep sd s os -> lf_key lf < p128 -> lf_key lf ∉ map o_id os ->
  length os = length (leaf_nodes s) ->
  insert_leaf lf s = (Err SlabOutOfSpace, s).
Proof.
  intros (es&Hs&->) Hk Hni Hlt. rewrite prio_length, map_length in Hlt.
  eapply insert_full; [done|done| |done].
  intros Hin. apply Hni. rewrite <- prio_map. apply prio_elem. rewrite map_map. done.
Qed.

(** ** The loop *)
Record brep b (opp : side) os_own os_opp (pend : list (event_ref C)) : Prop := mk_brep {
  br_own : lrep (opposite opp) (tree b (opposite opp)) os_own;
  br_opp : lrep opp (tree b opp) os_opp;
  br_q : qrep (evq b) pend;
}.
Definition same_shape b b' : Prop :=
  same_dims (bids b) (bids b') /\ same_dims (asks b) (asks b') /\
  q_cap (evq b') = q_cap (evq b).
Lemma same_shape_refl b : same_shape b b.
Proof. done. Qed.
Lemma same_shape_trans b1 b2 b3 : same_shape b1 b2 -> same_shape b2 b3 -> same_shape b1 b3.
Proof.
  intros (?&?&?) (?&?&?). split; [by eapply same_dims_trans|].
  split; [by eapply same_dims_trans|]. congruence.
Qed.

Lemma tree_set_eq sd t b : tree (set_tree sd t b) sd = t.
Proof. by destruct sd. Qed.
Lemma tree_set_ne sd t b : tree (set_tree sd t b) (opposite sd) = tree b (opposite sd).
Proof. by destruct sd. Qed.
Lemma tree_set_ne' sd t b : tree (set_tree (opposite sd) t b) sd = tree b sd.
Proof. by destruct sd. Qed.
Lemma evq_set_tree sd t b : evq (set_tree sd t b) = evq b.
Proof. by destruct sd. Qed.
Lemma tree_set_evq q b sd : tree (set_evq q b) sd = tree b sd.
Proof. by destruct sd. Qed.
Lemma opp_opp sd : opposite (opposite sd) = sd.
Proof. by destruct sd. Qed.
Lemma shape_set_tree sd t b : same_dims (tree b sd) t -> same_shape b (set_tree sd t b).
Proof. by destruct sd. Qed.
Lemma shape_set_evq q b : q_cap q = q_cap (evq b) -> same_shape b (set_evq q b).
Proof. done. Qed.
Lemma on_tree_ok {A} sd (m : M (slab C) A) b r t :
  m (tree b sd) = (r, t) -> on_tree sd m b = (r, set_tree sd t b).
Proof. intros H. unfold on_tree, zoom. by rewrite H. Qed.
Lemma on_evq_ok {A} (m : M (queue C) A) b r q :
  m (evq b) = (r, q) -> on_evq m b = (r, set_evq q b).
Proof. intros H. unfold on_evq, zoom. by rewrite H. Qed.

Definition order_typed (o : order C) : Prop := o_id o < p128 /\ o_qty o < p64.
Definition locals_typed (l : locals) : Prop := l_limit l < p64 /\ l_base l < p64 /\ l_quote l < p64.

Lemma trade_facts sd l (o : order C) : locals_typed l -> order_typed o ->
  trade_base l o <= o_qty o /\ trade_base l o <= l_base l /\
  trade_base l o * o_price o <= l_quote l * p32 /\
  quote_of sd (trade_base l o) (o_price o) <= l_quote l.
Proof.
  intros (?&?&?) (?&?). unfold trade_base.
  assert (H4 : N.min (N.min (o_qty o) (l_base l)) (afford (l_quote l) (o_price o)) * o_price o
          <= l_quote l * p32).
  { apply afford_spec; lia. }
  split; [lia|]. split; [lia|]. split; [done|]. by apply quote_of_le.
Qed.

Lemma push_out_room b sd own opp pend o q : brep b sd own opp pend ->
  N.of_nat (length pend) < q_cap (evq b) -> o_id o < p128 -> q < p64 -> forall sd',
  exists b', push_out sd' (o_id o) q (o_cb o) b = (Ok tt, b') /\
    brep b' sd own opp (pend ++ [ev_out sd' o q]) /\
    bids b' = bids b /\ asks b' = asks b /\ q_seq (evq b') = q_seq (evq b) /\
    q_cap (evq b') = q_cap (evq b).
Proof.
  intros [Ho Hp Hq] Hlt Hid Hqt sd'.
  destruct (push_out_ok (evq b) pend (mk_out_event tag_out (side_u8 sd') 0 (o_id o) q) (o_cb o) Hq Hlt)
    as (q'&Hpush&Hq'&Hs&Hc).
  { unfold out_typed; cbn. by destruct sd'. }
  exists (set_evq q' b). split; [|split; [|done]].
  - unfold push_out. by apply on_evq_ok.
  - split; rewrite ?tree_set_evq; done.
Qed.
Lemma push_out_full b sd own opp pend id q cb : brep b sd own opp pend ->
  N.of_nat (length pend) = q_cap (evq b) -> forall sd',
  push_out sd' id q cb b = (Err EventQueueFull, b).
Proof.
  intros [Ho Hp Hq] He sd'. unfold push_out.
  erewrite on_evq_ok by (by eapply push_back_full). by destruct b.
Qed.

(** One iteration. *)
Definition room b (pend E : list (event_ref C)) : Prop :=
  N.of_nat (length pend + length E) <= q_cap (evq b).
Global Instance room_dec b pend E : Decision (room b pend E).
Proof. unfold room. apply _. Defined.

Lemma find_bbo_best b sd : find_bbo b sd = find_best sd (tree b sd).
Proof. by destruct sd. Qed.

Lemma step_ok p min l b own opp pend :
  let sd := p_side p in
  brep b (opposite sd) own opp pend -> locals_typed l -> Forall order_typed opp ->
  match estep same_id p min l opp with
  | EBreak l' => match_step same_id p min l b = (Ok (ItBreak l'), b)
  | EAbort => match_step same_id p min l b = (Err WouldSelfTrade, b)
  | ENext l' opp' E =>
      (room b pend E -> exists b', match_step same_id p min l b = (Ok (ItNext l'), b') /\
         brep b' (opposite sd) own opp' (pend ++ E) /\ same_shape b b' /\
         q_seq (evq b') = q_seq (evq b) /\ tree b' sd = tree b sd) /\
      (~ room b pend E -> exists b', match_step same_id p min l b = (Err EventQueueFull, b'))
  end.
Proof.
  intros sd Hb Hl Hty. unfold estep, match_step. fold sd.
  destruct (N.eqb_spec (l_limit l) 0) as [Hl0|Hl0]; [done|].
  pose proof Hb as [Hown Hopp Hq]. rewrite bind_get, find_bbo_best.
  destruct opp as [|o rest].
  { rewrite (bind_lift _ _ _ _ (lrep_best_nil _ _ Hopp)). done. }
  destruct (lrep_handle _ _ [] o rest Hopp) as (h&[Hh1 Hh2]&Hbest&_&Hwrite).
  rewrite (bind_lift _ _ _ _ (Hbest eq_refl)). cbn beta iota.
  rewrite (bind_lift _ _ _ _ Hh1).
  change (price_from_key (lf_key (fst o))) with (o_price o).
  change (lf_key (fst o)) with (o_id o). change (lf_qty (fst o)) with (o_qty o).
  apply Forall_cons in Hty as [Hto Htr].
  pose proof (trade_facts sd l o Hl Hto) as (T1&T2&T3&T4).
  destruct Hl as (L1&L2&L3). destruct Hto as [To1 To2].
  unfold crosses.
  set (crossed := match sd with Bid => o_price o <=? limit_price p | Ask => limit_price p <=? o_price o end).
  destruct (post_only p || negb crossed); [done|].
  fold (afford (l_quote l) (o_price o)). fold (trade_base l o).
  set (base := trade_base l o) in *.
  destruct (N.eqb_spec base 0) as [Hb0|Hb0]; [done|].
  rewrite (bind_lift _ (quote_of sd base (o_price o))).
  2:{ rewrite (quote_of_fp sd base (o_price o) (l_quote l)) by done. done. }
  rewrite (N.min_l _ _ T4). set (quote := quote_of sd base (o_price o)) in *.
  destruct (N.eqb_spec quote 0) as [Hq0|Hq0]; [done|].
  rewrite (bind_lift _ _ _ _ Hh2). change (snd o) with (o_cb o).
  unfold is_self.
  set (opsd := opposite sd) in *.
  pose proof (qrep_len _ _ Hq) as Hroom.
  destruct (match stb p with
            | DecrementTake => false
            | _ => same_id (p_callback p) (o_cb o)
            end) eqn:Hself.
  - destruct (stb p) eqn:Hstb; [done| |done].
    split.
    + unfold room. rewrite app_length || idtac. cbn [length]. intros Hr.
      destruct (push_out_room b _ _ _ _ o (o_qty o) Hb ltac:(lia) To1 To2 opsd)
        as (b1&Hp1&Hb1&Hbi&Has&Hsq&Hcp).
      rewrite (bind_ok _ _ _ _ _ Hp1).
      pose proof Hb1 as [Hown1 Hopp1 Hq1].
      destruct (lrep_remove _ _ [] o rest Hopp1) as (s'&Hrm&Hrep'&Hd').
      rewrite (bind_ok _ _ _ _ _ (on_tree_ok _ _ _ _ _ Hrm)).
      rewrite bind_lift with (a := o) by done.
      erewrite bind_lift by (apply sub_w_ok; lia).
      exists (set_tree opsd s' b1). split; [done|].
      assert (Hsh : same_shape b b1).
      { split; [by rewrite Hbi|]. split; [by rewrite Has|]. done. }
      split; [|split; [|split]].
      * split; rewrite ?tree_set_ne, ?tree_set_eq, ?evq_set_tree; done.
      * eapply same_shape_trans; [exact Hsh|]. by apply shape_set_tree.
      * by rewrite evq_set_tree.
      * unfold opsd. rewrite tree_set_ne'. destruct (p_side p); [exact Hbi|exact Has].
    + unfold room. cbn [length]. intros Hr.
      rewrite (bind_err _ _ _ _ _ (push_out_full b _ _ _ _ (o_id o) (o_qty o) (o_cb o) Hb ltac:(lia) opsd)).
      by exists b.
  - (* a fill *)
    assert (Hfull : N.of_nat (length pend) = q_cap (evq b) -> forall k,
      bind (on_evq (push_back
              (fill_to_generic (mk_fill_event tag_fill (side_u8 sd) 0 quote (o_id o) base))
              (Some (o_cb o)) (Some (p_callback p)))) k b =
      (Err EventQueueFull, b) :> res iter_result * book C).
    { intros He k. apply bind_err. erewrite on_evq_ok by (by eapply push_back_full).
      by destruct b. }
    assert (Hfill : N.of_nat (length pend) < q_cap (evq b) -> exists b1,
      on_evq (push_back
              (fill_to_generic (mk_fill_event tag_fill (side_u8 sd) 0 quote (o_id o) base))
              (Some (o_cb o)) (Some (p_callback p))) b = (Ok tt, b1) /\
      brep b1 opsd own (o :: rest) (pend ++ [ev_fill p o base quote]) /\
      bids b1 = bids b /\ asks b1 = asks b /\ q_seq (evq b1) = q_seq (evq b) /\
      q_cap (evq b1) = q_cap (evq b)).
    { intros Hlt. destruct (push_fill_ok (evq b) pend
        (mk_fill_event tag_fill (side_u8 sd) 0 quote (o_id o) base) (o_cb o) (p_callback p) Hq Hlt)
        as (q'&Hpush&Hq'&Hs&Hc).
      exists (set_evq q' b). split; [by apply on_evq_ok|]. split; [|done].
      split; rewrite ?tree_set_evq; done. }
    destruct (N.ltb_spec (o_qty o - base) min) as [Hdust|Hdust].
    + (* the maker order leaves the book *)
      split.
      * unfold room. cbn [length]. intros Hr.
        destruct Hfill as (b1&Hp1&Hb1&Hbi&Has&Hsq&Hcp); [lia|].
        rewrite (bind_ok _ _ _ _ _ Hp1).
        erewrite bind_lift by (apply sub_w_ok; lia).
        assert (Ht1 : tree b1 opsd = tree b opsd) by (destruct opsd; cbn; congruence).
        destruct (Hwrite (mk_leaf (o_id o) (o_qty o - base)) eq_refl) as (s1&Hw&Hrep1&Hd1).
        rewrite <- Ht1 in Hw, Hd1.
        rewrite (bind_ok _ _ _ _ _ (on_tree_ok _ _ _ _ _ Hw)).
        erewrite bind_lift by (apply sub_w_ok; lia).
        erewrite bind_lift by (apply sub_w_ok; lia).
        set (o' := (mk_leaf (o_id o) (o_qty o - base), o_cb o) : order C) in *.
        destruct (lrep_remove _ _ [] o' rest Hrep1) as (s2&Hrm&Hrep2&Hd2).
        set (b2 := set_tree opsd s1 b1).
        assert (Ht2 : tree b2 opsd = s1) by apply tree_set_eq.
        assert (Hb2 : brep b2 opsd own (o' :: rest) (pend ++ [ev_fill p o base quote])).
        { destruct Hb1. split; unfold b2; rewrite ?tree_set_ne, ?tree_set_eq, ?evq_set_tree; done. }
        rewrite (proj2 (N.ltb_lt _ _) Hdust).
        rewrite bind_assoc. rewrite <- Ht2 in Hrm.
        change (o_id o') with (o_id o) in Hrm.
        rewrite (bind_ok _ _ _ _ _ (on_tree_ok _ _ _ _ _ Hrm)).
        rewrite bind_assoc, bind_lift with (a := o') by done. cbn [snd o'].
        set (b3 := set_tree opsd s2 b2).
        assert (Hb3 : brep b3 opsd own rest (pend ++ [ev_fill p o base quote])).
        { destruct Hb2. split; unfold b3; rewrite ?tree_set_ne, ?tree_set_eq, ?evq_set_tree; done. }
        assert (Hq3 : evq b3 = evq b1) by (unfold b3, b2; by rewrite !evq_set_tree).
        destruct (push_out_room b3 _ _ _ _ o (o_qty o - base) Hb3) with (sd' := opsd)
          as (b4&Hp4&Hb4&Hbi4&Has4&Hsq4&Hcp4); [|done|lia|].
        { rewrite app_length, Hq3, Hcp. cbn. lia. }
        rewrite (bind_ok _ _ _ _ _ Hp4).
        erewrite bind_lift by (apply sub_w_ok; lia).
        exists b4. split; [done|].
        assert (S1 : same_shape b b1).
        { split; [by rewrite Hbi|]. split; [by rewrite Has|]. done. }
        assert (S2 : same_shape b1 b2) by (by apply shape_set_tree).
        assert (S3 : same_shape b2 b3) by (apply shape_set_tree; by rewrite Ht2).
        assert (S4 : same_shape b3 b4).
        { split; [by rewrite Hbi4|]. split; [by rewrite Has4|]. done. }
        split; [|split; [|split]].
        -- rewrite <- app_assoc in Hb4. exact Hb4.
        -- eauto using same_shape_trans.
        -- rewrite Hsq4, Hq3. done.
        -- assert (Ht4 : forall x, tree b4 x = tree b3 x) by (intros []; [exact Hbi4|exact Has4]).
           rewrite Ht4.
           unfold b3, b2, opsd. rewrite !tree_set_ne'.
           destruct (p_side p); [exact Hbi|exact Has].
      * unfold room. cbn [length]. intros Hr.
        destruct (decide (N.of_nat (length pend) = q_cap (evq b))) as [He|He].
        { rewrite (Hfull He). by exists b. }
        destruct Hfill as (b1&Hp1&Hb1&Hbi&Has&Hsq&Hcp); [lia|].
        rewrite (bind_ok _ _ _ _ _ Hp1).
        erewrite bind_lift by (apply sub_w_ok; lia).
        assert (Ht1 : tree b1 opsd = tree b opsd) by (destruct opsd; cbn; congruence).
        destruct (Hwrite (mk_leaf (o_id o) (o_qty o - base)) eq_refl) as (s1&Hw&Hrep1&Hd1).
        rewrite <- Ht1 in Hw, Hd1.
        rewrite (bind_ok _ _ _ _ _ (on_tree_ok _ _ _ _ _ Hw)).
        erewrite bind_lift by (apply sub_w_ok; lia).
        erewrite bind_lift by (apply sub_w_ok; lia).
        set (o' := (mk_leaf (o_id o) (o_qty o - base), o_cb o) : order C) in *.
        destruct (lrep_remove _ _ [] o' rest Hrep1) as (s2&Hrm&Hrep2&Hd2).
        set (b2 := set_tree opsd s1 b1).
        assert (Ht2 : tree b2 opsd = s1) by apply tree_set_eq.
        assert (Hb2 : brep b2 opsd own (o' :: rest) (pend ++ [ev_fill p o base quote])).
        { destruct Hb1. split; unfold b2; rewrite ?tree_set_ne, ?tree_set_eq, ?evq_set_tree; done. }
        rewrite (proj2 (N.ltb_lt _ _) Hdust).
        rewrite bind_assoc. rewrite <- Ht2 in Hrm.
        change (o_id o') with (o_id o) in Hrm.
        rewrite (bind_ok _ _ _ _ _ (on_tree_ok _ _ _ _ _ Hrm)).
        rewrite bind_assoc, bind_lift with (a := o') by done. cbn [snd o'].
        set (b3 := set_tree opsd s2 b2).
        assert (Hb3 : brep b3 opsd own rest (pend ++ [ev_fill p o base quote])).
        { destruct Hb2. split; unfold b3; rewrite ?tree_set_ne, ?tree_set_eq, ?evq_set_tree; done. }
        assert (Hq3 : evq b3 = evq b1) by (unfold b3, b2; by rewrite !evq_set_tree).
        exists b3. apply bind_err. eapply push_out_full; [exact Hb3|].
        rewrite app_length, Hq3, Hcp. cbn. lia.
    + split.
      * unfold room. cbn [length]. intros Hr.
        destruct Hfill as (b1&Hp1&Hb1&Hbi&Has&Hsq&Hcp); [lia|].
        rewrite (bind_ok _ _ _ _ _ Hp1).
        erewrite bind_lift by (apply sub_w_ok; lia).
        assert (Ht1 : tree b1 opsd = tree b opsd) by (destruct opsd; cbn; congruence).
        destruct (Hwrite (mk_leaf (o_id o) (o_qty o - base)) eq_refl) as (s1&Hw&Hrep1&Hd1).
        rewrite <- Ht1 in Hw, Hd1.
        rewrite (bind_ok _ _ _ _ _ (on_tree_ok _ _ _ _ _ Hw)).
        erewrite bind_lift by (apply sub_w_ok; lia).
        erewrite bind_lift by (apply sub_w_ok; lia).
        rewrite (proj2 (N.ltb_ge _ _) Hdust), bind_ret.
        erewrite bind_lift by (apply sub_w_ok; lia).
        exists (set_tree opsd s1 b1). split; [done|].
        assert (S1 : same_shape b b1).
        { split; [by rewrite Hbi|]. split; [by rewrite Has|]. done. }
        split; [|split; [|split]].
        -- destruct Hb1. split; rewrite ?tree_set_ne, ?tree_set_eq, ?evq_set_tree; done.
        -- eapply same_shape_trans; [exact S1|]. by apply shape_set_tree.
        -- by rewrite evq_set_tree.
        -- unfold opsd. rewrite !tree_set_ne'. destruct (p_side p); [exact Hbi|exact Has].
      * unfold room. cbn [length]. intros Hr.
        rewrite Hfull; [by exists b|lia].
Qed.

Lemma estep_typed p min l os l' os' E :
  estep same_id p min l os = ENext l' os' E -> locals_typed l -> Forall order_typed os ->
  locals_typed l' /\ Forall order_typed os' /\ l_limit l' + 1 = l_limit l /\
  l_base l' <= l_base l /\ l_quote l' <= l_quote l.
Proof.
  unfold estep. destruct (N.eqb_spec (l_limit l) 0); [done|].
  destruct os as [|o rest]; [done|].
  destruct (post_only p || _); [done|].
  destruct (trade_base l o =? 0); [done|]. destruct (quote_of _ _ _ =? 0); [done|].
  intros H (?&?&?) Ht. apply Forall_cons in Ht as [[? ?] Ht].
  destruct (is_self same_id p o).
  - destruct (stb p); simplify_eq; cbn; (split; [by split_and!; cbn; lia|]);
      (split; [done|]); lia.
  - destruct (N.ltb_spec (o_qty o - trade_base l o) min); simplify_eq; cbn.
    + split; [unfold locals_typed; cbn; lia|]. split; [done|]. lia.
    + split; [unfold locals_typed; cbn; lia|]. split; [|lia].
      constructor; [|done]. split; cbn; [done|]. unfold o_qty at 1. cbn. lia.
Qed.
Lemma estep_break p min l os l' :
  estep same_id p min l os = EBreak l' ->
  l_base l' = l_base l /\ l_quote l' = l_quote l /\ l_limit l' = l_limit l.
Proof.
  unfold estep. destruct (l_limit l =? 0); [by intros [= <-]|].
  destruct os as [|o rest]; [by intros [= <-]|].
  destruct (post_only p || _); [by intros [= <-]|].
  destruct (trade_base l o =? 0); [by intros [= <-]|].
  destruct (quote_of _ _ _ =? 0); [by intros [= <-]|].
  destruct (is_self same_id p o).
  - by destruct (stb p).
  - by destruct (_ <? min).
Qed.

Definition loop_body p min := fun lb : locals * book C =>
  match match_step same_id p min (fst lb) (snd lb) with
  | (Ok (ItNext l), b') => Continue (l, b')
  | (Ok (ItBreak l), b') => Done (Ok l, b')
  | (Err e, b') => Done (Err e, b')
  | (Panic x, b') => Done (Panic x, b')
  | (Diverge, b') => Done (Diverge, b')
  end.

Lemma room_shape b b' pend E : same_shape b b' -> room b' pend E <-> room b pend E.
Proof. intros (_&_&H). unfold room. by rewrite H. Qed.

Lemma loop_ok p min own : forall fuel l b opp pend,
  (N.to_nat (l_limit l) < fuel)%nat ->
  brep b (opposite (p_side p)) own opp pend -> locals_typed l -> Forall order_typed opp ->
  let E := fst (eloop same_id fuel p min l opp) in
  (room b pend E ->
   match snd (eloop same_id fuel p min l opp) with
   | Fin l' opp' => exists b', loop_nat fuel (loop_body p min) (l, b) = Done (Ok l', b') /\
       brep b' (opposite (p_side p)) own opp' (pend ++ E) /\ same_shape b b' /\
       q_seq (evq b') = q_seq (evq b) /\ tree b' (p_side p) = tree b (p_side p) /\
       l_base l' <= l_base l /\ l_quote l' <= l_quote l /\ locals_typed l' /\
       Forall order_typed opp'
   | Abort => exists b', loop_nat fuel (loop_body p min) (l, b) = Done (Err WouldSelfTrade, b')
   end) /\
  (~ room b pend E -> exists b', loop_nat fuel (loop_body p min) (l, b) = Done (Err EventQueueFull, b')).
Proof.
  induction fuel as [|fuel IH]; intros l b opp pend Hf Hb Hl Ht; [lia|].
  cbn [eloop loop_nat]. pose proof (step_ok p min l b own opp pend Hb Hl Ht) as Hstep.
  destruct (estep same_id p min l opp) as [l'| |l' opp' E1] eqn:Es; cbn [fst snd].
  - apply estep_break in Es as (E1&E2&E3). 
    assert (Hbody : loop_body p min (l, b) = Done (Ok l', b))
      by (unfold loop_body; cbn [fst snd]; by rewrite Hstep).
    rewrite Hbody.
    split.
    + intros _. exists b. rewrite app_nil_r. split; [done|]. split; [done|]. split; [done|].
      split; [done|]. split; [done|]. split; [lia|]. split; [lia|]. split; [|done].
      unfold locals_typed in *. by rewrite E1, E2, E3.
    + intros Hn. exfalso. apply Hn. unfold room. cbn. rewrite Nat.add_0_r.
      by apply qrep_len, Hb.
  - 
    assert (Hbody : loop_body p min (l, b) = Done (Err WouldSelfTrade, b))
      by (unfold loop_body; cbn [fst snd]; by rewrite Hstep).
    rewrite Hbody. split; [by intros _; exists b|].
    intros Hn. exfalso. apply Hn. unfold room. cbn. rewrite Nat.add_0_r.
    by apply qrep_len, Hb.
  - destruct (estep_typed _ _ _ _ _ _ _ Es Hl Ht) as (Hl'&Ht'&Hlim&Hba&Hqu).
    destruct Hstep as [Hs1 Hs2].
    destruct (decide (room b pend E1)) as [Hr1|Hr1].
    + destruct (Hs1 Hr1) as (b1&Hm&Hb1&Hsh&Hsq&Htr).
      assert (Hbody : loop_body p min (l, b) = Continue (l', b1))
        by (unfold loop_body; cbn [fst snd]; by rewrite Hm).
      rewrite Hbody.
      destruct (IH l' b1 opp' (pend ++ E1) ltac:(lia) Hb1 Hl' Ht') as [IH1 IH2].
      set (E2 := fst (eloop same_id fuel p min l' opp')) in *.
      assert (Hrr : room b1 (pend ++ E1) E2 <-> room b pend (E1 ++ E2)).
      { rewrite room_shape by done. unfold room. rewrite !app_length. by rewrite Nat.add_assoc. }
      rewrite <- Hrr. split; [|exact IH2]. intros Hr. specialize (IH1 Hr).
      destruct (snd (eloop same_id fuel p min l' opp')) as [l2 opp2|]; [|done].
      destruct IH1 as (b2&?&Hb2&?&?&?&?&?&?&?). exists b2. split; [done|].
      rewrite <- app_assoc in Hb2. split; [done|]. split; [by eapply same_shape_trans|].
      split; [congruence|]. split; [congruence|]. split; [lia|]. split; [lia|]. done.
    + destruct (Hs2 Hr1) as (b1&Hm). 
      assert (Hbody : loop_body p min (l, b) = Done (Err EventQueueFull, b1))
        by (unfold loop_body; cbn [fst snd]; by rewrite Hm).
      rewrite Hbody.
      assert (Hr : ~ room b pend (E1 ++ fst (eloop same_id fuel p min l' opp'))).
      { unfold room in *. rewrite app_length. lia. }
      split; [done|]. intros _. by exists b1.
Qed.

Lemma match_loop_ok p min own b opp pend :
  brep b (opposite (p_side p)) own opp pend -> Forall order_typed opp ->
  match_limit p < p64 -> max_base_qty p < p64 -> max_quote_qty p < p64 ->
  let E := fst (ematch same_id p min opp) in
  (room b pend E ->
   match snd (ematch same_id p min opp) with
   | Fin l' opp' => exists b', match_loop same_id p min b = (Ok l', b') /\
       brep b' (opposite (p_side p)) own opp' (pend ++ E) /\ same_shape b b' /\
       q_seq (evq b') = q_seq (evq b) /\ tree b' (p_side p) = tree b (p_side p) /\
       l_base l' <= max_base_qty p /\ l_quote l' <= max_quote_qty p /\ locals_typed l' /\
       Forall order_typed opp'
   | Abort => exists b', match_loop same_id p min b = (Err WouldSelfTrade, b')
   end) /\
  (~ room b pend E -> exists b', match_loop same_id p min b = (Err EventQueueFull, b')).
Proof.
  intros Hb Ht H1 H2 H3. unfold ematch, match_loop. fold (loop_body p min).
  rewrite loop_loop_nat, N2Nat.inj_succ.
  destruct (loop_ok p min own (S (N.to_nat (match_limit p))) (l_init p) b opp pend) as [HA HB];
    [cbn; lia|done|by unfold locals_typed|done|].
  fold (l_init p).
  set (r := eloop same_id (S (N.to_nat (match_limit p))) p min (l_init p) opp) in *.
  set (lp := loop_nat (S (N.to_nat (match_limit p))) (loop_body p min) (l_init p, b)) in *.
  split.
  - intros Hr. specialize (HA Hr). destruct (snd r).
    + destruct HA as (b'&->&?). by exists b'.
    + destruct HA as (b'&->). by exists b'.
  - intros Hr. destruct (HB Hr) as (b'&->). by exists b'.
Qed.

(** ** Posting *)
Definition after_match (p : params C) (min_size : N) (l : locals) : M (book C) summary :=
  let to_post := N.min (unwrap_or (fp32_div (l_quote l) (limit_price p)) u64_max) (l_base l) in
  if l_crossed l || negb (post_allowed p) || (to_post <? min_size) then
    no_post p (l_base l) (l_quote l)
  else
    let! id := on_evq (gen_order_id (limit_price p) (p_side p)) in
    let! r := post_leaf p (mk_leaf id to_post) in
    match r with
    | None => no_post p (l_base l) (l_quote l)
    | Some h =>
        do! on_tree (p_side p) (set_callback_info h (p_callback p)) in
        let! base' := lift (sub_w (l_base l) to_post) in
        let! q := lift
          (ok_or (match p_side p with
                  | Bid => fp32_mul_ceil to_post (limit_price p)
                  | Ask => fp32_mul_floor to_post (limit_price p)
                  end) NumericalOverflow) in
        let! quote' := lift (sub_w (l_quote l) q) in
        let! tb := lift (sub_w (max_base_qty p) base') in
        let! tq := lift (sub_w (max_quote_qty p) quote') in
        ret (mk_summary (Some id) tb tq to_post)
    end.
Lemma new_order_eq p min b :
  new_order same_id p min b = bind (match_loop same_id p min) (after_match p min) b.
Proof. done. Qed.

Lemma no_post_ok p base quote b : base <= max_base_qty p -> quote <= max_quote_qty p ->
  no_post p base quote b =
    (Ok (mk_summary None (max_base_qty p - base) (max_quote_qty p - quote) 0), b).
Proof.
  intros. unfold no_post. erewrite bind_lift by (by apply sub_w_ok).
  erewrite bind_lift by (by apply sub_w_ok). done.
Qed.

Lemma try_insert_room (p : params C) b os lf : let sd := p_side p in
  lrep sd (tree b sd) os -> lf_key lf < p128 -> lf_key lf ∉ map o_id os ->
  (length os < length (leaf_nodes (tree b sd)))%nat ->
  exists h b', try_insert sd lf b = (Ok (Some h), b') /\
    forall c, exists t, on_tree sd (set_callback_info h c) b' = (Ok tt, set_tree sd t b) /\
      same_dims (tree b sd) t /\ lrep sd t (ins sd (lf, c) os).
Proof.
  intros sd Hl Hk Hni Hlt.
  destruct (lrep_insert sd _ os lf Hl Hk Hni Hlt) as (h&s'&Hi&Hd&Hc).
  exists h, (set_tree sd s' b). split.
  - unfold try_insert. by rewrite (on_tree_ok _ _ _ _ _ Hi).
  - intros c. destruct (Hc c) as (s''&Hs&Hd'&Hl'). exists s''.
    split; [|done]. erewrite on_tree_ok by (rewrite tree_set_eq; exact Hs).
    by destruct sd.
Qed.
Lemma try_insert_full (p : params C) b os lf : let sd := p_side p in
  lrep sd (tree b sd) os -> lf_key lf < p128 -> lf_key lf ∉ map o_id os ->
  length os = length (leaf_nodes (tree b sd)) ->
  try_insert sd lf b = (Ok None, b).
Proof.
  intros sd Hl Hk Hni Hlt.
  pose proof (lrep_insert_full sd _ os lf Hl Hk Hni Hlt) as Hi.
  unfold try_insert. rewrite (on_tree_ok _ _ _ _ _ Hi). f_equal. destruct b, sd; done.
Qed.

Lemma after_ok p min l b own opp pend : let sd := p_side p in
  brep b (opposite sd) own opp pend -> Forall order_typed own -> locals_typed l ->
  l_base l <= max_base_qty p -> l_quote l <= max_quote_qty p -> limit_price p < p64 ->
  q_seq (evq b) + 1 < p64 ->
  order_id_of (limit_price p) (q_seq (evq b)) sd ∉ map o_id own ->
  let cap := length (leaf_nodes (tree b sd)) in
  let '(own', E, sm, seq') := epost p min l own cap (q_seq (evq b)) in
  (room b pend E -> exists b', after_match p min l b = (Ok sm, b') /\
     brep b' (opposite sd) own' opp (pend ++ E) /\ same_shape b b' /\
     q_seq (evq b') = seq' /\ tree b' (opposite sd) = tree b (opposite sd)) /\
  (~ room b pend E -> exists b', after_match p min l b = (Err EventQueueFull, b')).
Proof.
  intros sd Hb Hty (L1&L2&L3) Hmb Hmq Hlp Hseq Hni cap.
  pose proof Hb as [Hown Hopp Hq]. rewrite opp_opp in Hown.
  unfold epost, after_match. fold sd.
  fold (afford (l_quote l) (limit_price p)). fold (to_post p l).
  assert (Hnil : forall E, room b pend [] \/ E) .
  { intros. left. unfold room. cbn. rewrite Nat.add_0_r. by apply qrep_len. }
  assert (Hroom0 : room b pend []) by (by destruct (Hnil False)).
  clear Hnil.
  destruct (l_crossed l || negb (post_allowed p) || (to_post p l <? min)).
  { split; [|done]. intros _. exists b. rewrite no_post_ok by done. rewrite app_nil_r. done. }
  destruct (gen_order_id_ok (evq b) pend (limit_price p) sd Hq Hseq) as (q1&Hgen&Hq1&Hs1&Hc1).
  set (id := order_id_of (limit_price p) (q_seq (evq b)) sd) in *.
  assert (Hid : id < p128) by (apply order_id_lt; lia).
  rewrite (bind_ok _ _ _ _ _ (on_evq_ok _ _ _ _ Hgen)).
  set (b1 := set_evq q1 b).
  set (tp := to_post p l).
  assert (Htp1 : tp <= l_base l) by (unfold tp, to_post; lia).
  assert (Htp2 : tp * limit_price p <= l_quote l * p32).
  { apply afford_spec; unfold tp, to_post; lia. }
  pose proof (quote_of_le sd tp _ _ Htp2) as Htp3.
  assert (Hb1 : brep b1 (opposite sd) own opp pend).
  { split; unfold b1; rewrite ?tree_set_evq; [by rewrite opp_opp|done|done]. }
  assert (Hsh1 : same_shape b b1) by done.
  assert (Hfin : forall own1 E h b2 b3 t,
    post_leaf p (mk_leaf id tp) b1 = (Ok (Some h), b2) ->
    on_tree sd (set_callback_info h (p_callback p)) b2 = (Ok tt, b3) ->
    b3 = set_tree sd t (set_evq (evq b3) b) -> same_dims (tree b sd) t -> q_cap (evq b3) = q_cap (evq b) ->
    q_seq (evq b3) = q_seq (evq b) + 1 -> qrep (evq b3) (pend ++ E) -> lrep sd t own1 ->
    exists b', (let! r := post_leaf p (mk_leaf id tp) in
       match r with
       | None => no_post p (l_base l) (l_quote l)
       | Some h =>
        do! on_tree sd (set_callback_info h (p_callback p)) in
        let! base' := lift (sub_w (l_base l) tp) in
        let! q := lift
          (ok_or (match sd with
                  | Bid => fp32_mul_ceil tp (limit_price p)
                  | Ask => fp32_mul_floor tp (limit_price p)
                  end) NumericalOverflow) in
        let! quote' := lift (sub_w (l_quote l) q) in
        let! tb := lift (sub_w (max_base_qty p) base') in
        let! tq := lift (sub_w (max_quote_qty p) quote') in
        ret (mk_summary (Some id) tb tq tp)
       end) b1 = (Ok (mk_summary (Some id) (max_base_qty p - (l_base l - tp))
                (max_quote_qty p - (l_quote l - quote_of sd tp (limit_price p))) tp), b') /\
       brep b' (opposite sd) own1 opp (pend ++ E) /\ same_shape b b' /\
       q_seq (evq b') = q_seq (evq b) + 1 /\ tree b' (opposite sd) = tree b (opposite sd)).
  { intros own1 E h b2 b3 t Hpl Hcb Hb3 Hd3 Hcap3 Hsq3 Hq3 Hl3. exists b3. split.
    - rewrite (bind_ok _ _ _ _ _ Hpl). rewrite (bind_ok _ _ _ _ _ Hcb).
      erewrite bind_lift by (apply sub_w_ok; lia).
      rewrite (bind_lift _ (quote_of sd tp (limit_price p))).
      2:{ rewrite (quote_of_fp sd tp _ _ Htp2) by done. done. }
      erewrite bind_lift by (apply sub_w_ok; lia).
      erewrite bind_lift by (apply sub_w_ok; lia).
      erewrite bind_lift by (apply sub_w_ok; lia). done.
    - assert (Hto : tree b3 (opposite sd) = tree b (opposite sd))
        by (rewrite Hb3, tree_set_ne, tree_set_evq; done).
      assert (Htw : tree b3 sd = t) by (rewrite Hb3, tree_set_eq; done).
      split; [|split; [|split]]; try done.
      + split; [by rewrite opp_opp, Htw|by rewrite Hto|done].
      + rewrite Hb3. eapply same_shape_trans; [apply (shape_set_evq (evq b3)); done|].
        apply shape_set_tree. by rewrite tree_set_evq. }
  assert (Htb1 : tree b1 sd = tree b sd) by (unfold b1; by rewrite tree_set_evq).
  destruct (Nat.ltb_spec (length own) cap) as [Hlt|Hge].
  - (* room on the side *)
    split; [|intros Hn; by exfalso]. intros _.
    destruct (try_insert_room p b1 own (mk_leaf id tp)) as (h&b2&Hti&Hc);
      [fold sd; by rewrite Htb1|done|done|fold sd; by rewrite Htb1|].
    destruct (Hc (p_callback p)) as (t&Hcb&Hd&Hl).
    fold sd in Hti, Hcb, Hd, Hl. rewrite Htb1 in Hd.
    eapply (Hfin _ [] h b2 _ t); [|exact Hcb|..].
    + unfold post_leaf. fold sd. rewrite (bind_ok _ _ _ _ _ Hti). done.
    + by destruct sd.
    + done.
    + rewrite evq_set_tree. done.
    + rewrite evq_set_tree. done.
    + rewrite evq_set_tree, app_nil_r. done.
    + done.
  - (* the side is full *)
    pose proof (lrep_le _ _ _ Hown) as Hle. fold cap in Hle.
    assert (Hfull : length own = cap) by lia.
    assert (Hti : try_insert sd (mk_leaf id tp) b1 = (Ok None, b1)).
    { apply (try_insert_full p b1 own); fold sd; rewrite ?Htb1; done. }
    assert (Hcap1 : (1 <= cap)%nat).
    { destruct (lrep_dims _ _ _ Hown) as [D1 _ _]. unfold cap. lia. }
    destruct (last own) as [w|] eqn:Hlast.
    2:{ apply last_None in Hlast. subst own. cbn in Hfull. lia. }
    apply last_Some in Hlast as (own0&Hown0).
    assert (Hrl : removelast own = own0) by (rewrite Hown0; apply removelast_last).
    rewrite Hrl. rewrite Hown0 in Hown.
    destruct (lrep_handle sd (tree b sd) own0 w [] Hown) as (hw&[Hw1 Hw2]&_&Hworst&_).
    specialize (Hworst eq_refl).
    assert (Hty' : order_typed w).
    { rewrite Hown0 in Hty. apply Forall_app in Hty as [_ Hty]. by apply Forall_cons in Hty as [? _]. }
    destruct Hty' as [Tw1 Tw2].
    assert (Hpl : post_leaf p (mk_leaf id tp) b1 =
      (if match sd with
          | Bid => o_price w <? limit_price p
          | Ask => limit_price p <? o_price w
          end then
        let! r := on_tree sd (remove_by_key (o_id w)) in
        let! lc := lift (unwrap r) in
        do! push_out sd (lf_key (fst lc)) (lf_qty (fst lc)) (snd lc) in
        let! r := try_insert sd (mk_leaf id tp) in
        let! h := lift (unwrap r) in
        ret (Some h)
      else ret None) b1).
    { unfold post_leaf. fold sd. rewrite (bind_ok _ _ _ _ _ Hti), bind_get, Htb1.
      change (match sd with Bid => find_min (tree b sd) | Ask => find_max (tree b sd) end)
        with (find_worst sd (tree b sd)).
      rewrite (bind_lift _ _ _ _ Hworst). rewrite bind_lift with (a := hw) by done.
      rewrite (bind_lift _ _ _ _ Hw1). done. }
    destruct (match sd with
              | Bid => o_price w <? limit_price p
              | Ask => limit_price p <? o_price w
              end) eqn:Hboot.
    + destruct (lrep_remove sd (tree b sd) own0 w [] Hown) as (s2&Hrm&Hl2&Hd2).
      rewrite app_nil_r in Hl2. rewrite <- Htb1 in Hrm.
      set (b2 := set_tree sd s2 b1).
      assert (Hb2 : brep b2 (opposite sd) own0 opp pend).
      { destruct Hb1. split; unfold b2; rewrite ?opp_opp, ?tree_set_ne, ?tree_set_eq, ?evq_set_tree; done. }
      assert (Hq2 : evq b2 = q1) by (unfold b2; rewrite evq_set_tree; done).
      assert (Hrm2 : forall X (k : unit -> M (book C) X),
         (let! r := on_tree sd (remove_by_key (o_id w)) in
          let! lc := lift (unwrap r) in
          bind (push_out sd (lf_key (fst lc)) (lf_qty (fst lc)) (snd lc)) k) b1 =
         bind (push_out sd (o_id w) (o_qty w) (o_cb w)) k b2).
      { intros X k. rewrite (bind_ok _ _ _ _ _ (on_tree_ok _ _ _ _ _ Hrm)).
        by rewrite bind_lift with (a := w) by done. }
      rewrite Hrm2 in Hpl.
      split.
      * unfold room. cbn [length]. intros Hr.
        destruct (push_out_room b2 _ _ _ _ w (o_qty w) Hb2) with (sd' := sd)
          as (b3&Hpo&Hb3&Hbi&Has&Hsq&Hcp); [rewrite Hq2, Hc1; lia|done|done|].
        rewrite (bind_ok _ _ _ _ _ Hpo) in Hpl.
        assert (Ht3 : tree b3 sd = s2).
        { assert (H : forall x, tree b3 x = tree b2 x) by (intros []; [exact Hbi|exact Has]).
          rewrite H. unfold b2. apply tree_set_eq. }
        assert (Hlen0 : (length own0 < cap)%nat).
        { rewrite <- Hfull, Hown0, app_length. cbn. lia. }
        destruct (try_insert_room p b3 own0 (mk_leaf id tp)) as (h&b4&Hti4&Hc4);
          fold sd; rewrite ?Ht3; [done|done| | |].
        { intros Hin. apply Hni. rewrite Hown0, map_app. apply elem_of_app. by left. }
        { destruct Hd2 as (->&_). done. }
        fold sd in Hti4, Hc4. destruct (Hc4 (p_callback p)) as (t&Hcb4&Hd4&Hl4).
        rewrite Ht3 in Hd4.
        eapply (Hfin _ [ev_out sd w (o_qty w)] h b4 _ t); [|exact Hcb4|..].
        -- rewrite Hpl. rewrite (bind_ok _ _ _ _ _ Hti4). done.
        -- rewrite evq_set_tree.
           assert (Hb3e : forall x, tree b3 x = tree b2 x) by (intros []; [exact Hbi|exact Has]).
           destruct b3 as [bb3 aa3 qq3]. cbn in Hbi, Has. cbn [evq].
           rewrite Hbi, Has. unfold b2, b1. destruct sd; done.
        -- by eapply same_dims_trans.
        -- rewrite evq_set_tree, Hcp, Hq2. done.
        -- rewrite evq_set_tree, Hsq, Hq2. done.
        -- rewrite evq_set_tree. apply Hb3.
        -- done.
      * unfold room. cbn [length]. intros Hr. exists b2. apply bind_err.
        rewrite Hpl. apply bind_err. eapply push_out_full; [exact Hb2|].
        rewrite Hq2, Hc1. pose proof (qrep_len _ _ Hq). lia.
    + split; [|done]. intros _. exists b1.
      rewrite (bind_ok _ _ _ _ _ Hpl). rewrite no_post_ok by done. rewrite app_nil_r.
      split; [done|]. split; [done|]. split; [done|]. split; [done|].
      unfold b1. by rewrite tree_set_evq.
Qed.
End BookProofs.
