(** * StaleProofs.v: the keys left in the slots of the slabs of a market are those of
    orders that were posted (used for C30) *)
From stdpp Require Import gmap.
From Verif Require Import Machine Critbit EventQueue OrderBook Market Spec DataSpec MachineProofs.
From Verif Require Import TreeProofs SlabProofs SlabProofs2 QueueProofs DataProps Engine BookProofs EngineProofs.
From Verif Require Import MarketProofs MarketFacts InstrProps HistoryProps MarketReads.
From Coq Require Import ZifyBool ZifyNat ZifyN.

Section Stale.
Context {C : Type} (same_id : C -> C -> bool).
Implicit Types s : slab C.
Implicit Types b : book C.
Implicit Types m : market C.
Implicit Types c : config C.

(** Inverts a successful run of straight-line code. *)
Ltac binv1 :=
  match goal with
  | H : bind get _ _ = _ |- _ => rewrite bind_get in H
  | H : bind _ _ _ = (Ok _, _) |- _ =>
      let a := fresh "a" in let s1 := fresh "s1" in let H1 := fresh "Hb" in
      apply bind_inv in H as (a&s1&H1&H)
  | H : lift _ _ = (Ok _, _) |- _ => apply lift_inv in H as [H ->]
  | H : ret _ _ = (Ok _, _) |- _ => apply ret_inv in H as [H ->]
  | H : put _ _ = (Ok _, _) |- _ => apply put_inv in H as ->
  | x : unit |- _ => destruct x
  end.
Ltac binv := repeat (cbv zeta in *; binv1).

Lemma bind_err_inv {S A B} (f : M S A) (k : A -> M S B) (s : S) e (s' : S) : bind f k s = (Err e, s') ->
  f s = (Err e, s') \/ exists a (s1 : S), f s = (Ok a, s1) /\ k a s1 = (Err e, s').
Proof.
  unfold bind. destruct (f s) as [[a|e0|x|] s1]; intros H; simplify_eq; eauto.
Qed.
Lemma lift_err {S A} (r : res A) (s : S) e (s' : S) : lift r s = (Err e, s') -> r = Err e.
Proof. unfold lift. congruence. Qed.
Lemma add_w_no_err w x y e : add_w w x y <> Err e.
Proof. unfold add_w. by destruct (_ <? _). Qed.
Lemma sub_w_no_err x y e : sub_w x y <> Err e.
Proof. unfold sub_w. by destruct (_ <=? _). Qed.
Lemma idx_no_err {A} (l : list A) i e : idx l i <> Err e.
Proof. unfold idx. by destruct (getN l i). Qed.
Lemma write_leaf_no_err h lf s e s' : write_leaf h lf s <> (Err e, s').
Proof.
  unfold write_leaf. rewrite bind_get. intros H. apply bind_err_inv in H as [H|(a&s1&_&H)]; [|done].
  unfold lift, upd in H. by destruct (_ <? _).
Qed.
Lemma write_inner_no_err h n s e s' : write_inner h n s <> (Err e, s').
Proof.
  unfold write_inner. rewrite bind_get. intros H. apply bind_err_inv in H as [H|(a&s1&_&H)]; [|done].
  unfold lift, upd in H. by destruct (_ <? _).
Qed.
Lemma allocate_leaf_err s e s' : allocate_leaf s = (Err e, s') -> s' = s.
Proof.
  unfold allocate_leaf. rewrite bind_get. cbv zeta. destruct (_ =? 0).
  - destruct (_ <=? _); [by intros [= <- <-]|]. intros H.
    apply bind_err_inv in H as [H|(a&s1&_&H)]; [|done]. exfalso. apply lift_err in H. by apply add_w_no_err in H.
  - intros H. exfalso. apply bind_err_inv in H as [H|(a&s1&_&H)].
    { apply lift_err in H. by apply idx_no_err in H. }
    apply bind_err_inv in H as [H|(a1&s2&_&H)]; [|done].
    apply lift_err in H. by apply sub_w_no_err in H.
Qed.
Lemma allocate_inner_no_err s e s' : allocate_inner_node s <> (Err e, s').
Proof.
  unfold allocate_inner_node. rewrite bind_get. cbv zeta. destruct (_ =? 0).
  - destruct (_ <=? _); [done|]. intros H.
    apply bind_err_inv in H as [H|(a&s1&_&H)]; [|done]. apply lift_err in H. by apply add_w_no_err in H.
  - intros H. apply bind_err_inv in H as [H|(a&s1&_&H)].
    { apply lift_err in H. by apply idx_no_err in H. }
    apply bind_err_inv in H as [H|(a1&s2&_&H)]; [|done].
    apply lift_err in H. by apply sub_w_no_err in H.
Qed.
Lemma insert_walk_no_err key e : forall fuel s h par, insert_walk fuel s h par key <> Err e.
Proof.
  induction fuel as [|fuel IH]; intros s h par; cbn [insert_walk]; [done|].
  destruct (is_inner h).
  - unfold rbind. destruct (idx (inner_nodes s) (not32 h)) as [n|e0|x|] eqn:E; try done.
    + destruct (_ <=? _); [|done]. destruct (walk_down n key) as [w|e1| |] eqn:Ew; [apply IH| |done..].
      by apply walk_down_no_err in Ew.
    + by apply idx_no_err in E.
  - unfold rbind. destruct (idx (leaf_nodes s) h) as [n|e0|x|] eqn:E; try done.
    + by destruct (_ =? _).
    + by apply idx_no_err in E.
Qed.
(** An insertion that reports an error changes nothing. *)
Lemma insert_leaf_err lf s e s' : insert_leaf lf s = (Err e, s') -> s' = s.
Proof.
  unfold insert_leaf. rewrite bind_get. destruct (_ =? 0).
  - intros H. apply bind_err_inv in H as [H|(a&s1&_&H)]; [by apply allocate_leaf_err in H|].
    exfalso. apply bind_err_inv in H as [H|(a1&s2&_&H)]; [by apply write_leaf_no_err in H|].
    rewrite bind_get in H. apply bind_err_inv in H as [H|(a2&s3&_&H)]; [|done].
    apply lift_err in H. by apply add_w_no_err in H.
  - intros H. apply bind_err_inv in H as [H|(pos&s1&H1&H)].
    { exfalso. apply lift_err in H. by apply insert_walk_no_err in H. }
    unfold lift in H1. injection H1 as _ <-. destruct pos as [h old|h plen par].
    { exfalso. apply bind_err_inv in H as [H|(a1&s2&_&H)]; [by apply write_leaf_no_err in H|done]. }
    apply bind_err_inv in H as [H|(u&s1&H1&H)].
    { exfalso. apply lift_err in H. unfold shift_ok in H. by destruct (_ <? _). }
    unfold lift in H1. injection H1 as _ <-.
    cbv zeta in H. apply bind_err_inv in H as [H|(lh&s1&_&H)]; [by apply allocate_leaf_err in H|].
    exfalso. apply bind_err_inv in H as [H|(a1&s2&_&H)]; [by apply write_leaf_no_err in H|].
    apply bind_err_inv in H as [H|(ih&s3&_&H)]; [by apply allocate_inner_no_err in H|].
    apply bind_err_inv in H as [H|(a2&s4&_&H)]; [by apply write_inner_no_err in H|].
    apply bind_err_inv in H as [H|(a3&s5&_&H)].
    { destruct par as [[ph pb]|]; rewrite bind_get in H; [|done].
      apply bind_err_inv in H as [H|(n&s6&_&H)]; [|by apply write_inner_no_err in H].
      apply lift_err in H. by apply idx_no_err in H. }
    rewrite bind_get in H. apply bind_err_inv in H as [H|(a4&s6&_&H)]; [|done].
    apply lift_err in H. by apply add_w_no_err in H.
Qed.

(** ** Books *)
Definition bseen b (K : list N) : Prop := forall sd, keys_seen (tree b sd) K.
Lemma keys_seen_mono s K K' : (forall k, k ∈ K -> k ∈ K') -> keys_seen s K -> keys_seen s K'.
Proof. intros H Hk i l Hi Hg. apply H. by eapply Hk. Qed.
Lemma bseen_mono b K K' : (forall k, k ∈ K -> k ∈ K') -> bseen b K -> bseen b K'.
Proof. intros H Hk sd. by eapply keys_seen_mono. Qed.
Lemma bseen_tree sd (t : slab C) b K : keys_seen t K -> bseen b K -> bseen (set_tree sd t b) K.
Proof. intros H Hb sd'. destruct sd, sd'; cbn; try done; [apply (Hb Ask)|apply (Hb Bid)]. Qed.
Lemma on_tree_inv {A} sd (f : M (slab C) A) b r b' : on_tree sd f b = (r, b') ->
  exists t, f (tree b sd) = (r, t) /\ b' = set_tree sd t b.
Proof. unfold on_tree, zoom. destruct (f (tree b sd)) as [r0 t]. intros [= <- <-]. eauto. Qed.
Lemma on_evq_inv {A} (f : M (queue C) A) b r b' : on_evq f b = (r, b') ->
  exists q, f (evq b) = (r, q) /\ b' = set_evq q b.
Proof. unfold on_evq, zoom. destruct (f (evq b)) as [r0 t]. intros [= <- <-]. eauto. Qed.
Lemma bseen_evq q b K : bseen b K -> bseen (set_evq q b) K.
Proof. intros H sd. rewrite tree_set_evq. apply H. Qed.
Lemma seen_remove k s r s' K : remove_by_key k s = (Ok r, s') -> keys_seen s K -> keys_seen s' K.
Proof.
  intros H Hk. apply remove_inv in H as [Hb Hl]. intros i l Hi Hg. rewrite Hb in Hi.
  destruct (Hl _ _ Hg) as (l0&Hl0&<-). by eapply Hk.
Qed.
Lemma bseen_remove sd k b r b' K : on_tree sd (remove_by_key k) b = (Ok r, b') -> bseen b K -> bseen b' K.
Proof.
  intros H Hb. apply on_tree_inv in H as (t&H&->). apply bseen_tree; [|done].
  eapply seen_remove; [exact H|]. apply Hb.
Qed.
Lemma bseen_push (f : M (queue C) unit) b r b' K : on_evq f b = (Ok r, b') -> bseen b K -> bseen b' K.
Proof. intros H Hb. apply on_evq_inv in H as (q&_&->). by apply bseen_evq. Qed.

Lemma step_seen p min l b r b' K : match_step same_id p min l b = (Ok r, b') -> bseen b K -> bseen b' K.
Proof.
  intros H Hb. unfold match_step in H. destruct (_ =? 0); [by binv|].
  rewrite bind_get in H. apply bind_inv in H as ([h|]&b1&H1&H); apply lift_inv in H1 as [_ ->]; [|by binv].
  apply bind_inv in H as (best&b1&H1&H). apply lift_inv in H1 as [Hbest ->].
  cbv zeta in H. destruct (post_only p || _); [by binv|]. destruct (_ =? 0); [by binv|].
  apply bind_inv in H as (qr&b1&H1&H). apply lift_inv in H1 as [_ ->].
  destruct (_ =? 0); [by binv|]. apply bind_inv in H as (cb&b1&H1&H). apply lift_inv in H1 as [_ ->].
  set (sd := opposite (p_side p)) in *.
  set (self := match stb p with DecrementTake => false | _ => same_id (p_callback p) cb end) in H.
  destruct self.
  - destruct (stb p); [done| |done].
    apply bind_inv in H as ([]&b1&H1&H). apply bind_inv in H as (x&b2&H2&H). binv.
    eapply bseen_remove; [exact H2|]. eapply bseen_push; [exact H1|done].
  - apply bind_inv in H as ([]&b1&H1&H). apply bind_inv in H as (q'&b2&H2&H). apply lift_inv in H2 as [_ ->].
    apply bind_inv in H as ([]&b2&H2&H). apply bind_inv in H as (base'&b3&H3&H). apply lift_inv in H3 as [_ ->].
    apply bind_inv in H as (quote'&b3&H3&H). apply lift_inv in H3 as [_ ->].
    apply bind_inv in H as ([]&b3&H3&H).
    assert (S1 : bseen b2 K).
    { apply on_evq_inv in H1 as (q&_&->). apply on_tree_inv in H2 as (t&H2&->).
      apply bseen_tree; [|by apply bseen_evq]. rewrite tree_set_evq in H2.
      apply write_leaf_inv in H2 as ->.
      unfold idx in Hbest. destruct (getN (leaf_nodes (tree b sd)) h) as [lh|] eqn:Hlh; simplify_eq.
      intros i l0 Hi Hg. cbn in Hi, Hg. destruct (decide (i = h)) as [->|Hne].
      * erewrite getN_setN_eq in Hg by exact Hlh. simplify_eq. cbn. by eapply (Hb sd).
      * rewrite getN_setN_ne in Hg by congruence. by eapply (Hb sd). }
    assert (S2 : bseen b3 K).
    { destruct (q' <? min); [|binv; done].
      apply bind_inv in H3 as (x&b4&H4&H3). apply bind_inv in H3 as (lc&b5&H5&H3). apply lift_inv in H5 as [_ ->].
      eapply bseen_push; [exact H3|]. by eapply bseen_remove. }
    by binv.
Qed.
Lemma match_seen p min b l b' K : match_loop same_id p min b = (Ok l, b') -> bseen b K -> bseen b' K.
Proof.
  unfold match_loop. rewrite loop_loop_nat.
  generalize (mk_locals (match_limit p) (max_base_qty p) (max_quote_qty p) true).
  induction (N.to_nat (N.succ (match_limit p))) as [|n IH] in b |- *; intros l0; cbn [loop_nat]; [done|].
  cbn [fst snd]. destruct (match_step same_id p min l0 b) as [[[l1|l1]|e|x|] b1] eqn:E; try done.
  - intros [= <- <-]. by eapply step_seen.
  - intros H Hb. eapply IH; [exact H|]. by eapply step_seen.
Qed.
Lemma try_seen sd lf b r b' K : try_insert sd lf b = (Ok r, b') -> bseen b K ->
  match r with Some _ => bseen b' (K ++ [lf_key lf]) | None => b' = b end.
Proof.
  unfold try_insert. destruct (on_tree sd (insert_leaf lf) b) as [[[h x]|e|x|] b1] eqn:E; intros H Hb; try done.
  - simplify_eq. apply on_tree_inv in E as (t&E&->). apply insert_leaf_inv in E as (h'&Hl&Hbu).
    apply bseen_tree; [eapply keys_seen_set; [done..|apply Hb]|].
    eapply bseen_mono; [|done]. intros k Hk. apply elem_of_app. by left.
  - destruct e; simplify_eq. apply on_tree_inv in E as (t&E&->). apply insert_leaf_err in E as ->.
    by destruct b, sd.
Qed.
Lemma post_seen p lf b r b' K : post_leaf p lf b = (Ok r, b') -> bseen b K ->
  match r with Some _ => bseen b' (K ++ [lf_key lf]) | None => bseen b' K end.
Proof.
  intros H Hb. unfold post_leaf in H. apply bind_inv in H as ([h|]&b1&H1&H).
  { apply (try_seen _ _ _ _ _ _ H1) in Hb. apply ret_inv in H as [<- ->]. exact Hb. }
  apply (try_seen _ _ _ _ _ _ H1) in Hb as E. cbn in E. subst b1.
  rewrite bind_get in H. cbv zeta in H.
  apply bind_inv in H as (cand&b1&H2&H). apply lift_inv in H2 as [_ ->].
  apply bind_inv in H as (ch&b1&H2&H). apply lift_inv in H2 as [_ ->].
  apply bind_inv in H as (cl&b1&H2&H). apply lift_inv in H2 as [_ ->].
  match type of H with (if ?x then _ else _) _ = _ => destruct x end;
    [|by apply ret_inv in H as [<- ->]].
  apply bind_inv in H as (x&b1&H2&H). apply bind_inv in H as (lc&b2&H3&H). apply lift_inv in H3 as [_ ->].
  apply bind_inv in H as ([]&b2&H3&H). apply bind_inv in H as (y&b3&H4&H).
  apply bind_inv in H as (h&b4&H5&H). apply lift_inv in H5 as [Hu ->]. apply ret_inv in H as [<- ->].
  apply (bseen_remove _ _ _ _ _ _ H2) in Hb. apply (bseen_push _ _ _ _ _ H3) in Hb.
  apply (try_seen _ _ _ _ _ _ H4) in Hb. by destruct y.
Qed.
Definition posted_of (sm : summary) : list N :=
  match posted_order_id sm with Some id => [id] | None => [] end.
Lemma no_post_inv (p : params C) x y b sm b' : OrderBook.no_post p x y b = (Ok sm, b') ->
  b' = b /\ posted_order_id sm = None.
Proof. unfold OrderBook.no_post. intros H. binv. by subst sm. Qed.
Lemma new_order_seen p min b sm b' K : new_order same_id p min b = (Ok sm, b') -> bseen b K ->
  bseen b' (K ++ posted_of sm).
Proof.
  intros H Hb. unfold new_order in H. apply bind_inv in H as (l&b1&H1&H).
  apply (match_seen _ _ _ _ _ _ H1) in Hb. cbv zeta in H.
  destruct (l_crossed l || _ || _).
  { apply no_post_inv in H as [-> E]. unfold posted_of. rewrite E. by rewrite app_nil_r. }
  apply bind_inv in H as (id&b2&H2&H). apply on_evq_inv in H2 as (q&_&->).
  apply (bseen_evq q) in Hb.
  apply bind_inv in H as ([h|]&b3&H3&H); apply (post_seen _ _ _ _ _ _ H3) in Hb; cbn [lf_key] in Hb.
  2:{ apply no_post_inv in H as [-> E]. unfold posted_of. rewrite E. by rewrite app_nil_r. }
  apply bind_inv in H as ([]&b4&H4&H). binv. subst sm. cbn [posted_of posted_order_id].
  apply on_tree_inv in H4 as (t&H4&->). apply bseen_tree; [|done].
  unfold set_callback_info in H4. binv. apply (Hb (p_side p)).
Qed.

(** ** Markets *)
Definition mseen m (K : list N) : Prop := bseen (m_book m) K.
Lemma on_book_inv {A} (f : M (book C) A) m r m' : on_book f m = (r, m') ->
  exists b, f (m_book m) = (r, b) /\ m' = set_m_book b m.
Proof. unfold on_book, zoom. destruct (f (m_book m)) as [r0 t]. intros [= <- <-]. eauto. Qed.
Lemma mass_seen K : forall ids tb tq m r m', mass_cancel_loop ids tb tq m = (Ok r, m') ->
  mseen m K -> mseen m' K.
Proof.
  induction ids as [|id ids IH]; intros tb tq m r m' H Hm; cbn [mass_cancel_loop] in H; [by binv|].
  apply bind_inv in H as (x&m1&H1&H). apply bind_inv in H as (lc&m2&H2&H). apply lift_inv in H2 as [_ ->].
  cbv zeta in H. apply bind_inv in H as (tb'&m2&H2&H). apply lift_inv in H2 as [_ ->].
  apply bind_inv in H as (tq'&m2&H2&H). apply lift_inv in H2 as [_ ->].
  apply (IH _ _ _ _ _ H). apply on_book_inv in H1 as (b&H1&->). unfold mseen. cbn.
  by eapply bseen_remove.
Qed.
Lemma exec_seen c o m r m' K : reachable same_id c m -> op_typed o -> exec same_id o m = (r, m') ->
  mseen m K -> mseen m' (K ++ option_list (posted_id (mk_entry o r (emitted m m')))).
Proof.
  intros Hr Hty He Hm.
  assert (Hmono : mseen m' K -> mseen m' (K ++ option_list (posted_id (mk_entry o r (emitted m m'))))).
  { apply bseen_mono. intros k Hk. apply elem_of_app. by left. }
  unfold exec in He. destruct (process same_id o m) as [[a|e|x|] m1] eqn:Hp; simplify_eq; try by apply Hmono.
  destruct o as [p|id|ids|n]; cbn [process] in Hp.
  - apply bind_inv in Hp as (sm&m2&H1&H). binv. subst a. unfold process_new_order in H1.
    rewrite bind_get in H1. destruct (_ =? 0); [done|]. destruct (negb _); [done|].
    destruct (_ && _); [done|]. apply on_book_inv in H1 as (b&H1&->). unfold mseen. cbn [m_book set_m_book].
    apply (new_order_seen _ _ _ _ _ _ H1) in Hm. unfold posted_id, posted_of in *. cbn.
    by destruct (posted_order_id sm).
  - apply Hmono. apply bind_inv in Hp as (sm&m2&H1&H). binv. unfold process_cancel_order in H1.
    apply bind_inv in H1 as (x&m3&H3&H1). binv. apply on_book_inv in H3 as (b&H3&->).
    unfold mseen. cbn. by eapply bseen_remove.
  - apply Hmono. apply bind_inv in Hp as (sm&m2&H1&H). binv. unfold process_mass_cancel in H1.
    apply bind_inv in H1 as (x&m3&H3&H1). binv. by eapply mass_seen.
  - apply Hmono. apply bind_inv in Hp as ([]&m2&H1&H). binv. unfold process_consume_events in H1.
    apply on_book_inv in H1 as (b&H1&->). apply on_evq_inv in H1 as (q&_&->). unfold mseen. cbn.
    by apply bseen_evq.
Qed.
Lemma history_seen c log m : config_ok c -> history same_id c log m -> N.of_nat (length log) < p63 ->
  mseen m (posted_ids log).
Proof.
  intros Hc. induction 1 as [|log m o r m' Hh IH Hty He]; intros Hl.
  - intros sd i l Hi Hg. exfalso. destruct sd; unfold init_market in Hi; cbn in Hi; lia.
  - rewrite app_length in Hl. cbn in Hl. rewrite posted_ids_app.
    assert (Hr : reachable same_id c m) by (split; [done|]; exists log; split; [done|lia]).
    eapply bseen_mono; [|apply (exec_seen c o m r m' _ Hr Hty He (IH ltac:(lia)))].
    intros k. unfold posted_ids at 3. cbn. by destruct (posted_id _).
Qed.
(** The panic needs an id that was posted, and whose order is gone. *)
Lemma cancel_panic c log m id x m' : config_ok c -> history same_id c log m ->
  N.of_nat (length log) < p63 -> exec same_id (CancelOrder id) m = (Panic x, m') ->
  id ∈ posted_ids log /\ id ∉ map o_id (resting m (side_of_id id)) /\ x = PIndex.
Proof.
  intros Hc Hh Hl He. pose proof (history_seen _ _ _ Hc Hh Hl) as Hseen.
  assert (Hr : reachable same_id c m) by (split; [done|]; exists log; split; [done|lia]).
  destruct (decide (id ∈ map o_id (resting m (side_of_id id)))) as [Hin|Hni].
  { exfalso. apply elem_of_list_fmap in Hin as (o&->&Ho).
    destruct (cancel_present _ _ _ _ _ Hr Ho) as (m1&H&_). congruence. }
  rewrite (cancel_absent _ _ _ _ Hr Hni) in He. unfold stale in He.
  destruct (length (resting m (side_of_id id)) =? 1)%nat eqn:E; [|done]. cbn [andb] in He.
  case_bool_decide as Hs0; [|done]. injection He as <- <-. split; [|done].
  destruct (reachable_minv _ _ _ Hr) as (L&pend&Hm&_).
  rewrite (minv_resting _ _ _ _ _ Hm), prio_length in E. apply Nat.eqb_eq in E.
  set (sd := side_of_id id) in *. pose proof (mi_rep _ _ _ _ Hm sd) as (es&Hsr&Hes).
  unfold slot0_key in Hs0. destruct (getN (leaf_nodes (tree (m_book m) sd)) 0) as [l|] eqn:Hg; [|done].
  injection Hs0 as <-. apply (Hseen sd 0 l); [|done].
  pose proof (srep_length _ _ Hsr) as Hlen.
  pose proof (lrep_count _ _ _ (mi_rep _ _ _ _ Hm sd)) as Hcnt.
  destruct Hsr as (ot&fl&ifl&[_ _ Ha _]&Heq&_).
  destruct es as [|e0 es0]; [cbn in Hlen; lia|]. rewrite <- Heq in Ha.
  destruct Ha as [Hbnd Hnd Hle Hcap Hx Hy]. cbn in Hle. lia.
Qed.
Lemma cancel_never_posted c log m id : config_ok c -> history same_id c log m ->
  N.of_nat (length log) < p63 -> id ∉ posted_ids log ->
  exec same_id (CancelOrder id) m = (Err OrderNotFound, m).
Proof.
  intros Hc Hh Hl Hni.
  assert (Hr : reachable same_id c m) by (split; [done|]; exists log; split; [done|lia]).
  assert (Hni' : id ∉ map o_id (resting m (side_of_id id))).
  { intros Hin. apply Hni. by apply (resting_posted_nodup same_id c log m (side_of_id id) Hc Hh Hl). }
  pose proof (cancel_absent same_id c m id Hr Hni') as He.
  destruct (stale m (side_of_id id) id); [|done].
  by apply (cancel_panic _ _ _ _ _ _ Hc Hh Hl) in He as [? _].
Qed.
End Stale.
