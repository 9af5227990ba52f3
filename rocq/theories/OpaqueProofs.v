(** * OpaqueProofs.v: the program commutes with replacing callback infos (C60) *)
From stdpp Require Import list.
From Verif Require Import Machine Critbit EventQueue OrderBook Market Spec OpaqueSpec.

Definition rmap {A B} (g : A -> B) (r : res A) : res B :=
  match r with Ok a => Ok (g a) | Err e => Err e | Panic x => Panic x | Diverge => Diverge end.
Lemma rmap_id {A} (r : res A) : rmap (fun x => x) r = r.
Proof. by destruct r. Qed.

Section Hom.
Context {S T : Type} (h : S -> T).
(** [m'] does to [h s] what [m] does to [s]. *)
Definition hom {A B} (g : A -> B) (m : M S A) (m' : M T B) : Prop :=
  forall s, m' (h s) = (rmap g (fst (m s)), h (snd (m s))).
Notation id := (fun x => x).
Lemma hom_ret {A B} (g : A -> B) a : hom g (ret a) (ret (g a)).
Proof. by intros s. Qed.
Lemma hom_ret_id {A} (a : A) : hom id (ret a) (ret a).
Proof. by intros s. Qed.
Lemma hom_fail {A B} (g : A -> B) e : hom g (fail e) (fail e).
Proof. by intros s. Qed.
Lemma hom_panic {A B} (g : A -> B) e : hom g (panic_with e) (panic_with e).
Proof. by intros s. Qed.
Lemma hom_lift {A B} (g : A -> B) r r' : r' = rmap g r -> hom g (lift r) (lift r').
Proof. intros -> s. done. Qed.
Lemma hom_lift_id {A} (r r' : res A) : r' = r -> hom id (lift r) (lift r').
Proof. intros -> s. unfold lift. cbn. by rewrite rmap_id. Qed.
Lemma hom_get : hom h get get.
Proof. by intros s. Qed.
Lemma hom_put s t : t = h s -> hom id (put s) (put t).
Proof. intros -> x. done. Qed.
Lemma hom_modify (k : S -> S) (k' : T -> T) : (forall s, k' (h s) = h (k s)) -> hom id (modify k) (modify k').
Proof. intros H s. unfold modify. by rewrite H. Qed.
Lemma hom_bind {A B A' B'} (g : A -> A') (g2 : B -> B') m m' k k' :
  hom g m m' -> (forall a, hom g2 (k a) (k' (g a))) -> hom g2 (bind m k) (bind m' k').
Proof.
  intros Hm Hk s. unfold bind. rewrite Hm. destruct (m s) as [[a|e|x|] s1]; cbn; [apply Hk|done..].
Qed.
(** After [get], only the related pair of states matters. *)
Lemma hom_bind_get {B B'} (g2 : B -> B') (k : S -> M S B) (k' : T -> M T B') :
  (forall s, hom g2 (k s) (k' (h s))) -> hom g2 (bind get k) (bind get k').
Proof. intros H. eapply hom_bind; [apply hom_get|done]. Qed.
Lemma hom_bind_id {A B B'} (g2 : B -> B') (m : M S A) (m' : M T A) k k' :
  hom id m m' -> (forall a, hom g2 (k a) (k' a)) -> hom g2 (bind m k) (bind m' k').
Proof. intros. by eapply hom_bind. Qed.
Lemma hom_if {A B} (g : A -> B) (b : bool) m1 m1' m2 m2' : hom g m1 m1' -> hom g m2 m2' ->
  hom g (if b then m1 else m2) (if b then m1' else m2').
Proof. by destruct b. Qed.
End Hom.
Lemma hom_zoom {S T S1 T1 A B} (h : S -> T) (h1 : S1 -> T1) (g : A -> B)
    (proj : S -> S1) (inj : S1 -> S -> S) (proj' : T -> T1) (inj' : T1 -> T -> T) m m' :
  (forall s, proj' (h s) = h1 (proj s)) -> (forall s1 s, inj' (h1 s1) (h s) = h (inj s1 s)) ->
  hom h1 g m m' -> hom h g (zoom proj inj m) (zoom proj' inj' m').
Proof.
  intros Hp Hi Hm s. unfold zoom. rewrite Hp, Hm. destruct (m (proj s)) as [r t]. cbn. by rewrite Hi.
Qed.

Section Opaque.
Context {C D : Type} (f : C -> D).
Notation sw := (slab_with f).
Notation qw := (queue_with f).
Notation bw := (book_with f).
Notation mw := (market_with f).
Notation id := (fun x => x).

Create HintDb homs.
(** One step through the structure of the program. *)
Ltac h1 :=
  cbv zeta;
  lazymatch goal with
  | |- hom _ _ (bind get _) _ => apply hom_bind_get; intros
  | |- hom _ (fun x => x) (ret _) _ => apply hom_ret_id
  | |- hom _ _ (fail _) _ => apply hom_fail
  | |- hom _ _ (panic_with _) _ => apply hom_panic
  | |- hom _ (fun x => x) (lift _) (lift _) => apply hom_lift_id; reflexivity
  | |- hom _ _ (put _) _ => apply hom_put; reflexivity
  | |- hom _ _ (modify _) _ => apply hom_modify; intros; reflexivity
  | |- hom _ _ (if _ then _ else _) _ => apply hom_if
  | |- hom _ _ (bind (A := ?A) _ _) (bind (A := ?A) _ _) => apply hom_bind_id; [|intros]
  | |- hom _ _ (match ?x with _ => _ end) _ => is_var x; destruct x
  end.
Ltac hs := cbn [fst snd hdr leaf_nodes inner_nodes callback_infos slab_with q_head q_count q_seq q_events q_cbs queue_with].
Ltac hh := intros; hs; repeat (h1; hs); try (auto 1 with homs nocore; fail).

Lemma getN_map (l : list C) i : getN (map f l) i = f <$> getN l i.
Proof. unfold getN. rewrite map_length. destruct (_ <? _); [|done]. apply list_lookup_fmap. Qed.
Lemma idx_map (l : list C) i : idx (map f l) i = rmap f (idx l i).
Proof. unfold idx. rewrite getN_map. by destruct (getN l i). Qed.
Lemma upd_map (l : list C) i x : upd (map f l) i (f x) = rmap (map f) (upd l i x).
Proof.
  unfold upd, setN. rewrite map_length. destruct (_ <? _) eqn:E; [|done]. cbn. f_equal.
  symmetry. apply list_fmap_insert.
Qed.

(** ** critbit.rs *)
Lemma write_leaf_hom i l : hom sw id (write_leaf i l) (write_leaf i l).
Proof. unfold write_leaf. hh. Qed.
Lemma write_inner_hom i n : hom sw id (write_inner i n) (write_inner i n).
Proof. unfold write_inner. hh. Qed.
Lemma put_hdr_hom x : hom sw id (put_hdr x) (put_hdr x).
Proof. unfold put_hdr. hh. Qed.
Hint Resolve write_leaf_hom write_inner_hom put_hdr_hom : homs.
Lemma allocate_leaf_hom : hom sw id allocate_leaf allocate_leaf.
Proof. unfold allocate_leaf. hh. Qed.
Lemma free_leaf_hom x : hom sw id (free_leaf x) (free_leaf x).
Proof. unfold free_leaf. hh. Qed.
Lemma allocate_inner_hom : hom sw id allocate_inner_node allocate_inner_node.
Proof. unfold allocate_inner_node. hh. Qed.
Lemma free_inner_hom x : hom sw id (free_inner_node x) (free_inner_node x).
Proof. unfold free_inner_node. hh. Qed.
Hint Resolve allocate_leaf_hom free_leaf_hom allocate_inner_hom free_inner_hom : homs.
Lemma insert_walk_with fuel s : forall x p k, insert_walk fuel (sw s) x p k = insert_walk fuel s x p k.
Proof.
  induction fuel as [|fuel IH]; intros x p k; [done|]. cbn [insert_walk inner_nodes leaf_nodes slab_with].
  destruct (is_inner x); [|done]. destruct (idx _ _) as [n| | |]; [|done..]. cbn [rbind].
  destruct (_ <=? _); [|done]. destruct (walk_down n k); [|done..]. apply IH.
Qed.
Lemma remove_walk_with fuel s : forall g p c b k, remove_walk fuel (sw s) g p c b k = remove_walk fuel s g p c b k.
Proof.
  induction fuel as [|fuel IH]; intros g p c b k; [done|]. cbn [remove_walk inner_nodes leaf_nodes slab_with].
  destruct (is_inner c); [|done]. destruct (idx _ _) as [n| | |]; [|done..]. cbn [rbind].
  destruct (walk_down n k); [|done..]. apply IH.
Qed.
Lemma min_max_walk_with fuel s mx : forall x, min_max_walk fuel (sw s) mx x = min_max_walk fuel s mx x.
Proof.
  induction fuel as [|fuel IH]; intros x; [done|]. cbn [min_max_walk inner_nodes slab_with].
  destruct (is_inner x); [|done]. destruct (idx _ _) as [n| | |]; [|done..]. apply IH.
Qed.
Lemma find_min_max_with s mx : find_min_max (sw s) mx = find_min_max s mx.
Proof. unfold find_min_max. cbn [hdr slab_with]. by rewrite min_max_walk_with. Qed.
Lemma insert_leaf_hom l : hom sw id (insert_leaf l) (insert_leaf l).
Proof.
  unfold insert_leaf. apply hom_bind_get. intros s. hs. destruct (_ =? 0); [hh|].
  rewrite insert_walk_with. hh.
Qed.
Lemma set_callback_hom i c : hom sw id (set_callback_info i c) (set_callback_info i (f c)).
Proof.
  unfold set_callback_info. hh. eapply hom_bind; [apply hom_lift, upd_map|]. intros l. hh.
Qed.
Lemma get_callback_with s i : get_callback_info (sw s) i = rmap f (get_callback_info s i).
Proof. apply idx_map. Qed.
Notation lw := (option_map (fun lc : leaf * C => (fst lc, f (snd lc)))).
Lemma get_cb_hom {A B} (g : A -> B) i (k : C -> M (slab C) A) k' : (forall c, hom sw g (k c) (k' (f c))) ->
  hom sw g (let! s := get in let! c := lift (get_callback_info s i) in k c)
           (let! s := get in let! c := lift (get_callback_info s i) in k' c).
Proof.
  intros H. apply hom_bind_get. intros s. eapply hom_bind; [apply hom_lift, get_callback_with|done].
Qed.
Lemma remove_by_key_hom k : hom sw lw (remove_by_key k) (remove_by_key k).
Proof.
  unfold remove_by_key. apply hom_bind_get. intros s. hs. destruct (_ =? 0); [apply (hom_ret _ lw None)|].
  cbv zeta. apply hom_bind_id; [hh|]. intros [[[l|] ch] b].
  - apply hom_bind_id; [hh|]. intros _. apply hom_bind_get. intros s1. apply hom_bind_id; [hh|]. intros _.
    apply get_cb_hom. intros c. apply (hom_ret _ lw (Some (l, c))).
  - rewrite remove_walk_with. apply hom_bind_id; [hh|]. intros [rp|]; [|apply (hom_ret _ lw None)].
    apply hom_bind_id; [hh|]. intros n. apply hom_bind_id; [destruct (rp_gp rp); hh|]. intros _.
    apply hom_bind_get. intros s1. hs. do 5 (apply hom_bind_id; [hh|]; intros).
    apply get_cb_hom. intros c. apply (hom_ret _ lw (Some (_, c))).
Qed.
Lemma walk_rec_with fuel s : forall x, walk_rec fuel (sw s) x = rmap (map (order_with f)) (walk_rec fuel s x).
Proof.
  induction fuel as [|fuel IH]; intros x; [done|]. cbn [walk_rec inner_nodes leaf_nodes slab_with].
  destruct (is_inner x).
  - destruct (idx _ _) as [n| | |]; [|done..]. cbn [rbind]. rewrite !IH.
    destruct (walk_rec fuel s (in_c0 n)); [|done..]. destruct (walk_rec fuel s (in_c1 n)); [|done..].
    cbn. by rewrite map_app.
  - rewrite get_callback_with. destruct (get_callback_info s x); [|done..]. cbn [rbind rmap].
    by destruct (idx _ _).
Qed.
Lemma traverse_with s : traverse (sw s) = rmap (map (order_with f)) (traverse s).
Proof. unfold traverse, root. cbn [hdr slab_with]. destruct (_ =? _); [done|]. apply walk_rec_with. Qed.

(** ** event_queue.rs *)
Lemma push_back_hom e mk tk : hom qw id (push_back e mk tk) (push_back e (option_map f mk) (option_map f tk)).
Proof.
  unfold push_back. destruct mk as [c|], tk as [d|]; cbn [option_map]; hh;
    (eapply hom_bind; [apply hom_lift, upd_map|]; intros; hh).
Qed.
Lemma gen_seq_hom : hom qw id gen_seq_num gen_seq_num.
Proof. unfold gen_seq_num. hh. Qed.
Lemma gen_id_hom price sd : hom qw id (gen_order_id price sd) (gen_order_id price sd).
Proof. unfold gen_order_id. hh. apply gen_seq_hom. Qed.
Lemma pop_n_hom n : hom qw id (pop_n n) (pop_n n).
Proof. unfold pop_n. hh. Qed.
Lemma get_event_with q i : get_event (qw q) i = rmap (event_with f) (get_event q i).
Proof.
  unfold get_event. cbn [q_events q_cbs queue_with]. rewrite !idx_map.
  destruct (idx (q_events q) i) as [e| | |]; [|done..]. cbn [rbind].
  destruct (_ =? _).
  - destruct (idx (q_cbs q) (2 * i)); [|done..]. cbn [rbind rmap]. by destruct (idx (q_cbs q) (2 * i + 1)).
  - destruct (_ =? _); [|done]. by destruct (idx (q_cbs q) (2 * i)).
Qed.
Lemma iter_from_with q n : forall i, iter_from (qw q) i n = rmap (map (event_with f)) (iter_from q i n).
Proof.
  induction n as [|n IH]; intros i; [done|]. cbn [iter_from].
  change (q_cap (qw q)) with (q_cap q). change (q_head (qw q)) with (q_head q).
  destruct (_ =? _); [done|]. destruct (add_w _ _ _); [|done..]. cbn [rbind]. rewrite get_event_with.
  destruct (get_event q _); [|done..]. cbn [rbind rmap]. rewrite IH. by destruct (iter_from q (i + 1) n).
Qed.
Lemma queue_iter_with q : queue_iter (qw q) = rmap (map (event_with f)) (queue_iter q).
Proof. apply iter_from_with. Qed.

(** ** orderbook.rs *)
Lemma tree_with b sd : tree (bw b) sd = sw (tree b sd).
Proof. by destruct sd. Qed.
Lemma on_tree_hom {A B} (g : A -> B) sd m m' : hom sw g m m' -> hom bw g (on_tree sd m) (on_tree sd m').
Proof. apply hom_zoom; [intros; apply tree_with|]. by destruct sd. Qed.
Lemma on_evq_hom {A B} (g : A -> B) m m' : hom qw g m m' -> hom bw g (on_evq m) (on_evq m').
Proof. by apply hom_zoom. Qed.
Lemma push_out_hom sd i q c : hom bw id (push_out sd i q c) (push_out sd i q (f c)).
Proof. unfold push_out. apply on_evq_hom, (push_back_hom _ (Some c) None). Qed.
Lemma find_bbo_with b sd : find_bbo (bw b) sd = find_bbo b sd.
Proof. destruct sd; cbn; apply find_min_max_with. Qed.
Lemma get_spread_with b : get_spread (bw b) = get_spread b.
Proof. unfold get_spread, find_max, find_min. cbn [bids asks book_with]. by rewrite !find_min_max_with. Qed.

Context (same : C -> C -> bool) (same' : D -> D -> bool).
(** The comparison is preserved, or the order does not ask for it. *)
Definition agree (p : params C) : Prop := stb p = DecrementTake \/ forall x y, same' (f x) (f y) = same x y.
Definition agree_op (o : op C) : Prop := match o with NewOrder p => agree p | _ => True end.
Notation pw := (params_with f).

Notation lcw := (fun lc : leaf * C => (fst lc, f (snd lc))).
Lemma remove_unwrap_hom {A B} (g : A -> B) sd key (k : leaf * C -> M (book C) A) k' :
  (forall lc, hom bw g (k lc) (k' (lcw lc))) ->
  hom bw g (let! r := on_tree sd (remove_by_key key) in let! lc := lift (unwrap r) in k lc)
           (let! r := on_tree sd (remove_by_key key) in let! lc := lift (unwrap r) in k' lc).
Proof.
  intros H. eapply (hom_bind _ lw); [apply on_tree_hom, remove_by_key_hom|]. intros r.
  eapply (hom_bind _ lcw); [apply hom_lift; by destruct r|done].
Qed.
Lemma write_tree_hom sd i l : hom bw id (on_tree sd (write_leaf i l)) (on_tree sd (write_leaf i l)).
Proof. apply on_tree_hom, write_leaf_hom. Qed.
Hint Resolve push_out_hom write_tree_hom : homs.
Lemma match_step_hom p ms l : agree p -> hom bw id (match_step same p ms l) (match_step same' (pw p) ms l).
Proof.
  intros Hag. unfold match_step. cbn [p_side limit_price post_only stb p_callback params_with]. cbv zeta.
  destruct (_ =? 0); [hh|]. apply hom_bind_get. intros s. rewrite find_bbo_with, !tree_with. hs.
  apply hom_bind_id; [hh|]. intros [i|]; [|hh]. apply hom_bind_id; [hh|]. intros best.
  destruct (_ || _); [hh|]. destruct (_ =? 0); [hh|]. apply hom_bind_id; [hh|]. intros q.
  destruct (_ =? 0); [hh|]. eapply (hom_bind _ f); [apply hom_lift, idx_map|]. intros c.
  replace (match stb p with DecrementTake => false | _ => same' (f (p_callback p)) (f c) end)
    with (match stb p with DecrementTake => false | _ => same (p_callback p) c end)
    by (destruct Hag as [->|Hag]; [done|by rewrite Hag]).
  destruct (match stb p with DecrementTake => false | _ => same (p_callback p) c end).
  - destruct (stb p); [hh| |hh]. apply hom_bind_id; [hh|]. intros _. apply remove_unwrap_hom. intros lc. hh.
  - apply hom_bind_id; [apply on_evq_hom, (push_back_hom _ (Some c) (Some (p_callback p)))|]. intros _.
    do 4 (apply hom_bind_id; [hh|]; intros). apply hom_bind_id; [|hh].
    destruct (_ <? _); [|hh]. apply remove_unwrap_hom. intros lc. hh.
Qed.
Definition stepw {A} (x : step (locals * book C) (res A * book C)) : step (locals * book D) (res A * book D) :=
  match x with Continue (l, b) => Continue (l, bw b) | Done (r, b) => Done (r, bw b) end.
Lemma loop_pos_hom {A} n (F : locals * book C -> step (locals * book C) (res A * book C)) G :
  (forall l b, G (l, bw b) = stepw (F (l, b))) -> forall l b, loop_pos n G (l, bw b) = stepw (loop_pos n F (l, b)).
Proof.
  intros H. induction n as [n IH|n IH|]; intros l b; cbn [loop_pos].
  - rewrite H. destruct (F (l, b)) as [[l1 b1]|[r b1]]; [|done]. cbn [stepw]. rewrite IH.
    destruct (loop_pos n F (l1, b1)) as [[l2 b2]|[r b2]]; [|done]. apply IH.
  - rewrite IH. destruct (loop_pos n F (l, b)) as [[l1 b1]|[r b1]]; [|done]. apply IH.
  - apply H.
Qed.
Lemma match_loop_hom p ms : agree p -> hom bw id (match_loop same p ms) (match_loop same' (pw p) ms).
Proof.
  intros Hag b. unfold match_loop. cbn [match_limit max_base_qty max_quote_qty params_with].
  destruct (N.succ (match_limit p)) as [|n] eqn:E; [lia|]. cbn [loop].
  set (F := fun lb : locals * book C => match match_step same p ms (fst lb) (snd lb) with
      | (Ok (ItNext l), b') => Continue (l, b') | (Ok (ItBreak l), b') => Done (Ok l, b')
      | (Err e, b') => Done (Err e, b') | (Panic x, b') => Done (Panic x, b') | (Diverge, b') => Done (Diverge, b') end).
  set (G := fun lb : locals * book D => match match_step same' (pw p) ms (fst lb) (snd lb) with
      | (Ok (ItNext l), b') => Continue (l, b') | (Ok (ItBreak l), b') => Done (Ok l, b')
      | (Err e, b') => Done (Err e, b') | (Panic x, b') => Done (Panic x, b') | (Diverge, b') => Done (Diverge, b') end).
  assert (H : forall l x, G (l, bw x) = stepw (F (l, x))).
  { intros l x. unfold F, G. cbn [fst snd]. rewrite match_step_hom by done. destruct (match_step same p ms l x) as [[[]| | |] ?]; done. }
  rewrite (loop_pos_hom _ _ _ H). destruct (loop_pos n F _) as [[l1 b1]|[r b1]]; cbn; [done|]. by rewrite rmap_id.
Qed.
Lemma try_insert_hom sd l : hom bw id (try_insert sd l) (try_insert sd l).
Proof.
  intros b. unfold try_insert. rewrite (on_tree_hom id sd _ _ (insert_leaf_hom l)).
  destruct (on_tree sd (insert_leaf l) b) as [[[h o]|e|x|] b1]; cbn; try done. by destruct e.
Qed.
Lemma no_post_hom p b q : hom bw id (no_post p b q) (no_post (pw p) b q).
Proof. unfold no_post. cbn [max_base_qty max_quote_qty params_with]. hh. Qed.
Hint Resolve try_insert_hom no_post_hom : homs.
Lemma post_leaf_hom p l : hom bw id (post_leaf p l) (post_leaf (pw p) l).
Proof.
  unfold post_leaf. cbn [p_side limit_price params_with]. cbv zeta. apply hom_bind_id; [hh|]. intros [h|]; [hh|].
  apply hom_bind_get. intros s. rewrite !tree_with. unfold find_min, find_max. rewrite !find_min_max_with. hs.
  do 3 (apply hom_bind_id; [hh|]; intros). destruct (match p_side p with Bid => _ | Ask => _ end); [|hh].
  apply remove_unwrap_hom. intros lc. hh.
Qed.
Lemma new_order_hom p ms : agree p -> hom bw id (new_order same p ms) (new_order same' (pw p) ms).
Proof.
  intros Hag. unfold new_order. cbn [p_side limit_price post_allowed p_callback max_base_qty max_quote_qty params_with]. cbv zeta.
  apply hom_bind_id; [by apply match_loop_hom|]. intros l. destruct (_ || _); [hh|].
  apply hom_bind_id; [apply on_evq_hom, gen_id_hom|]. intros oid. apply hom_bind_id; [apply post_leaf_hom|].
  intros [h|]; [|hh]. apply hom_bind_id; [apply on_tree_hom, set_callback_hom|]. hh.
Qed.

(** ** The processors *)
Lemma on_book_hom {A B} (g : A -> B) m m' : hom bw g m m' -> hom mw g (on_book m) (on_book m').
Proof. by apply hom_zoom. Qed.
Lemma remove_ok_or_hom {A B} (g : A -> B) sd key e (k : leaf * C -> M (market C) A) k' :
  (forall lc, hom mw g (k lc) (k' (lcw lc))) ->
  hom mw g (let! r := on_book (on_tree sd (remove_by_key key)) in let! lc := lift (ok_or r e) in k lc)
           (let! r := on_book (on_tree sd (remove_by_key key)) in let! lc := lift (ok_or r e) in k' lc).
Proof.
  intros H. eapply (hom_bind _ lw); [apply on_book_hom, on_tree_hom, remove_by_key_hom|]. intros r.
  eapply (hom_bind _ lcw); [apply hom_lift; by destruct r|done].
Qed.
Lemma mass_hom ids : forall tb tq, hom mw id (mass_cancel_loop ids tb tq) (mass_cancel_loop ids tb tq).
Proof.
  induction ids as [|i ids IH]; intros tb tq; cbn [mass_cancel_loop]; [hh|].
  apply remove_ok_or_hom. intros lc. cbn [fst]. hh.
Qed.
Lemma process_hom o : agree_op o -> hom mw id (process same o) (process same' (op_with f o)).
Proof.
  intros Hag. destruct o as [p|i|ids|n]; cbn [process op_with]; (apply hom_bind_id; [|hh]).
  - unfold process_new_order. cbn [limit_price post_allowed params_with]. apply hom_bind_get. intros m.
    cbn [m_tick m_min market_with]. hh. by apply on_book_hom, new_order_hom.
  - unfold process_cancel_order. apply remove_ok_or_hom. intros lc. cbn [fst]. hh.
  - unfold process_mass_cancel. apply hom_bind_id; [apply mass_hom|]. hh.
  - unfold process_consume_events. apply on_book_hom, on_evq_hom, pop_n_hom.
Qed.
Lemma exec_with o m : agree_op o -> exec same' (op_with f o) (mw m) = (fst (exec same o m), mw (snd (exec same o m))).
Proof.
  intros Hag. unfold exec. rewrite process_hom by done. destruct (process same o m) as [[]]; done.
Qed.
Lemma resting_with m sd : resting (mw m) sd = map (order_with f) (resting m sd).
Proof.
  unfold resting. cbn [m_book market_with]. rewrite tree_with, traverse_with. by destruct (traverse _).
Qed.
Lemma pending_with m : pending (mw m) = map (event_with f) (pending m).
Proof. unfold pending. cbn [m_book evq market_with book_with]. rewrite queue_iter_with. by destruct (queue_iter _). Qed.
Lemma emitted_with m m' : emitted (mw m) (mw m') = map (event_with f) (emitted m m').
Proof. unfold emitted. rewrite !pending_with, map_length. symmetry. apply fmap_drop. Qed.
Lemma init_with c : init_market (config_with f c) = mw (init_market c).
Proof.
  unfold init_market, market_with, book_with, slab_with, queue_with, empty_slab, empty_queue. cbn.
  by rewrite !map_replicate || by rewrite <- !fmap_replicate.
Qed.
Lemma steps_with m0 log m : Forall (fun e => agree_op (en_op e)) log -> steps same m0 log m -> steps same' (mw m0) (map (entry_with f) log) (mw m).
Proof.
  intros Hf Hs. induction Hs as [|log m o r m' Hs IH Ht He]; [constructor|]. rewrite map_app. cbn [map].
  apply Forall_app in Hf as [Hf [Ho _]%Forall_cons]. cbn [en_op] in Ho.
  unfold entry_with at 2. cbn [en_op en_res en_events]. rewrite <- emitted_with.
  econstructor; [by apply IH|by destruct o|]. rewrite exec_with, He by done. done.
Qed.
Lemma history_with c log m : Forall (fun e => agree_op (en_op e)) log -> history same c log m ->
  history same' (config_with f c) (map (entry_with f) log) (mw m).
Proof. unfold history. rewrite init_with. apply steps_with. Qed.
End Opaque.
