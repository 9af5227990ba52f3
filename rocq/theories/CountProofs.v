(** * CountProofs.v: the counting program is the program, and its count is bounded (C85) *)
From Verif Require Import Machine Critbit EventQueue OrderBook Market MachineProofs Count.
From Coq Require Import ZifyBool ZifyNat ZifyN.

(** ** Without the count it is the program *)
Definition er {S A} (k : K S A) (m : M S A) : Prop := forall s, fst (k s) = m s.
Lemma er_free {S A} (m : M S A) : er (free m) m. Proof. done. Qed.
Lemma er_ret {S A} (a : A) : er (kret a : K S A) (ret a). Proof. done. Qed.
Lemma er_bind {S A B} (k : K S A) m (f : A -> K S B) g : er k m -> (forall a, er (f a) (g a)) -> er (kbind k f) (bind m g).
Proof.
  intros H Hf s. unfold kbind, bind. specialize (H s). destruct (k s) as [[r s'] n]. cbn in H. rewrite <- H.
  destruct r as [a|e|x|]; try done. specialize (Hf a s'). by destruct (f a s') as [y n'].
Qed.
Lemma er_tick {S A} (f : unit -> K S A) m : er (f tt) m -> er (kbind tick f) m.
Proof. intros H s. specialize (H s). unfold kbind, tick. by destruct (f tt s). Qed.
Lemma er_zoom {S T A} (pr : S -> T) inj (k : K T A) m : er k m -> er (kzoom pr inj k) (zoom pr inj m).
Proof. intros H s. unfold kzoom, zoom. specialize (H (pr s)). destruct (k (pr s)) as [[r t] n]. cbn in H. by rewrite <- H. Qed.
(** Reading the state, then a pure computation of it. *)
Lemma er_get_lift {S A} (k : S -> K S A) (r : S -> res A) :
  (forall s, fst (k s s) = (r s, s)) -> er (kbind (free get) k) (fun s => (r s, s)).
Proof. intros H s. unfold kbind, free, get. specialize (H s). by destruct (k s s). Qed.

Ltac ee1 :=
  match goal with
  | |- er (kbind tick _) _ => apply er_tick
  | |- er (kbind _ _) (bind _ _) => apply er_bind; [|intros ?]
  | |- er (free ?m) ?m => apply er_free
  | |- er (kret _) (ret _) => apply er_ret
  | |- er (kzoom _ _ _) (zoom _ _ _) => apply er_zoom
  | |- er (on_tree_k _ _) (on_tree _ _) => apply er_zoom
  | |- er (on_book_k _) (on_book _) => apply er_zoom
  | |- er (match ?x with _ => _ end) (match ?x with _ => _ end) => destruct x
  end.
Create HintDb ers.
Ltac ee := repeat (cbv zeta; first [ee1 | solve [eauto 1 with ers]]).


Lemma k_tick {S A} (f : unit -> K S A) s : fst (kbind tick f s) = fst (f tt s).
Proof. unfold kbind, tick. by destruct (f tt s). Qed.
Lemma k_get {S A} (f : S -> K S A) s : fst (kbind (free get) f s) = fst (f s s).
Proof. unfold kbind, free, get. by destruct (f s s). Qed.
Lemma k_pure {S A B} (k : K S A) r (f : A -> K S B) s : fst (k s) = (r, s) -> fst (kbind k f s) =
  match r with Ok a => fst (f a s) | Err e => (Err e, s) | Panic x => (Panic x, s) | Diverge => (Diverge, s) end.
Proof.
  intros H. unfold kbind. destruct (k s) as [[r' s'] n]. cbn in H. injection H as -> ->.
  destruct r as [a| | |]; try done. by destruct (f a s).
Qed.
Lemma k_lift {S A B} (r : res A) (f : A -> K S B) s : fst (kbind (free (lift r)) f s) =
  match r with Ok a => fst (f a s) | Err e => (Err e, s) | Panic x => (Panic x, s) | Diverge => (Diverge, s) end.
Proof. by apply k_pure. Qed.

Lemma rb_ok {A B} (a : A) (f : A -> res B) : rbind (Ok a) f = f a. Proof. done. Qed.
Lemma m_lift {S A B} (r : res A) (f : A -> M S B) s : bind (lift r) f s =
  match r with Ok a => f a s | Err e => (Err e, s) | Panic x => (Panic x, s) | Diverge => (Diverge, s) end.
Proof. by destruct r. Qed.
Section Slab.
Context {C : Type}.
(** The descents read the slab only. *)
Lemma insert_walk_er fuel : forall h par key (s : slab C), fst (insert_walk_k fuel h par key s) = (insert_walk fuel s h par key, s).
Proof.
  induction fuel as [|fuel IH]; intros h par key s; [done|]. cbn [insert_walk_k insert_walk]. rewrite k_tick, k_get.
  destruct (is_inner h); rewrite k_lift.
  - destruct (idx (inner_nodes s) (not32 h)) as [n| | |]; try done. rewrite rb_ok. cbv zeta. destruct (as_u32 (in_plen n) <=? _); [|done].
    rewrite k_lift. destruct (walk_down n key) as [w| | |]; try done. rewrite rb_ok. apply IH.
  - destruct (idx (leaf_nodes s) h) as [l| | |]; try done. rewrite rb_ok. by destruct (lf_key l =? key).
Qed.
Lemma remove_walk_er fuel : forall gp par c bit key (s : slab C), fst (remove_walk_k fuel gp par c bit key s) = (remove_walk fuel s gp par c bit key, s).
Proof.
  induction fuel as [|fuel IH]; intros gp par c bit key s; [done|]. cbn [remove_walk_k remove_walk]. rewrite k_tick, k_get.
  destruct (is_inner c); rewrite k_lift.
  - destruct (idx (inner_nodes s) (not32 c)) as [n| | |]; try done. rewrite rb_ok.
    rewrite k_lift. destruct (walk_down n key) as [w| | |]; try done. rewrite rb_ok. apply IH.
  - destruct (idx (leaf_nodes s) c) as [l| | |]; try done. rewrite rb_ok. by destruct (lf_key l =? key).
Qed.
Lemma min_max_walk_er fuel : forall mx h (s : slab C), fst (min_max_walk_k fuel mx h s) = (min_max_walk fuel s mx h, s).
Proof.
  induction fuel as [|fuel IH]; intros mx h s; [done|]. cbn [min_max_walk_k min_max_walk]. rewrite k_tick, k_get.
  destruct (is_inner h); [|done]. rewrite k_lift. destruct (idx (inner_nodes s) (not32 h)) as [n| | |]; try done. rewrite rb_ok. apply IH.
Qed.
Lemma insert_leaf_er l : er (@insert_leaf_k C l) (insert_leaf l).
Proof.
  intros s. unfold insert_leaf_k, insert_leaf. rewrite k_get, bind_get. destruct (leaf_count (hdr s) =? 0); [done|].
  rewrite (k_pure _ _ _ _ (insert_walk_er _ _ _ _ _)). rewrite m_lift. destruct (insert_walk walk_fuel s _ _ _) as [pos| | |]; try done.
  by destruct pos.
Qed.
Lemma remove_by_key_er key : er (@remove_by_key_k C key) (remove_by_key key).
Proof.
  intros s. unfold remove_by_key_k, remove_by_key. rewrite k_get, bind_get. destruct (leaf_count (hdr s) =? 0); [done|].
  cbv zeta. rewrite k_tick, k_lift. rewrite m_lift.
  destruct (if is_inner _ then _ else _) as [[[rr ch] bit]| | |]; try done. destruct rr as [l|]; [done|].
  rewrite (k_pure _ _ _ _ (remove_walk_er _ _ _ _ _ _ _)). rewrite m_lift. destruct (remove_walk walk_fuel s _ _ _ _ _) as [pos| | |]; try done.
  by destruct pos.
Qed.
Lemma find_min_max_er mx (s : slab C) : fst (find_min_max_k mx s) = (find_min_max s mx, s).
Proof.
  unfold find_min_max_k, find_min_max. rewrite k_get. destruct (leaf_count (hdr s) =? 0); [done|].
  rewrite (k_pure _ _ _ _ (min_max_walk_er _ _ _ _)). by destruct (min_max_walk walk_fuel s mx _).
Qed.
End Slab.
Local Hint Resolve insert_leaf_er remove_by_key_er : ers.

Section Book.
Context {C : Type} (same_id : C -> C -> bool).
Lemma push_er ev mk tk : er (@push_k C ev mk tk) (on_evq (push_back ev mk tk)).
Proof. unfold push_k. ee. Qed.
Lemma push_out_er sd id base cb : er (@push_out_k C sd id base cb) (push_out sd id base cb).
Proof. apply push_er. Qed.
Lemma set_tree_same sd (b : book C) : set_tree sd (tree b sd) b = b.
Proof. by destruct sd, b. Qed.
Lemma on_tree_find sd mx (b : book C) : fst (on_tree_k sd (find_min_max_k mx) b) = (find_min_max (tree b sd) mx, b).
Proof.
  unfold on_tree_k, kzoom. pose proof (find_min_max_er mx (tree b sd)) as H. destruct (find_min_max_k mx (tree b sd)) as [[r t] n].
  cbn in H. injection H as -> ->. cbn. by rewrite set_tree_same.
Qed.
Lemma find_bbo_er sd : er (@find_bbo_k C sd) (fun b => (find_bbo b sd, b)).
Proof. intros b. unfold find_bbo_k. rewrite on_tree_find. by destruct sd. Qed.
Lemma er_at_find {A} (k : K (book C) A) (r : book C -> res A) {B} (f : A -> K (book C) B) g b :
  fst (k b) = (r b, b) -> (forall a, er (f a) (g a)) -> fst (kbind k f b) = bind (lift (r b)) g b.
Proof. intros H Hf. rewrite (k_pure _ _ _ _ H). unfold bind, lift. destruct (r b); try done. apply Hf. Qed.
Local Hint Resolve push_er push_out_er : ers.
Lemma match_step_er p min l : er (match_step_k same_id p min l) (match_step same_id p min l).
Proof.
  unfold match_step_k, match_step. apply er_tick. cbv zeta. destruct (l_limit l =? 0); [done|]. intros b.
  rewrite k_get, bind_get. apply (er_at_find _ (fun b => find_bbo b (opposite (p_side p)))); [apply find_bbo_er|]. intros bbo.
  destruct bbo as [h|]; [|done]. ee.
Qed.
Definition drop_count {A R} (x : step (A * N) (R * N)) : step A R :=
  match x with Continue (a, _) => Continue a | Done (r, _) => Done r end.
Lemma loop_pos_er {A R} (f : A * N -> step (A * N) (R * N)) (g : A -> step A R) :
  (forall a n, drop_count (f (a, n)) = g a) -> forall k a n, drop_count (loop_pos k f (a, n)) = loop_pos k g a.
Proof.
  intros H. induction k as [k IH|k IH|]; intros a n; cbn [loop_pos].
  - specialize (H a n). destruct (f (a, n)) as [[a1 n1]|[r n1]]; cbn in H; rewrite <- H; [|done].
    specialize (IH a1 n1) as IH1. destruct (loop_pos k f (a1, n1)) as [[a2 n2]|[r n2]]; cbn in IH1; rewrite <- IH1; [apply IH|done].
  - specialize (IH a n) as IH1. destruct (loop_pos k f (a, n)) as [[a2 n2]|[r n2]]; cbn in IH1; rewrite <- IH1; [apply IH|done].
  - apply H.
Qed.
Lemma match_loop_er p min : er (match_loop_k same_id p min) (match_loop same_id p min).
Proof.
  intros b. unfold match_loop_k, match_loop, loop. destruct (N.succ (match_limit p)) as [|k]; [done|].
  set (f := fun lbn : locals * book C * N => let '(l, b, n) := lbn in match match_step_k same_id p min l b with
    | (Ok (ItNext l'), b', n') => Continue (l', b', n + n') | (Ok (ItBreak l'), b', n') => Done (Ok l', b', n + n')
    | (Err e, b', n') => Done (Err e, b', n + n') | (Panic x, b', n') => Done (Panic x, b', n + n')
    | (Diverge, b', n') => Done (Diverge, b', n + n') end).
  set (g := fun lb : locals * book C => _).
  assert (H : forall a n, drop_count (f (a, n)) = g a).
  { intros [l b0] n. unfold f, g. cbn [fst snd]. pose proof (match_step_er p min l b0) as E.
    destruct (match_step_k same_id p min l b0) as [[r b'] n']. cbn in E. rewrite <- E. destruct r as [[l'|l']| | |]; done. }
  pose proof (loop_pos_er f g H k (mk_locals (match_limit p) (max_base_qty p) (max_quote_qty p) true, b) 0) as E.
  rewrite <- E. destruct (loop_pos k f _) as [[[l' b'] n']|[r n']]; done.
Qed.
Lemma try_insert_er sd lf : er (@try_insert_k C sd lf) (try_insert sd lf).
Proof.
  intros b. unfold try_insert_k, try_insert.
  assert (E : er (on_tree_k sd (@insert_leaf_k C lf)) (on_tree sd (insert_leaf lf))) by ee. specialize (E b).
  destruct (on_tree_k sd (insert_leaf_k lf) b) as [[r b'] n]. cbn in E. rewrite <- E. destruct r as [[h ?]|e| |]; try done. by destruct e.
Qed.
Local Hint Resolve match_loop_er try_insert_er : ers.
Lemma post_leaf_er p lf : er (@post_leaf_k C p lf) (post_leaf p lf).
Proof.
  unfold post_leaf_k, post_leaf. cbv zeta. apply er_bind; [apply try_insert_er|]. intros [h|]; [done|]. intros b. rewrite k_get, bind_get.
  replace (match p_side p with Bid => find_min (tree b (p_side p)) | Ask => find_max (tree b (p_side p)) end)
    with (find_min_max (tree b (p_side p)) (match p_side p with Bid => false | Ask => true end)) by (by destruct (p_side p)).
  apply (er_at_find _ (fun b => find_min_max (tree b (p_side p)) (match p_side p with Bid => false | Ask => true end))); [apply on_tree_find|]. intros cand. ee.
Qed.
Local Hint Resolve post_leaf_er : ers.
Lemma new_order_er p min : er (new_order_k same_id p min) (new_order same_id p min).
Proof. unfold new_order_k, new_order. ee. Qed.
Local Hint Resolve new_order_er : ers.
Lemma mass_cancel_er ids : forall tb tq, er (@mass_cancel_loop_k C ids tb tq) (mass_cancel_loop ids tb tq).
Proof. induction ids as [|id ids IH]; intros tb tq; [done|]. cbn [mass_cancel_loop_k mass_cancel_loop]. ee. Qed.
Local Hint Resolve mass_cancel_er : ers.
Lemma process_er o : er (process_k same_id o) (process same_id o).
Proof.
  destruct o; cbn [process_k process].
  - unfold process_new_order_k, process_new_order. ee.
  - unfold process_cancel_order_k, process_cancel_order. ee.
  - unfold process_mass_cancel_k, process_mass_cancel. ee.
  - unfold process_consume_events_k, process_consume_events. ee.
Qed.

(** ** Bounds *)
Definition within {S A} (n : N) (k : K S A) : Prop := forall s, snd (k s) <= n.
End Book.
Lemma w_free {S A} (m : M S A) n : within n (free m). Proof. intros s. apply N.le_0_l. Qed.
Lemma w_ret {S A} (a : A) n : within n (kret a : K S A). Proof. intros s. apply N.le_0_l. Qed.
Lemma w_bind {S A B} n n' N (k : K S A) (f : A -> K S B) : within n k -> (forall a, within n' (f a)) -> n + n' <= N -> within N (kbind k f).
Proof.
  intros H Hf HN s. unfold kbind. specialize (H s). destruct (k s) as [[[a| | |] s'] c]; cbn in *; try lia.
  specialize (Hf a s'). destruct (f a s') as [x c']. cbn in *. lia.
Qed.
Lemma w_free_bind {S A B} n (m : M S A) (f : A -> K S B) : (forall a, within n (f a)) -> within n (kbind (free m) f).
Proof. intros H. apply (w_bind 0 n); [apply w_free|done|lia]. Qed.
Lemma w_tick {S A} n n' (f : unit -> K S A) : within n' (f tt) -> 1 + n' <= n -> within n (kbind tick f).
Proof. intros H Hn. apply (w_bind 1 n'); [by intros s|by intros []|done]. Qed.
Lemma w_zoom {S T A} n (pr : S -> T) inj (k : K T A) : within n k -> within n (kzoom pr inj k).
Proof. intros H s. unfold kzoom. specialize (H (pr s)). by destruct (k (pr s)) as [[r t] c]. Qed.
Lemma w_le {S A} n n' (k : K S A) : within n k -> n <= n' -> within n' k.
Proof. intros H Hn s. specialize (H s). lia. Qed.

Section Bounds.
Context {C : Type} (same_id : C -> C -> bool).
Lemma insert_walk_w fuel : forall h par key, within (N.of_nat fuel) (@insert_walk_k C fuel h par key).
Proof.
  induction fuel as [|fuel IH]; intros h par key; [apply w_free|]. cbn [insert_walk_k].
  apply (w_tick _ (N.of_nat fuel)); [|lia]. apply w_free_bind. intros s. destruct (is_inner h); apply w_free_bind; intros x.
  - cbv zeta. destruct (_ <=? _); [|apply w_ret]. apply w_free_bind. intros w. apply IH.
  - destruct (_ =? _); apply w_ret.
Qed.
Lemma remove_walk_w fuel : forall gp par c bit key, within (N.of_nat fuel) (@remove_walk_k C fuel gp par c bit key).
Proof.
  induction fuel as [|fuel IH]; intros gp par c bit key; [apply w_free|]. cbn [remove_walk_k].
  apply (w_tick _ (N.of_nat fuel)); [|lia]. apply w_free_bind. intros s. destruct (is_inner c); apply w_free_bind; intros x.
  - apply w_free_bind. intros w. apply IH.
  - destruct (_ =? _); apply w_ret.
Qed.
Lemma min_max_walk_w fuel : forall mx h, within (N.of_nat fuel) (@min_max_walk_k C fuel mx h).
Proof.
  induction fuel as [|fuel IH]; intros mx h; [apply w_free|]. cbn [min_max_walk_k].
  apply (w_tick _ (N.of_nat fuel)); [|lia]. apply w_free_bind. intros s. destruct (is_inner h); [|apply w_ret].
  apply w_free_bind. intros x. apply IH.
Qed.
Lemma insert_leaf_w l : within 129 (@insert_leaf_k C l).
Proof.
  unfold insert_leaf_k. apply w_free_bind. intros s. destruct (_ =? _); [apply w_free|].
  apply (w_bind 129 0); [apply insert_walk_w| |lia]. intros pos. destruct pos; apply w_free.
Qed.
Lemma remove_by_key_w key : within 130 (@remove_by_key_k C key).
Proof.
  unfold remove_by_key_k. apply w_free_bind. intros s. destruct (_ =? _); [apply w_ret|]. cbv zeta.
  apply (w_tick _ 129); [|lia]. apply w_free_bind. intros [[[l|] ch] bit]; [apply w_free|].
  apply (w_bind 129 0); [apply remove_walk_w| |lia]. intros [rp|]; [apply w_free|apply w_ret].
Qed.
Lemma find_min_max_w mx : within 129 (@find_min_max_k C mx).
Proof.
  unfold find_min_max_k. apply w_free_bind. intros s. destruct (_ =? _); [apply w_ret|].
  apply (w_bind 129 0); [apply min_max_walk_w| |lia]. intros h. apply w_ret.
Qed.
Lemma push_w ev mk tk : within 1 (@push_k C ev mk tk).
Proof. unfold push_k. apply (w_tick _ 0); [apply w_free|lia]. Qed.
Lemma remove_on_w sd key : within 130 (on_tree_k sd (@remove_by_key_k C key)).
Proof. apply w_zoom, remove_by_key_w. Qed.
(** One turn: itself, the best order, a removal, two events. *)
Lemma match_step_w p min l : within 262 (match_step_k same_id p min l).
Proof.
  unfold match_step_k. apply (w_tick _ 261); [|lia]. cbv zeta. destruct (_ =? _); [apply w_ret|]. apply w_free_bind. intros b.
  apply (w_bind 129 132); [apply w_zoom, find_min_max_w| |lia]. intros [h|]; [|apply w_ret].
  apply w_free_bind. intros best. destruct (_ || _); [apply w_ret|]. destruct (_ =? 0); [apply w_ret|].
  apply w_free_bind. intros qr. destruct (_ =? 0); [apply w_ret|]. apply w_free_bind. intros cb.
  destruct (match stb p with DecrementTake => _ | _ => _ end).
  - destruct (stb p); [apply w_free| |apply w_free]. all: try apply w_free.
    apply (w_bind 1 131); [apply push_w| |lia]. intros _.
    apply (w_bind 130 1); [apply remove_on_w| |lia]. intros r. apply w_free_bind. intros _. apply w_free_bind. intros lim. apply w_ret.
  - apply (w_bind 1 131); [apply push_w| |lia]. intros _. do 4 (apply w_free_bind; intros ?).
    apply (w_bind 131 0); [| |lia].
    + destruct (_ <? _); [|apply w_ret]. apply (w_bind 130 1); [apply remove_on_w| |lia]. intros r.
      apply w_free_bind. intros lc. apply push_w.
    + intros _. apply w_free_bind. intros lim. apply w_ret.
Qed.
Lemma try_insert_w sd lf : within 129 (@try_insert_k C sd lf).
Proof.
  intros b. unfold try_insert_k. pose proof (w_zoom 129 (fun b => tree b sd) (set_tree sd) _ (insert_leaf_w lf) b) as H.
  unfold on_tree_k. destruct (kzoom _ _ (insert_leaf_k lf) b) as [[[[h ?]|e| |] b'] n]; try done. by destruct e.
Qed.
Lemma post_leaf_w p lf : within 518 (@post_leaf_k C p lf).
Proof.
  unfold post_leaf_k. cbv zeta. apply (w_bind 129 389); [apply try_insert_w| |lia]. intros [h|]; [apply w_ret|].
  apply w_free_bind. intros b. apply (w_bind 129 260); [apply w_zoom, find_min_max_w| |lia]. intros cand.
  do 2 (apply w_free_bind; intros ?). destruct (match p_side p with Bid => _ | Ask => _ end); [|apply w_ret].
  apply (w_bind 130 130); [apply remove_on_w| |lia]. intros r. apply w_free_bind. intros lc.
  apply (w_bind 1 129); [apply push_w| |lia]. intros _. apply (w_bind 129 0); [apply try_insert_w| |lia]. intros r'.
  apply w_free_bind. intros h. apply w_ret.
Qed.
Lemma mass_cancel_w ids : forall tb tq, within (131 * N.of_nat (length ids)) (@mass_cancel_loop_k C ids tb tq).
Proof.
  induction ids as [|id ids IH]; intros tb tq; [apply w_ret|]. cbn [mass_cancel_loop_k length].
  apply (w_tick _ (130 + 131 * N.of_nat (length ids))); [|lia].
  apply (w_bind 130 (131 * N.of_nat (length ids))); [apply w_zoom, remove_on_w| |lia]. intros r.
  do 3 (apply w_free_bind; intros ?). apply IH.
Qed.

(** *** the matching loop *)
Lemma inv_bind {S A B} (m : M S A) (f : A -> M S B) s b s' : bind m f s = (Ok b, s') ->
  exists a s1, m s = (Ok a, s1) /\ f a s1 = (Ok b, s').
Proof. unfold bind. destruct (m s) as [[a| | |] s1]; try done. by exists a, s1. Qed.
Lemma inv_lift {S A B} (r : res A) (f : A -> M S B) s b s' : bind (lift r) f s = (Ok b, s') ->
  exists a, r = Ok a /\ f a s = (Ok b, s').
Proof. rewrite m_lift. destruct r as [a| | |]; try done. by exists a. Qed.
Lemma upd_cap {X} (l l' : list X) i x : upd l i x = Ok l' -> length l' = length l.
Proof. unfold upd. destruct (_ <? _); [|done]. intros [= <-]. apply length_setN. Qed.
Lemma push_count ev mk tk (q q' : queue C) u : push_back ev mk tk q = (Ok u, q') ->
  q_count q <> q_cap q /\ q_count q' = q_count q + 1 /\ q_cap q' = q_cap q.
Proof.
  unfold push_back. rewrite bind_get. unfold full. destruct (N.eqb_spec (q_count q) (q_cap q)) as [|Hf]; [done|]. intros H.
  apply inv_lift in H as (pos & _ & H). destruct (q_cap q =? 0); [done|]. cbv zeta in H.
  apply inv_lift in H as (evs & Hu & H). apply upd_cap in Hu. apply inv_lift in H as (cnt & Hc & H).
  unfold add_w in Hc. destruct (_ <? _); [|done]. injection Hc as <-.
  apply inv_bind in H as (? & q1 & [= <- <-] & H). apply inv_bind in H as (? & q2 & H2 & H).
  assert (E2 : q_count q2 = q_count q + 1 /\ q_cap q2 = q_cap q).
  { destruct mk as [c|]; [|injection H2 as _ <-; unfold q_cap; cbn; by rewrite Hu]. rewrite bind_get in H2.
    apply inv_lift in H2 as (cbs & _ & [= _ <-]). unfold q_cap. cbn. by rewrite Hu. }
  destruct tk as [c|]; [|by injection H as _ <-]. rewrite bind_get in H. apply inv_lift in H as (cbs & _ & [= _ <-]). done.
Qed.
Definition grows (b b' : book C) : Prop := q_cap (evq b') = q_cap (evq b) /\ q_count (evq b') = q_count (evq b) + 1 /\ q_count (evq b) <> q_cap (evq b).
Lemma on_evq_push ev mk tk (b b' : book C) u : on_evq (push_back ev mk tk) b = (Ok u, b') -> grows b b'.
Proof.
  unfold on_evq, zoom. destruct (push_back ev mk tk (evq b)) as [r q] eqn:E. intros [= -> <-]. apply push_count in E. unfold grows. cbn. tauto.
Qed.
Lemma on_tree_evq {A} sd (m : M (slab C) A) b r b' : on_tree sd m b = (r, b') -> evq b' = evq b.
Proof. unfold on_tree, zoom. destruct (m (tree b sd)) as [r' t]. intros [= _ <-]. by destruct sd. Qed.
Lemma step_next p min l b l' b' : match_step same_id p min l b = (Ok (ItNext l'), b') ->
  l_limit l' + 1 = l_limit l /\ q_cap (evq b') = q_cap (evq b) /\ q_count (evq b) < q_count (evq b') /\
  (q_count (evq b) <= q_cap (evq b) -> q_count (evq b') <= q_cap (evq b')).
Proof.
  unfold match_step. cbv zeta. destruct (l_limit l =? 0); [done|]. rewrite bind_get. intros H.
  apply inv_lift in H as ([h|] & _ & H); [|done]. apply inv_lift in H as (best & _ & H).
  destruct (_ || _); [done|]. destruct (_ =? 0); [done|]. apply inv_lift in H as (qr & _ & H).
  destruct (_ =? 0); [done|]. apply inv_lift in H as (cb & _ & H).
  assert (L : forall lim, sub_w (l_limit l) 1 = Ok lim -> lim + 1 = l_limit l).
  { intros lim. unfold sub_w. destruct (N.leb_spec 1 (l_limit l)); [|done]. intros [= <-]. lia. }
  destruct (match stb p with DecrementTake => _ | _ => _ end).
  - destruct (stb p); try done. apply inv_bind in H as (? & b1 & H1 & H). apply on_evq_push in H1 as (G1 & G2 & G3).
    apply inv_bind in H as (r & b2 & H2 & H). apply on_tree_evq in H2.
    apply inv_lift in H as (? & _ & H). apply inv_lift in H as (lim & Hl & [= <- <-]). cbn. rewrite H2.
    specialize (L _ Hl). lia.
  - apply inv_bind in H as (? & b1 & H1 & H). apply on_evq_push in H1 as (G1 & G2 & G3).
    apply inv_lift in H as (q' & _ & H). apply inv_bind in H as (? & b2 & H2 & H). apply on_tree_evq in H2.
    apply inv_lift in H as (base' & _ & H). apply inv_lift in H as (quote' & _ & H).
    apply inv_bind in H as (? & b3 & H3 & H). apply inv_lift in H as (lim & Hl & [= <- <-]). cbn. specialize (L _ Hl).
    destruct (q' <? min).
    + apply inv_bind in H3 as (r & b4 & H4 & H3). apply on_tree_evq in H4. apply inv_lift in H3 as (lc & _ & H3).
      apply on_evq_push in H3 as (K1 & K2 & K3). rewrite H4, H2 in *. lia.
    + injection H3 as _ <-. rewrite H2. lia.
Qed.
Definition room (b : book C) : N := q_cap (evq b) - q_count (evq b).
Lemma match_loop_w p min b : q_count (evq b) <= q_cap (evq b) ->
  snd (match_loop_k same_id p min b) <= 262 * (N.min (match_limit p) (room b) + 1).
Proof.
  intros Hb. unfold match_loop_k. rewrite loop_loop_nat.
  match goal with |- context [loop_nat _ ?F _] => set (f := F) end.
  assert (G : forall k l b n, q_count (evq b) <= q_cap (evq b) ->
    match loop_nat k f (l, b, n) with Done (_, _, c) => c | Continue (_, _, c) => c end <= n + 262 * (N.min (l_limit l) (room b) + 1)).
  { clear b Hb. induction k as [|k IH]; intros l b n Hb; [cbn; lia|]. cbn [loop_nat]. unfold f at 1.
    pose proof (match_step_w p min l b) as Hw. pose proof (match_step_er same_id p min l b) as He.
    destruct (match_step_k same_id p min l b) as [[r b'] c]. cbn in Hw, He. symmetry in He.
    destruct r as [[l'|l']| | |]; try lia.
    apply step_next in He as (H1 & H2 & H3 & H4). specialize (H4 Hb). specialize (IH l' b' (n + c) H4).
    unfold room in *. etransitivity; [exact IH|]. lia. }
  specialize (G (N.to_nat (N.succ (match_limit p))) (mk_locals (match_limit p) (max_base_qty p) (max_quote_qty p) true) b 0 Hb).
  destruct (loop_nat _ f _) as [[[l' b'] c]|[[r b'] c]]; exact G.
Qed.
Lemma new_order_w p min b : q_count (evq b) <= q_cap (evq b) ->
  snd (new_order_k same_id p min b) <= 262 * (N.min (match_limit p) (room b) + 1) + 518.
Proof.
  intros Hb. unfold new_order_k. unfold kbind at 1. pose proof (match_loop_w p min b Hb) as H.
  destruct (match_loop_k same_id p min b) as [[[l| | |] b'] n]; cbn [snd] in *; try lia.
  match goal with |- context [if ?X then ?A else ?B] => set (t := if X then A else B) end.
  assert (W : within 518 t).
  { unfold t. destruct (_ || _); [apply w_free|]. apply w_free_bind. intros id.
    apply (w_bind 518 0); [apply post_leaf_w| |lia]. intros [h|]; apply w_free. }
  specialize (W b'). destruct (t b') as [x c]. cbn [snd] in *. lia.
Qed.
End Bounds.

(** ** From below: every event written is counted *)
Definition pays {S A} (f : S -> N) (k : K S A) : Prop := forall s a s' n, k s = ((Ok a, s'), n) -> f s' <= f s + n.
Lemma p_ret {S A} f (a : A) : pays f (kret a : K S A). Proof. intros s x s' n [= _ <- <-]. lia. Qed.
Lemma p_lift {S A} f (r : res A) : pays f (free (lift r) : K S A).
Proof. intros s x s' n. unfold free, lift. intros [= _ <- <-]. lia. Qed.
Lemma p_get {S} f : pays f (free get : K S S). Proof. intros s x s' n [= _ <- <-]. lia. Qed.
Lemma p_fail {S A} f e : pays f (free (fail e) : K S A). Proof. intros s x s' n. done. Qed.
Lemma p_panic {S A} f e : pays f (free (panic_with e) : K S A). Proof. intros s x s' n. done. Qed.
Lemma p_bind {S A B} f (k : K S A) (g : A -> K S B) : pays f k -> (forall a, pays f (g a)) -> pays f (kbind k g).
Proof.
  intros H Hg s b s' n. unfold kbind. destruct (k s) as [[[a| | |] s1] c] eqn:E; try done. apply H in E.
  destruct (g a s1) as [x c'] eqn:E'. intros [= -> <-]. apply Hg in E'. lia.
Qed.
Lemma p_tick {S A} f (g : unit -> K S A) : pays f (g tt) -> pays f (kbind tick g).
Proof.
  intros H s a s' n. unfold kbind, tick. destruct (g tt s) as [x c] eqn:E. intros [= -> <-]. apply H in E. lia.
Qed.
Lemma kinv_bind {S A B} (k : K S A) (f : A -> K S B) s b s' n : kbind k f s = ((Ok b, s'), n) ->
  exists a s1 n1 n2, k s = ((Ok a, s1), n1) /\ f a s1 = ((Ok b, s'), n2) /\ n = n1 + n2.
Proof.
  unfold kbind. destruct (k s) as [[[a| | |] s1] c]; try done. destruct (f a s1) as [x c'] eqn:E. intros [= -> <-].
  by exists a, s1, c, c'.
Qed.
Lemma kinv_lift {S A B} (r : res A) (f : A -> K S B) s b s' n : kbind (free (lift r)) f s = ((Ok b, s'), n) ->
  exists a, r = Ok a /\ f a s = ((Ok b, s'), n).
Proof. intros H. apply kinv_bind in H as (a&s1&n1&n2&[= -> <- <-]&H&->). exists a. by rewrite N.add_0_l. Qed.
Section Below.
Context {C : Type} (same_id : C -> C -> bool).
Definition written (b : book C) : N := q_count (evq b).
Lemma p_tree {A} sd (k : K (slab C) A) : pays written (on_tree_k sd k).
Proof.
  intros b a b' n. unfold on_tree_k, kzoom. destruct (k (tree b sd)) as [[r t] c]. intros [= _ <- <-]. unfold written. destruct sd; cbn; lia.
Qed.
Lemma p_free_tree {A} sd (m : M (slab C) A) : pays written (free (on_tree sd m)).
Proof.
  intros b a b' n. unfold free. destruct (on_tree sd m b) as [r b1] eqn:E. intros [= _ <- <-]. unfold written.
  rewrite (on_tree_evq _ _ _ _ _ E). lia.
Qed.
Lemma p_push ev mk tk : pays written (@push_k C ev mk tk).
Proof.
  intros b a b' n. unfold push_k, kbind, tick, free. destruct (on_evq (push_back ev mk tk) b) as [r b1] eqn:E. intros [= -> <- <-].
  apply on_evq_push in E as (_ & E & _). unfold written. lia.
Qed.
Lemma p_id p sd : pays written (free (on_evq (gen_order_id p sd)) : K (book C) N).
Proof.
  intros b a b' n. unfold free, on_evq, zoom. destruct (gen_order_id p sd (evq b)) as [r q] eqn:E. intros [= -> <- <-].
  unfold written. cbn. assert (q_count q = q_count (evq b)) as ->; [|lia]. revert E. unfold gen_order_id.
  intros E. apply inv_bind in E as (seq & q1 & E & [= _ <-]). unfold gen_seq_num in E. rewrite bind_get in E.
  apply inv_lift in E as (x & _ & E). by injection E as _ <-.
Qed.
Local Hint Resolve p_ret p_lift p_get p_fail p_panic p_tree p_free_tree p_push p_id : core.
Ltac pays_step := first [solve [eauto]|apply p_tick|apply p_bind; [solve [eauto]|intros ?]].
Lemma match_step_p p min l : pays written (match_step_k same_id p min l).
Proof.
  unfold match_step_k, find_bbo_k, push_out_k. apply p_tick. cbv zeta. destruct (_ =? _); [eauto|]. pays_step. pays_step.
  match goal with |- pays _ (match ?x with _ => _ end) => destruct x as [h|] end; [|eauto]. pays_step.
  destruct (_ || _); [eauto|]. destruct (_ =? 0); [eauto|].
  pays_step. destruct (_ =? 0); [eauto|]. pays_step.
  destruct (match stb p with DecrementTake => _ | _ => _ end).
  - destruct (stb p); [eauto| |eauto]. all: try solve [eauto].
    repeat pays_step.
  - pays_step. pays_step. pays_step. pays_step. pays_step. apply p_bind; [|intros _; repeat pays_step].
    destruct (_ <? _); [|eauto]. repeat pays_step.
Qed.
Lemma match_loop_p p min : pays written (match_loop_k same_id p min).
Proof.
  intros b l b' n. unfold match_loop_k. rewrite loop_loop_nat.
  match goal with |- context [loop_nat _ ?F _] => set (f := F) end.
  assert (G : forall k l b n, match loop_nat k f (l, b, n) with
    | Done (Ok _, b', c) => written b' + n <= written b + c | _ => True end).
  { clear b b' l n. induction k as [|k IH]; intros l b n; [done|]. cbn [loop_nat]. unfold f at 1.
    destruct (match_step_k same_id p min l b) as [[r b'] c] eqn:E.
    destruct r as [[l'|l']| | |]; try done; apply match_step_p in E; [lia|].
    specialize (IH l' b' (n + c)). destruct (loop_nat k f _) as [?|[[[?| | |] b2] c2]]; try done. lia. }
  specialize (G (N.to_nat (N.succ (match_limit p))) (mk_locals (match_limit p) (max_base_qty p) (max_quote_qty p) true) b 0).
  destruct (loop_nat _ f _) as [[[l' b2] c]|[[r b2] c]]; intros [= -> -> ->]. cbn beta iota in G. lia.
Qed.
Lemma try_insert_p sd lf : pays written (@try_insert_k C sd lf).
Proof.
  intros b a b' n. unfold try_insert_k. destruct (on_tree_k sd (insert_leaf_k lf) b) as [[r b1] c] eqn:E.
  assert (H : written b1 <= written b + c).
  { revert E. unfold on_tree_k, kzoom. destruct (insert_leaf_k lf (tree b sd)) as [[x t] c']. intros [= _ <- <-]. unfold written. destruct sd; cbn; lia. }
  destruct r as [[h ?]|e| |]; try destruct e; intros [= _ <- <-]; done.
Qed.
Local Hint Resolve try_insert_p match_loop_p : core.
Lemma post_leaf_p p lf : pays written (@post_leaf_k C p lf).
Proof.
  unfold post_leaf_k, push_out_k. cbv zeta. pays_step. match goal with |- pays _ (match ?x with _ => _ end) => destruct x as [h|] end; [eauto|].
  repeat pays_step. destruct (match p_side p with Bid => _ | Ask => _ end); [|eauto]. repeat pays_step.
Qed.
Lemma no_post_p (p : params C) x y : pays written (free (no_post p x y)).
Proof.
  intros b a b' n. unfold free, no_post. destruct (bind _ _ b) as [r b1] eqn:E. intros [= -> <- <-].
  apply inv_lift in E as (? & _ & E). apply inv_lift in E as (? & _ & [= _ <-]). lia.
Qed.
Lemma new_order_p p min : pays written (new_order_k same_id p min).
Proof.
  unfold new_order_k. pays_step. cbv zeta. destruct (_ || _); [apply no_post_p|]. pays_step.
  apply p_bind; [apply post_leaf_p|]. intros [h|]; [|apply no_post_p].
  intros b r b' n. unfold free. destruct (bind _ _ b) as [x b1] eqn:E. intros [= -> <- <-].
  apply inv_bind in E as (? & b2 & E1 & E). apply on_tree_evq in E1.
  repeat (apply inv_lift in E as (? & _ & E)). injection E as _ <-. unfold written. rewrite E1. lia.
Qed.
(** A removal looks at a node. *)
Lemma remove_found id (b b' : book C) sd lc n :
  on_tree_k sd (remove_by_key_k id) b = ((Ok (Some lc), b'), n) -> 1 <= n.
Proof.
  unfold on_tree_k, kzoom. destruct (remove_by_key_k id (tree b sd)) as [[r t] c] eqn:E. intros [= -> _ <-]. revert E.
  intros E. apply kinv_bind in E as (s&s1&n1&n2&[= <- <- <-]&E&->). destruct (_ =? _); [done|]. cbv zeta in E.
  apply kinv_bind in E as (?&s2&n3&n4&[= _ <- <-]&E&->). lia.
Qed.
Lemma mass_cancel_p ids : forall tb tq (m m' : market C) r n, mass_cancel_loop_k ids tb tq m = ((Ok r, m'), n) ->
  2 * N.of_nat (length ids) <= n.
Proof.
  induction ids as [|id ids IH]; intros tb tq m m' r n; [intros _; cbn; lia|]. cbn [mass_cancel_loop_k].
  intros H. apply kinv_bind in H as (?&m1&n1&n2&[= _ <- <-]&H&->). apply kinv_bind in H as (x2&m2&n3&n4&E&H&->).
  unfold on_book_k, kzoom in E. destruct (on_tree_k _ (remove_by_key_k id) (m_book m)) as [[y b'] c] eqn:E'. injection E as -> <- ->.
  apply kinv_lift in H as (lc&Hr&H). destruct x2 as [lc'|]; [|done]. apply remove_found in E'. cbv zeta in H.
  apply kinv_lift in H as (tb'&_&H). apply kinv_lift in H as (tq'&_&H). apply IH in H. cbn [length]. lia.
Qed.
End Below.
