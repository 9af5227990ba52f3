(** * ReleaseProofs.v: where the debug build does not panic on an overflow, the release
    build does the same (C84) *)
From Verif Require Import Machine Bytes Critbit EventQueue OrderBook Market Layout Borsh Ledger Release MachineProofs.
From Coq Require Import ZifyBool ZifyNat ZifyN.

(** [b] is [a], unless [a] is an overflow panic. *)
Definition ref {A} (a b : res A) : Prop := a = Panic POverflow \/ b = a.
Definition refm {S A} (m m' : M S A) : Prop := forall s, fst (m s) = Panic POverflow \/ m' s = m s.

Lemma ref_refl {A} (a : res A) : ref a a. Proof. by right. Qed.
Lemma refm_refl {S A} (m : M S A) : refm m m. Proof. by right. Qed.
Lemma ref_rbind {A B} (a a' : res A) (f f' : A -> res B) : ref a a' -> (forall x, ref (f x) (f' x)) -> ref (rbind a f) (rbind a' f').
Proof. intros [-> | ->] Hf; [by left|]. destruct a; [apply Hf|by right..]. Qed.
Lemma refm_bind {S A B} (m m' : M S A) (f f' : A -> M S B) : refm m m' -> (forall x, refm (f x) (f' x)) -> refm (bind m f) (bind m' f').
Proof.
  intros Hm Hf s. unfold bind. destruct (Hm s) as [H | ->]; destruct (m s) as [[a|e|x|] s']; cbn in *; try done; try (by right).
  - injection H as ->. by left.
  - apply Hf.
Qed.
Lemma refm_lift {S A} (r r' : res A) : ref r r' -> refm (lift r : M S A) (lift r').
Proof. intros [-> | ->] s; [by left|by right]. Qed.
Lemma refm_zoom {S T A} (pr : S -> T) inj (m m' : M T A) : refm m m' -> refm (zoom pr inj m) (zoom pr inj m').
Proof. intros H s. unfold zoom. destruct (H (pr s)) as [E | ->]; [|by right]. destruct (m (pr s)) as [r t]. cbn in *. by left. Qed.
Lemma ref_add w a b : ref (add_w w a b) (add_r w a b).
Proof. unfold ref, add_w, add_r. destruct (_ <? _); [by right|by left]. Qed.
Lemma ref_sub w a b : ref (sub_w a b) (sub_r w a b).
Proof. unfold ref, sub_w, sub_r. destruct (_ <=? _); [by right|by left]. Qed.
Lemma crit_lt n k : n < 128 -> crit_r n k = crit n k.
Proof. intros H. unfold crit_r, crit. rewrite N.mod_small by done. by destruct (N.ltb_spec n 128); [|lia]. Qed.
Lemma refm_shift {S A} n (f : unit -> M S A) m' : (n < 128 -> refm (f tt) m') -> refm (bind (lift (shift_ok n)) f) m'.
Proof.
  intros H s. unfold bind, lift, shift_ok. destruct (N.ltb_spec n 128) as [Hn|]; [by apply H|by left].
Qed.
Lemma ref_walk {A} n k (f : N * bool -> res A) g : ref (f (walk_down_r n k)) g -> ref (rbind (walk_down n k) f) g.
Proof.
  intros H. unfold walk_down, shift_ok. destruct (N.ltb_spec (in_plen n) 128) as [Hn|]; [|by left].
  unfold walk_down_r in H. by rewrite crit_lt in H.
Qed.
Lemma ref_ok_or {A} (o o' : option A) e : o = o' -> ref (ok_or o e) (ok_or o' e). Proof. intros ->. by right. Qed.

Ltac rr1 :=
  match goal with
  | |- refm ?x ?x => apply refm_refl
  | |- ref ?x ?x => apply ref_refl
  | |- ref (add_w _ _ _) _ => apply ref_add
  | |- ref (sub_w _ _) _ => apply ref_sub
  | |- ref (rbind (walk_down _ _) _) _ => apply ref_walk
  | |- refm (bind (lift (shift_ok _)) _) _ => apply refm_shift; intros ?; rewrite ?crit_lt by done
  | |- ref (rbind _ _) (rbind _ _) => apply ref_rbind; [|intros ?]
  | |- refm (bind _ _) (bind _ _) => apply refm_bind; [|intros ?]
  | |- refm (lift _) (lift _) => apply refm_lift
  | |- refm (zoom _ _ _) (zoom _ _ _) => apply refm_zoom
  | |- refm (on_tree _ _) (on_tree _ _) => apply refm_zoom
  | |- refm (on_evq _) (on_evq _) => apply refm_zoom
  | |- refm (on_book _) (on_book _) => apply refm_zoom
  | |- refm (match ?x with _ => _ end) (match ?x with _ => _ end) => destruct x
  | |- ref (match ?x with _ => _ end) (match ?x with _ => _ end) => destruct x
  end.
Create HintDb rels.
Ltac rr := repeat (cbv zeta; first [rr1 | solve [eauto 1 with rels]]).

Section Slab.
Context {C : Type}.
Lemma allocate_leaf_ref : refm (@allocate_leaf C) allocate_leaf_r. Proof. unfold allocate_leaf, allocate_leaf_r. rr. Qed.
Lemma free_leaf_ref h : refm (@free_leaf C h) (free_leaf_r h). Proof. unfold free_leaf, free_leaf_r. rr. Qed.
Lemma allocate_inner_ref : refm (@allocate_inner_node C) allocate_inner_node_r.
Proof. unfold allocate_inner_node, allocate_inner_node_r. rr. Qed.
Lemma free_inner_ref h : refm (@free_inner_node C h) (free_inner_node_r h). Proof. unfold free_inner_node, free_inner_node_r. rr. Qed.
Lemma insert_walk_ref (s : slab C) key : forall fuel h p, ref (insert_walk fuel s h p key) (insert_walk_r fuel s h p key).
Proof. induction fuel as [|fuel IH]; intros h p; [by right|]. cbn [insert_walk insert_walk_r]. rr. Qed.
Lemma remove_walk_ref (s : slab C) key : forall fuel g p c b, ref (remove_walk fuel s g p c b key) (remove_walk_r fuel s g p c b key).
Proof. induction fuel as [|fuel IH]; intros g p c b; [by right|]. cbn [remove_walk remove_walk_r]. rr. Qed.
Lemma find_walk_ref (s : slab C) key : forall fuel h, ref (find_walk fuel s h key) (find_walk_r fuel s h key).
Proof. induction fuel as [|fuel IH]; intros h; [by right|]. cbn [find_walk find_walk_r]. rr. Qed.
Hint Resolve allocate_leaf_ref free_leaf_ref allocate_inner_ref free_inner_ref insert_walk_ref remove_walk_ref find_walk_ref : rels.
Lemma insert_leaf_ref l : refm (@insert_leaf C l) (insert_leaf_r l).
Proof. unfold insert_leaf, insert_leaf_r. rr. Qed.
Lemma remove_by_key_ref k : refm (@remove_by_key C k) (remove_by_key_r k).
Proof. unfold remove_by_key, remove_by_key_r. rr. Qed.
Lemma find_by_key_ref (s : slab C) k : ref (find_by_key s k) (find_by_key_r s k).
Proof. unfold find_by_key, find_by_key_r. rr. Qed.
End Slab.
Global Hint Resolve insert_leaf_ref remove_by_key_ref find_by_key_ref : rels.

Section Queue.
Context {C : Type}.
Lemma push_back_ref e m t : refm (@push_back C e m t) (push_back_r e m t).
Proof. unfold push_back, push_back_r. rr. Qed.
Lemma gen_seq_ref : refm (@gen_seq_num C) gen_seq_num_r. Proof. unfold gen_seq_num, gen_seq_num_r. rr. Qed.
Hint Resolve gen_seq_ref : rels.
Lemma gen_id_ref p sd : refm (@gen_order_id C p sd) (gen_order_id_r p sd).
Proof. unfold gen_order_id, gen_order_id_r. rr. Qed.
Lemma pop_n_ref n : refm (@pop_n C n) (pop_n_r n). Proof. unfold pop_n, pop_n_r. rr. Qed.
Lemma iter_from_ref (q : queue C) : forall n i, ref (iter_from q i n) (iter_from_r q i n).
Proof. induction n as [|n IH]; intros i; [by right|]. cbn [iter_from iter_from_r]. rr. Qed.
Lemma queue_iter_ref (q : queue C) : ref (queue_iter q) (queue_iter_r q). Proof. apply iter_from_ref. Qed.
End Queue.
Global Hint Resolve push_back_ref gen_id_ref pop_n_ref : rels.

Section Book.
Context {C : Type} (same_id : C -> C -> bool).
Lemma push_out_ref sd id b (cb : C) : refm (push_out sd id b cb) (push_out_r sd id b cb).
Proof. unfold push_out, push_out_r. rr. Qed.
Hint Resolve push_out_ref : rels.
Lemma match_step_ref (p : params C) min l : refm (match_step same_id p min l) (match_step_r same_id p min l).
Proof. unfold match_step, match_step_r. rr. Qed.
(** The result of a loop is the same, unless the first loop stops with an overflow. *)
Definition over {A B S} (x : step A (res B * S)) : Prop := exists s, x = Done (Panic POverflow, s).
Lemma loop_pos_ref {A B S} (f g : A -> step A (res B * S)) : (forall a, over (f a) \/ g a = f a) ->
  forall n a, over (loop_pos n f a) \/ loop_pos n g a = loop_pos n f a.
Proof.
  intros H. induction n as [n IH|n IH|]; intros a; cbn [loop_pos].
  - destruct (H a) as [(s&E)|E]; rewrite E; [left; by exists s|]. destruct (f a) as [a1|r]; [|by right].
    destruct (IH a1) as [(s&E1)|E1]; rewrite E1; [left; by exists s|]. destruct (loop_pos n f a1); [apply IH|by right].
  - destruct (IH a) as [(s&E1)|E1]; rewrite E1; [left; by exists s|]. destruct (loop_pos n f a); [apply IH|by right].
  - apply H.
Qed.
Lemma match_loop_ref (p : params C) min : refm (match_loop same_id p min) (match_loop_r same_id p min).
Proof.
  intros b. unfold match_loop, match_loop_r, loop. destruct (N.succ (match_limit p)) as [|n]; [by right|].
  set (f := fun lb : locals * book C => match match_step same_id p min (fst lb) (snd lb) with
    | (Ok (ItNext l), b') => Continue (l, b') | (Ok (ItBreak l), b') => Done (Ok l, b')
    | (Err e, b') => Done (Err e, b') | (Panic x, b') => Done (Panic x, b') | (Diverge, b') => Done (Diverge, b') end).
  set (g := fun lb : locals * book C => match match_step_r same_id p min (fst lb) (snd lb) with
    | (Ok (ItNext l), b') => Continue (l, b') | (Ok (ItBreak l), b') => Done (Ok l, b')
    | (Err e, b') => Done (Err e, b') | (Panic x, b') => Done (Panic x, b') | (Diverge, b') => Done (Diverge, b') end).
  assert (H : forall a, over (f a) \/ g a = f a).
  { intros [l b0]. unfold f, g. cbn [fst snd]. destruct (match_step_ref p min l b0) as [E | ->]; [|by right].
    destruct (match_step same_id p min l b0) as [r s]. cbn in E. subst r. left. by exists s. }
  destruct (loop_pos_ref f g H n (mk_locals (match_limit p) (max_base_qty p) (max_quote_qty p) true, b)) as [(s&E)|E];
    [left|right]; by rewrite E.
Qed.
Lemma try_insert_ref sd l : refm (@try_insert C sd l) (try_insert_r sd l).
Proof.
  intros b. unfold try_insert, try_insert_r.
  destruct (refm_zoom (fun b => tree b sd) (set_tree sd) _ _ (@insert_leaf_ref C l) b) as [E|E].
  - unfold on_tree. destruct (zoom _ _ (insert_leaf l) b) as [r s]. cbn in E. subst r. by left.
  - unfold on_tree in *. rewrite E. by right.
Qed.
Lemma no_post_ref (p : params C) b q : refm (no_post p b q) (no_post_r p b q).
Proof. unfold no_post, no_post_r. rr. Qed.
Hint Resolve match_loop_ref try_insert_ref no_post_ref : rels.
Lemma post_leaf_ref (p : params C) l : refm (post_leaf p l) (post_leaf_r p l).
Proof. unfold post_leaf, post_leaf_r. rr. Qed.
Hint Resolve post_leaf_ref : rels.
Lemma new_order_ref (p : params C) min : refm (new_order same_id p min) (new_order_r same_id p min).
Proof. unfold new_order, new_order_r. rr. Qed.
End Book.
Global Hint Resolve new_order_ref : rels.

Section Market.
Context {C : Type} (same_id : C -> C -> bool).
Lemma process_new_order_ref (p : params C) : refm (process_new_order same_id p) (process_new_order_r same_id p).
Proof. unfold process_new_order, process_new_order_r. rr. Qed.
Lemma process_cancel_ref id : refm (@process_cancel_order C id) (process_cancel_order_r id).
Proof. unfold process_cancel_order, process_cancel_order_r. rr. Qed.
Lemma mass_loop_ref : forall ids tb tq, refm (@mass_cancel_loop C ids tb tq) (mass_cancel_loop_r ids tb tq).
Proof. induction ids as [|id ids IH]; intros tb tq; [by right|]. cbn [mass_cancel_loop mass_cancel_loop_r]. rr. Qed.
Hint Resolve mass_loop_ref process_new_order_ref process_cancel_ref : rels.
Lemma process_mass_ref ids : refm (@process_mass_cancel C ids) (process_mass_cancel_r ids).
Proof. unfold process_mass_cancel, process_mass_cancel_r. rr. Qed.
Lemma process_consume_ref n : refm (@process_consume_events C n) (process_consume_events_r n).
Proof. unfold process_consume_events, process_consume_events_r. rr. Qed.
Hint Resolve process_mass_ref process_consume_ref : rels.
Lemma process_ref (o : op C) : refm (process same_id o) (process_r same_id o).
Proof. unfold process, process_r. rr. Qed.
Lemma exec_ref (o : op C) m : fst (exec same_id o m) = Panic POverflow \/ exec_r same_id o m = exec same_id o m.
Proof.
  unfold exec, exec_r. destruct (process_ref o m) as [E|E]; [|rewrite E; by right].
  destruct (process same_id o m) as [r s]. cbn in E. subst r. by left.
Qed.
End Market.
Global Hint Resolve process_new_order_ref process_cancel_ref process_mass_ref process_consume_ref : rels.

(** ** accounts *)
Section Ledger.
Context (cs : nat).
Lemma rb_ok {A B} (a : A) (f : A -> res B) : rbind (Ok a) f = f a.
Proof. done. Qed.
Lemma sub_r_le w a b : b <= a -> sub_r w a b = Ok (a - b).
Proof. intros H. unfold sub_r. by destruct (N.leb_spec b a); [|lia]. Qed.
Lemma div_N (a b : nat) : N.of_nat a / N.of_nat b = N.of_nat (a / b).
Proof. by rewrite Nat2N.inj_div. Qed.
Lemma slab_from_buffer_ref buf t : ref (slab_from_buffer cs buf t) (slab_from_buffer_r cs buf t).
Proof.
  unfold slab_from_buffer, slab_from_buffer_r. cbv zeta. destruct (Nat.ltb_spec (length buf) (slab_header_len + 8 + (leaf_len + cs))) as [|H]; [by left|].
  right. rewrite sub_r_le by (unfold slab_header_len in *; lia). rewrite ?rb_ok.
  rewrite sub_r_le by (unfold slab_header_len in *; lia). rewrite ?rb_ok.
  rewrite sub_r_le by (unfold slab_header_len, leaf_len in *; lia). rewrite ?rb_ok.
  replace (N.of_nat (length buf) - N.of_nat slab_header_len - 8 - N.of_nat (leaf_len + cs)) with (N.of_nat (length buf - slab_header_len - 8 - (leaf_len + cs))) by lia.
  rewrite div_N. set (cap := ((length buf - slab_header_len - 8 - (leaf_len + cs)) / (leaf_len + cs + inner_len))%nat).
  assert (Hc : (cap * (leaf_len + cs + inner_len) <= length buf - slab_header_len - 8 - (leaf_len + cs))%nat)
    by (rewrite Nat.mul_comm; apply Nat.mul_div_le; unfold leaf_len, inner_len; lia).
  replace (idx buf 0) with (Ok (hd 0 buf) : res N) by (destruct buf; [unfold slab_header_len in H; cbn in H; lia|done]). rewrite ?rb_ok.
  destruct (negb _); [done|].
  assert (Hs : (cap * cs >= 0)%nat) by lia.
  replace (N.to_nat ((N.of_nat cap + 1) * N.of_nat leaf_len)) with ((cap + 1) * leaf_len)%nat by (unfold leaf_len; lia).
  replace (N.to_nat (N.of_nat cap * N.of_nat inner_len)) with (cap * inner_len)%nat by (unfold inner_len; lia).
  rewrite !Nat.mul_add_distr_l in Hc. unfold slab_header_len, leaf_len, inner_len in *.
  destruct (N.ltb_spec (N.of_nat (length buf)) (8 + N.of_nat 32)) as [?|_]; [lia|].
  destruct (N.ltb_spec (N.of_nat (length buf) - 8 - N.of_nat 32) ((N.of_nat cap + 1) * N.of_nat 24)) as [?|_]; [lia|].
  destruct (N.ltb_spec (N.of_nat (length buf) - 8 - N.of_nat 32 - (N.of_nat cap + 1) * N.of_nat 24) (N.of_nat cap * N.of_nat 32)) as [?|_]; [lia|].
  rewrite !Nat.div_mul by done. by rewrite (drop_drop buf 32 8).
Qed.
Lemma queue_from_buffer_ref buf t : ref (queue_from_buffer cs buf t) (queue_from_buffer_r cs buf t).
Proof.
  unfold queue_from_buffer, queue_from_buffer_r. cbv zeta. destruct (Nat.ltb_spec (length buf) (8 + queue_header_len)) as [|H]; [by left|].
  right. rewrite sub_r_le by lia. rewrite ?rb_ok. rewrite sub_r_le by lia. rewrite ?rb_ok.
  replace (N.of_nat (length buf) - 8 - N.of_nat queue_header_len) with (N.of_nat (length buf - 8 - queue_header_len)) by lia.
  rewrite div_N. set (cap := ((length buf - 8 - queue_header_len) / event_size cs)%nat).
  assert (Hc : (cap * event_size cs <= length buf - 8 - queue_header_len)%nat)
    by (rewrite Nat.mul_comm; apply Nat.mul_div_le; unfold event_size, fill_len; lia).
  destruct (read_tag buf) as [t'| | |]; [|done..]. rewrite ?rb_ok. destruct (negb _); [done|].
  destruct (N.ltb_spec (N.of_nat (length buf)) (8 + N.of_nat queue_header_len)) as [?|_]; [lia|].
  replace (N.to_nat (N.of_nat cap * N.of_nat fill_len)) with (cap * fill_len)%nat by (unfold fill_len; lia).
  assert (L : length (drop queue_header_len (drop 8 (write_tag tag_event_queue buf))) = (length buf - 8 - queue_header_len)%nat).
  { unfold write_tag. rewrite !drop_length, app_length, drop_length. change (length (le_enc 8 tag_event_queue)) with 8%nat. unfold queue_header_len in *. lia. }
  rewrite L. unfold event_size in Hc. rewrite !Nat.mul_add_distr_l in Hc.
  destruct (N.ltb_spec (N.of_nat (length buf - 8 - queue_header_len)) (N.of_nat cap * N.of_nat fill_len)) as [?|_]; [unfold fill_len in *; lia|].
  by rewrite Nat.div_mul.
Qed.
Context (same_id : bytes -> bytes -> bool) (rent_exempt : N -> nat -> bool) (pid : N).
Lemma ref_unwrap_err {A} (a b : res A) : ref a b -> ref (unwrap_err a) (unwrap_err b).
Proof. intros [-> | ->]; [by left|by right]. Qed.
Hint Resolve slab_from_buffer_ref queue_from_buffer_ref ref_unwrap_err : rels.
Lemma create_market_ref a p : refm (create_market cs rent_exempt pid a p) (create_market_r cs rent_exempt pid a p).
Proof. unfold create_market, create_market_r. rr. Qed.
Lemma open_book_ref held a : refm (open_book cs held a) (open_book_r cs held a).
Proof. unfold open_book, open_book_r. rr. Qed.
Hint Resolve open_book_ref : rels.
(** A computation on an opened account whose result is handed on after writing back. *)
Lemma refm_after {T A B} (m m' : M T A) b (K : res A -> T -> M ledger B) : refm m m' ->
  (forall t s, fst (K (Panic POverflow) t s) = Panic POverflow) ->
  refm (let '(o, t) := m b in K o t) (let '(o, t) := m' b in K o t).
Proof.
  intros Hm HK s. destruct (Hm b) as [E|E]; [|rewrite E; by right].
  destruct (m b) as [o t]. cbn in E. subst o. left. apply HK.
Qed.
Ltac aft := match goal with |- refm (match ?m ?b with _ => _ end) (match ?m' ?b with _ => _ end) =>
  apply (refm_after m m' b); [solve [eauto 2 with rels]|done] end.
Ltac rl := repeat (cbv zeta; first [rr1 | aft | solve [eauto 2 with rels]]).
Lemma new_order_l_ref a p : refm (new_order_l cs same_id pid a p) (new_order_l_r cs same_id pid a p).
Proof. unfold new_order_l, new_order_l_r. rl. Qed.
Lemma with_book_ref a f f' : refm f f' -> refm (with_book cs pid a f) (with_book_r cs pid a f').
Proof. intros H. unfold with_book, with_book_r. rl. Qed.
Hint Resolve with_book_ref : rels.
Lemma cancel_order_l_ref a id : refm (cancel_order_l cs pid a id) (cancel_order_l_r cs pid a id).
Proof. unfold cancel_order_l, cancel_order_l_r. rl. Qed.
Lemma mass_cancel_l_ref a ids : refm (mass_cancel_l cs pid a ids) (mass_cancel_l_r cs pid a ids).
Proof. unfold mass_cancel_l, mass_cancel_l_r. rl. Qed.
Lemma consume_events_l_ref km kq n : refm (consume_events_l cs pid km kq n) (consume_events_l_r cs pid km kq n).
Proof. unfold consume_events_l, consume_events_l_r. rl. Qed.
Lemma close_market_ref a t : refm (close_market cs pid a t) (close_market_r cs pid a t).
Proof. unfold close_market, close_market_r. rl. Qed.
Hint Resolve create_market_ref new_order_l_ref cancel_order_l_ref mass_cancel_l_ref consume_events_l_ref close_market_ref : rels.
Lemma process_instruction_ref ks data :
  refm (process_instruction cs same_id rent_exempt pid ks data) (process_instruction_r cs same_id rent_exempt pid ks data).
Proof. unfold process_instruction, process_instruction_r. rl. Qed.
Hint Resolve process_instruction_ref : rels.
Lemma entrypoint_ref ks data :
  refm (entrypoint cs same_id rent_exempt pid ks data) (entrypoint_r cs same_id rent_exempt pid ks data).
Proof. unfold entrypoint, entrypoint_r. rl. Qed.
Lemma execute_ref ms data l : fst (execute cs same_id rent_exempt pid ms data l) = Panic POverflow \/
  execute_r cs same_id rent_exempt pid ms data l = execute cs same_id rent_exempt pid ms data l.
Proof.
  unfold execute, execute_r. destruct (entrypoint_ref (map mt_key ms) data l) as [E|E]; [|rewrite E; by right].
  destruct (entrypoint _ _ _ _ _ _ _) as [r s]. cbn in E. subst r. by left.
Qed.
End Ledger.
