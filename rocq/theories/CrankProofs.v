(** * CrankProofs.v: what an instruction does depends on the event queue only through
    the room left in it

    Two markets with the same slabs and the same sequence number, whose queues hold
    different events, answer alike and add the same events, unless one of them runs out
    of room.  Used in PropsMore.v (C56). *)
From stdpp Require Import gmap.
From Verif Require Import Machine Critbit EventQueue OrderBook Market Spec MachineProofs.
From Verif Require Import TreeProofs SlabProofs SlabProofs2 QueueProofs Engine BookProofs EngineProofs.
From Verif Require Import MarketProofs MarketFacts InstrProps.

Section Crank.
Context {C : Type} (same_id : C -> C -> bool).
Implicit Types b : book C.
Implicit Types m : market C.

(** The waiting events are [d] and [d'] followed by the same events [F]. *)
Record qsame (d d' : list (event_ref C)) (F : list (event_ref C)) b b' : Prop := mk_qsame {
  qs_bids : bids b = bids b';
  qs_asks : asks b = asks b';
  qs_seq : q_seq (evq b) = q_seq (evq b');
  qs_cap : q_cap (evq b) = q_cap (evq b');
  qs_l : qrep (evq b) (d ++ F);
  qs_r : qrep (evq b') (d' ++ F);
}.
Definition out_ok {A} d d' (x x' : res A * book C) : Prop :=
  (fst x = Err EventQueueFull) \/
  (fst x' = Err EventQueueFull /\ (length d < length d')%nat) \/
  (fst x = fst x' /\ exists F, qsame d d' F (snd x) (snd x')).
Definition par {A} d d' (f f' : M (book C) A) : Prop :=
  forall F b b', qsame d d' F b b' -> out_ok d d' (f b) (f' b').

Lemma par_bind {A B} d d' (f f' : M (book C) A) (k k' : A -> M (book C) B) :
  par d d' f f' -> (forall a, par d d' (k a) (k' a)) -> par d d' (bind f k) (bind f' k').
Proof.
  intros Hf Hk F b b' H. specialize (Hf F b b' H). unfold bind, out_ok in *.
  destruct (f b) as [[a|e|x|] b1], (f' b') as [[a'|e'|x'|] b1']; cbn [fst snd] in *;
    destruct Hf as [E|[[E L]|[E (F' & R)]]]; try discriminate E; simplify_eq;
    try (by left); try (by (right; left)); try (by (right; right; eauto)).
  exact (Hk _ F' _ _ R).
Qed.
Lemma par_const {A} d d' (r : res A) : par d d' (fun b => (r, b)) (fun b => (r, b)).
Proof. intros F b b' H. right; right. cbn. eauto. Qed.
Lemma par_get {B} d d' (k k' : book C -> M (book C) B) :
  (forall F b b', qsame d d' F b b' -> par d d' (k b) (k' b')) ->
  par d d' (bind get k) (bind get k').
Proof. intros Hk F b b' H. apply (Hk F b b' H F b b' H). Qed.
Lemma par_tree {A} d d' sd (f : M (slab C) A) : par d d' (on_tree sd f) (on_tree sd f).
Proof.
  intros F b b' [H1 H2 H3 H4 H5 H6]. right; right.
  assert (Ht : tree b sd = tree b' sd) by (destruct sd; done).
  unfold on_tree, zoom. rewrite Ht. destruct (f (tree b' sd)) as [r t]. cbn [fst snd].
  split; [done|]. exists F. destruct sd; split; done.
Qed.
Lemma par_push d d' ev mk tk out :
  (match (fe_tag ev =? tag_fill, fe_tag ev =? tag_out, tk) with
   | (true, _, Some t) => out = EvFill ev mk t
   | (false, true, _) => out = EvOut (out_of_bytes (bytes_of_fill ev)) mk
   | _ => False end) ->
  par d d' (on_evq (push_back ev (Some mk) tk)) (on_evq (push_back ev (Some mk) tk)).
Proof.
  intros Hout F b b' [H1 H2 H3 H4 H5 H6].
  pose proof (qrep_len _ _ H5) as L5. pose proof (qrep_len _ _ H6) as L6.
  rewrite app_length in L5, L6.
  destruct (N.eq_dec (N.of_nat (length (d ++ F))) (q_cap (evq b))) as [E|E].
  { left. by rewrite (on_evq_ok _ _ _ _ (push_back_full _ _ ev (Some mk) tk H5 E)). }
  destruct (N.eq_dec (N.of_nat (length (d' ++ F))) (q_cap (evq b'))) as [E'|E'].
  { right; left. rewrite (on_evq_ok _ _ _ _ (push_back_full _ _ ev (Some mk) tk H6 E')).
    split; [done|]. rewrite app_length in *. lia. }
  destruct (push_back_ok _ _ ev mk tk H5 ltac:(rewrite app_length in *; lia) out Hout)
    as (q & Hq & Rq & Sq & Cq).
  destruct (push_back_ok _ _ ev mk tk H6 ltac:(rewrite app_length in *; lia) out Hout)
    as (q' & Hq' & Rq' & Sq' & Cq').
  right; right. rewrite (on_evq_ok _ _ _ _ Hq), (on_evq_ok _ _ _ _ Hq'). cbn [fst snd].
  split; [done|]. exists (F ++ [out]). rewrite <- app_assoc in Rq, Rq'. split; cbn; congruence.
Qed.
Lemma par_push_out d d' sd id q cb : par d d' (push_out sd id q cb) (push_out sd id q cb).
Proof. apply (par_push _ _ _ _ _ (EvOut (out_of_bytes (bytes_of_fill (out_to_generic (mk_out_event tag_out (side_u8 sd) 0 id q)))) cb)). by rewrite out_to_generic_tag. Qed.
Lemma par_gen d d' price sd :
  par d d' (on_evq (gen_order_id price sd)) (on_evq (gen_order_id price sd)).
Proof.
  intros F b b' [H1 H2 H3 H4 H5 H6]. unfold on_evq, zoom, gen_order_id, gen_seq_num, add_w, bind, get, lift, put, ret.
  rewrite <- H3. destruct (q_seq (evq b) + 1 <? p64); right; right; cbn [fst snd].
  - split; [done|]. exists F. split; cbn; try done; by apply qrep_seq.
  - split; [done|]. exists F. split; done.
Qed.

Lemma par_step d d' p min l : par d d' (match_step same_id p min l) (match_step same_id p min l).
Proof.
  unfold match_step. destruct (l_limit l =? 0); [apply par_const|].
  apply par_get. intros F b b' [H1 H2 H3 H4 H5 H6].
  assert (Hb : forall sd, find_bbo b sd = find_bbo b' sd)
    by (intros []; unfold find_bbo; congruence).
  assert (Ht : forall sd, tree b sd = tree b' sd) by (by intros []).
  rewrite Hb. apply par_bind; [apply par_const|]. intros [h|]; [|apply par_const].
  rewrite Ht. apply par_bind; [apply par_const|]. intros best.
  destruct (post_only p || negb _); [apply par_const|].
  destruct (_ =? 0); [apply par_const|]. apply par_bind; [apply par_const|]. intros qr.
  destruct (_ =? 0); [apply par_const|]. apply par_bind; [apply par_const|]. intros cb.
  assert (Hfill : forall bt q, par d d'
    (do! on_evq (push_back (fill_to_generic (mk_fill_event tag_fill (side_u8 (p_side p)) 0 q (lf_key best) bt))
                      (Some cb) (Some (p_callback p))) in
     let! q' := lift (sub_w (lf_qty best) bt) in
     do! on_tree (opposite (p_side p)) (write_leaf h (mk_leaf (lf_key best) q')) in
     let! base' := lift (sub_w (l_base l) bt) in
     let! quote' := lift (sub_w (l_quote l) q) in
     do! (if q' <? min then
            let! r := on_tree (opposite (p_side p)) (remove_by_key (lf_key best)) in
            let! lc := lift (unwrap r) in
            push_out (opposite (p_side p)) (lf_key best) q' (snd lc)
          else ret tt) in
     let! lim := lift (sub_w (l_limit l) 1) in
     ret (ItNext (mk_locals lim base' quote'
       match p_side p with Bid => price_from_key (lf_key best) <=? limit_price p
                         | Ask => limit_price p <=? price_from_key (lf_key best) end)))
    (do! on_evq (push_back (fill_to_generic (mk_fill_event tag_fill (side_u8 (p_side p)) 0 q (lf_key best) bt))
                      (Some cb) (Some (p_callback p))) in
     let! q' := lift (sub_w (lf_qty best) bt) in
     do! on_tree (opposite (p_side p)) (write_leaf h (mk_leaf (lf_key best) q')) in
     let! base' := lift (sub_w (l_base l) bt) in
     let! quote' := lift (sub_w (l_quote l) q) in
     do! (if q' <? min then
            let! r := on_tree (opposite (p_side p)) (remove_by_key (lf_key best)) in
            let! lc := lift (unwrap r) in
            push_out (opposite (p_side p)) (lf_key best) q' (snd lc)
          else ret tt) in
     let! lim := lift (sub_w (l_limit l) 1) in
     ret (ItNext (mk_locals lim base' quote'
       match p_side p with Bid => price_from_key (lf_key best) <=? limit_price p
                         | Ask => limit_price p <=? price_from_key (lf_key best) end)))).
  { intros bt q. apply par_bind; [eapply par_push; reflexivity|]. intros _.
    apply par_bind; [apply par_const|]. intros q'. apply par_bind; [apply par_tree|]. intros _.
    apply par_bind; [apply par_const|]. intros base'. apply par_bind; [apply par_const|]. intros quote'.
    apply par_bind.
    - destruct (q' <? min); [|apply par_const]. apply par_bind; [apply par_tree|]. intros r.
      apply par_bind; [apply par_const|]. intros lc. apply par_push_out.
    - intros _. apply par_bind; [apply par_const|]. intros lim. apply par_const. }
  destruct (stb p); [apply Hfill| |].
  - destruct (same_id (p_callback p) cb); [|apply Hfill].
    apply par_bind; [apply par_push_out|]. intros _. apply par_bind; [apply par_tree|]. intros r.
    apply par_bind; [apply par_const|]. intros lc. apply par_bind; [apply par_const|]. intros lim.
    apply par_const.
  - destruct (same_id (p_callback p) cb); [apply par_const|apply Hfill].
Qed.

Lemma par_match d d' p min : par d d' (match_loop same_id p min) (match_loop same_id p min).
Proof.
  intros F b b' H. unfold match_loop. rewrite !loop_loop_nat.
  generalize (mk_locals (match_limit p) (max_base_qty p) (max_quote_qty p) true).
  intros l. revert l F b b' H.
  induction (N.to_nat (N.succ (match_limit p))) as [|n IH]; intros l F b b' H; cbn [loop_nat].
  { right; right. cbn. eauto. }
  pose proof (par_step d d' p min l F b b' H) as Hs. cbn [fst snd].
  destruct (match_step same_id p min l b) as [r b1], (match_step same_id p min l b') as [r' b1'].
  destruct Hs as [E|[[E L]|[E (F' & R)]]]; cbn [fst snd] in E; subst.
  - by left.
  - right; left. done.
  - destruct r' as [[l'|l']|e|x|]; try (right; right; cbn; eauto; fail). apply (IH l' F' b1 b1' R).
Qed.

Lemma par_try d d' sd lf : par d d' (try_insert sd lf) (try_insert sd lf).
Proof.
  intros F b b' H. pose proof (par_tree d d' sd (insert_leaf lf) F b b' H) as Ht.
  unfold try_insert. destruct H as [H1 H2 H3 H4 H5 H6].
  assert (Hq : forall {A} (f : M (slab C) A), fst (on_tree sd f b) = fst (on_tree sd f b') /\
    exists F, qsame d d' F (snd (on_tree sd f b)) (snd (on_tree sd f b'))).
  { intros A f. assert (Hx : tree b sd = tree b' sd) by (destruct sd; done).
    unfold on_tree, zoom. rewrite Hx. destruct (f (tree b' sd)) as [r t]. cbn [fst snd].
    split; [done|]. exists F. destruct sd; split; done. }
  destruct (Hq _ (insert_leaf lf)) as [E (F' & R)]. clear Ht Hq.
  destruct (on_tree sd (insert_leaf lf) b) as [r b1], (on_tree sd (insert_leaf lf) b') as [r' b1'].
  cbn [fst snd] in E, R. subst r'.
  destruct r as [[h x]|e|x|]; try (right; right; cbn; eauto; fail).
  destruct e; right; right; cbn; eauto.
Qed.
Lemma par_post d d' p lf : par d d' (post_leaf p lf) (post_leaf p lf).
Proof.
  unfold post_leaf. apply par_bind; [apply par_try|]. intros [h|]; [apply par_const|].
  apply par_get. intros F b b' [H1 H2 H3 H4 H5 H6].
  assert (Ht : forall sd, tree b sd = tree b' sd) by (by intros []).
  rewrite (Ht (p_side p)). apply par_bind; [apply par_const|]. intros cand.
  apply par_bind; [apply par_const|]. intros ch. apply par_bind; [apply par_const|]. intros cl.
  destruct (match p_side p with Bid => _ | Ask => _ end); [|apply par_const].
  apply par_bind; [apply par_tree|]. intros r. apply par_bind; [apply par_const|]. intros lc.
  apply par_bind; [apply par_push_out|]. intros _. apply par_bind; [apply par_try|]. intros r2.
  apply par_bind; [apply par_const|]. intros h. apply par_const.
Qed.
Lemma par_no_post d d' (p : params C) base quote : par d d' (OrderBook.no_post p base quote) (OrderBook.no_post p base quote).
Proof.
  unfold OrderBook.no_post. do 2 (apply par_bind; [apply par_const|]; intros ?). apply par_const.
Qed.
Lemma par_new_order d d' p min : par d d' (new_order same_id p min) (new_order same_id p min).
Proof.
  unfold new_order. apply par_bind; [apply par_match|]. intros l.
  destruct (l_crossed l || _ || _); [apply par_no_post|].
  apply par_bind; [apply par_gen|]. intros id. apply par_bind; [apply par_post|].
  intros [h|]; [|apply par_no_post].
  apply par_bind; [apply par_tree|]. intros _.
  do 5 (apply par_bind; [apply par_const|]; intros ?). apply par_const.
Qed.

(** ** Markets *)
Record msame (d d' F : list (event_ref C)) m m' : Prop := mk_msame {
  ms_min : m_min m = m_min m';
  ms_tick : m_tick m = m_tick m';
  ms_book : qsame d d' F (m_book m) (m_book m');
}.
Definition mout {A} d d' (x x' : res A * market C) : Prop :=
  (fst x = Err EventQueueFull) \/
  (fst x' = Err EventQueueFull /\ (length d < length d')%nat) \/
  (fst x = fst x' /\ exists F, msame d d' F (snd x) (snd x')).
Definition mpar {A} d d' (f f' : M (market C) A) : Prop :=
  forall F m m', msame d d' F m m' -> mout d d' (f m) (f' m').
Lemma mpar_bind {A B} d d' (f f' : M (market C) A) (k k' : A -> M (market C) B) :
  mpar d d' f f' -> (forall a, mpar d d' (k a) (k' a)) -> mpar d d' (bind f k) (bind f' k').
Proof.
  intros Hf Hk F m m' H. specialize (Hf F m m' H). unfold bind, mout in *.
  destruct (f m) as [[a|e|x|] m1], (f' m') as [[a'|e'|x'|] m1']; cbn [fst snd] in *;
    destruct Hf as [E|[[E L]|[E (F' & R)]]]; try discriminate E; simplify_eq;
    try (by left); try (by (right; left)); try (by (right; right; eauto)).
  exact (Hk _ F' _ _ R).
Qed.
Lemma mpar_const {A} d d' (r : res A) : mpar d d' (fun m => (r, m)) (fun m => (r, m)).
Proof. intros F m m' H. right; right. cbn. eauto. Qed.
Lemma mpar_book {A} d d' (f : M (book C) A) : par d d' f f -> mpar d d' (on_book f) (on_book f).
Proof.
  intros Hf F m m' [H1 H2 H3]. specialize (Hf F _ _ H3). unfold on_book, zoom.
  destruct (f (m_book m)) as [r b1], (f (m_book m')) as [r' b1'].
  destruct Hf as [E|[[E L]|[E (F' & R)]]]; cbn [fst snd] in *.
  - by left.
  - by right; left.
  - right; right. cbn [fst snd]. split; [done|]. exists F'. by split.
Qed.
Lemma mpar_mass d d' : forall ids tb tq,
  mpar d d' (mass_cancel_loop ids tb tq) (mass_cancel_loop ids tb tq).
Proof.
  induction ids as [|id ids IH]; intros tb tq; cbn [mass_cancel_loop]; [apply mpar_const|].
  apply mpar_bind; [apply mpar_book, par_tree|]. intros r.
  do 3 (apply mpar_bind; [apply mpar_const|]; intros ?). apply IH.
Qed.
Definition trades (o : op C) : bool := match o with ConsumeEvents _ => false | _ => true end.
Lemma mpar_process d d' o : trades o = true -> mpar d d' (process same_id o) (process same_id o).
Proof.
  destruct o as [p|id|ids|n]; intros Ho; try discriminate Ho; cbn [process].
  - apply mpar_bind; [|intros ?; apply mpar_const].
    intros F m m' H. unfold process_new_order. rewrite !bind_get.
    destruct H as [H1 H2 H3]. rewrite H1, H2.
    destruct (m_tick m' =? 0); [by apply (mpar_const d d' (Panic PDivZero) F m m')|].
    destruct (negb _); [by apply (mpar_const d d' (Err InvalidLimitPrice) F m m')|].
    destruct (_ && _); [by apply (mpar_const d d' (Err InvalidLimitPrice) F m m')|].
    by apply (mpar_book _ _ _ (par_new_order d d' p (m_min m')) F).
  - apply mpar_bind; [|intros ?; apply mpar_const]. unfold process_cancel_order.
    apply mpar_bind; [apply mpar_book, par_tree|]. intros r.
    do 2 (apply mpar_bind; [apply mpar_const|]; intros ?). apply mpar_const.
  - apply mpar_bind; [|intros ?; apply mpar_const]. unfold process_mass_cancel.
    apply mpar_bind; [apply mpar_mass|]. intros t. apply mpar_const.
Qed.
(** ** Transactions *)
Lemma mpar_exec d d' o F m m' : trades o = true -> msame d d' F m m' ->
  (fst (exec same_id o m) = Err EventQueueFull) \/
  (fst (exec same_id o m') = Err EventQueueFull /\ (length d < length d')%nat) \/
  (fst (exec same_id o m) = fst (exec same_id o m') /\
   exists F', msame d d' F' (snd (exec same_id o m)) (snd (exec same_id o m'))).
Proof.
  intros Ho H. pose proof (mpar_process d d' o Ho F m m' H) as Hp. unfold exec.
  destruct (process same_id o m) as [[a|e|x|] m1], (process same_id o m') as [[a'|e'|x'|] m1'];
    destruct Hp as [E|[[E L]|[E (F' & R)]]]; cbn [fst snd] in *; try discriminate E; simplify_eq; eauto 10.
Qed.
End Crank.
