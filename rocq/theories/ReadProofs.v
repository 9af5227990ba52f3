(** * ReadProofs.v: the depth of a tree (C59), the spread of two accounts (C46), failures
    without rollback (C48) *)
From stdpp Require Import gmap.
From Verif Require Import Machine Critbit DataSpec MachineProofs TreeProofs SlabProofs SlabProofs2 DataProps ReadSpec.
From Coq Require Import ZifyBool ZifyNat ZifyN.

Section Depth.
Context {C : Type}.
Implicit Types s : slab C.

Fixpoint gsize (t : gtree) : nat :=
  match t with GL _ _ => 1 | GI _ _ _ l r => S (gsize l + gsize r) end.
Lemma gsize_leaves t : (gsize t + 1 = 2 * length (gleaves t))%nat.
Proof. induction t as [|i p k l IHl r IHr]; cbn [gsize gleaves length]; [done|]. rewrite app_length. lia. Qed.
Lemma gheight_pow t : (length (gleaves t) <= 2 ^ gheight t)%nat.
Proof.
  induction t as [|i p k l IHl r IHr]; [cbn; lia|]. cbn [gleaves gheight]. rewrite app_length, Nat.pow_succ_r'.
  pose proof (Nat.pow_le_mono_r 2 (gheight l) (max (gheight l) (gheight r)) ltac:(lia) ltac:(lia)).
  pose proof (Nat.pow_le_mono_r 2 (gheight r) (max (gheight l) (gheight r)) ltac:(lia) ltac:(lia)). lia.
Qed.
Lemma gheight_lt_leaves t : (gheight t < length (gleaves t))%nat.
Proof. induction t as [|i p k l IHl r IHr]; cbn; [lia|]. rewrite app_length. lia. Qed.

Definition stack_max (ts : list (gtree * N)) (mx : N) : N :=
  fold_left (fun a td => N.max (snd td + N.of_nat (gheight (fst td))) a) ts mx.
Lemma stack_max_mono ts a b : a <= b -> stack_max ts a <= stack_max ts b.
Proof. revert a b. induction ts as [|t ts IH]; intros a b H; cbn; [done|]. apply IH. lia. Qed.
Lemma depth_loop_ok s : forall fuel ts mx,
  Forall (fun td => rep (leaf_nodes s) (inner_nodes s) (fst td)) ts ->
  (sum_list_with (fun td => gsize (fst td)) ts < fuel)%nat ->
  depth_loop fuel s (map (fun td => (groot (fst td), snd td)) ts) mx = Ok (stack_max ts mx).
Proof.
  induction fuel as [|fuel IH]; intros ts mx Hr Hf; [lia|]. destruct ts as [|[t d] ts]; [done|].
  apply Forall_cons in Hr as [Ht Hr]. cbn [sum_list_with fst] in Hf. cbn [map fst snd depth_loop].
  destruct t as [h l|i p key tl tr].
  - destruct Ht as [Hh _]. cbn [groot]. rewrite is_inner_leaf by done. cbn [gsize] in Hf.
    rewrite IH by (done || lia). cbn [stack_max fold_left fst snd gheight]. by rewrite N.add_0_r.
  - destruct Ht as (Hi & Hn & Hl & Hrr). cbn [groot]. rewrite is_inner_not32, not32_not32 by lia.
    rewrite (rbind_ok _ _ _ (idx_Some _ _ _ Hn)). cbn [in_c0 in_c1]. cbn [gsize] in Hf.
    rewrite (IH ((tr, d + 1) :: (tl, d + 1) :: ts)).
    + cbn [stack_max fold_left fst snd gheight]. do 2 f_equal. lia.
    + by repeat constructor.
    + cbn [sum_list_with fst]. lia.
Qed.

(** The nodes at each depth are the nodes of the ghost tree. *)
Inductive gat : gtree -> N -> gtree -> Prop :=
| gat_here t : gat t 1 t
| gat_left i p k l r d t : gat l d t -> gat (GI i p k l r) (d + 1) t
| gat_right i p k l r d t : gat r d t -> gat (GI i p k l r) (d + 1) t.
Lemma gat_bound t d u : gat t d u -> 1 <= d /\ d + N.of_nat (gheight u) <= 1 + N.of_nat (gheight t).
Proof. induction 1 as [|? ? ? ? ? ? ? _ IH|? ? ? ? ? ? ? _ IH]; cbn [gheight]; lia. Qed.
Lemma gat_snoc t d u : gat t d u -> match u with
  | GL _ _ => True
  | GI _ _ _ l r => gat t (d + 1) l /\ gat t (d + 1) r end.
Proof.
  induction 1 as [u|i p k l r d t H IH|i p k l r d t H IH].
  - destruct u; [done|]. split; [apply (gat_left _ _ _ _ _ 1)|apply (gat_right _ _ _ _ _ 1)]; constructor.
  - destruct t; [done|]. destruct IH. by split; apply gat_left.
  - destruct t; [done|]. destruct IH. by split; apply gat_right.
Qed.
Lemma gat_rep L I t d u : gat t d u -> rep L I t -> rep L I u.
Proof. induction 1; intros Hr; [done|destruct Hr as (?&?&?&?)..]; auto. Qed.
Lemma gat_deepest t : exists h l, gat t (1 + N.of_nat (gheight t)) (GL h l).
Proof.
  induction t as [h l|i p k l (h1&l1&H1) r (h2&l2&H2)]; [exists h, l; constructor|].
  cbn [gheight]. destruct (Nat.max_spec (gheight l) (gheight r)) as [[? E]|[? E]]; rewrite E.
  - exists h2, l2. replace (1 + N.of_nat (S (gheight r))) with (1 + N.of_nat (gheight r) + 1) by lia. by apply gat_right.
  - exists h1, l1. replace (1 + N.of_nat (S (gheight l))) with (1 + N.of_nat (gheight l) + 1) by lia. by apply gat_left.
Qed.
Lemma rep_root_inj L I t u : rep L I t -> rep L I u -> groot t = groot u ->
  match t, u with GL _ _, GL _ _ => True | GI _ _ _ a b, GI _ _ _ a' b' => groot a = groot a' /\ groot b = groot b'
  | _, _ => False end.
Proof.
  destruct t as [h l|i p k l r], u as [h' l'|i' p' k' l' r']; cbn [groot]; intros Ht Hu E.
  - done.
  - destruct Ht as [Hh _], Hu as [Hi _]. pose proof (is_inner_leaf _ Hh). pose proof (is_inner_not32 _ Hi). congruence.
  - destruct Hu as [Hh _], Ht as [Hi _]. pose proof (is_inner_leaf _ Hh). pose proof (is_inner_not32 _ Hi). congruence.
  - destruct Ht as (Hi&Hn&_), Hu as (Hi'&Hn'&_). apply (f_equal not32) in E.
    rewrite !not32_not32 in E by lia. subst i'. rewrite Hn in Hn'. by injection Hn'.
Qed.
Lemma at_gat s t d h : leaf_count (hdr s) <> 0 -> root_node (hdr s) = groot t ->
  rep (leaf_nodes s) (inner_nodes s) t -> at_depth s d h -> exists u, gat t d u /\ groot u = h.
Proof.
  intros Hc Hroot Hrep. induction 1 as [_|d h n b _ (u & Hu & <-) Hin Hn].
  - exists t. split; [constructor|done].
  - pose proof (gat_rep _ _ _ _ _ Hu Hrep) as Hru. pose proof (gat_snoc _ _ _ Hu) as Hs.
    destruct u as [h l|i p k l r]; cbn [groot] in *.
    + destruct Hru as [Hh _]. by rewrite is_inner_leaf in Hin.
    + destruct Hru as (Hi & Hg & _ & _). rewrite not32_not32 in Hn by lia.
      rewrite (idx_Some _ _ _ Hg) in Hn. injection Hn as <-. cbn. destruct Hs. destruct b; eauto.
Qed.
Lemma gat_at s t : leaf_count (hdr s) <> 0 -> root_node (hdr s) = groot t ->
  rep (leaf_nodes s) (inner_nodes s) t -> forall d u, gat t d u -> at_depth s d (groot u).
Proof.
  intros Hc Hroot Hrep.
  assert (H : forall v dv, rep (leaf_nodes s) (inner_nodes s) v -> at_depth s dv (groot v) ->
    forall d u, gat v d u -> at_depth s (dv - 1 + d) (groot u)).
  { intros v dv Hv Hav d u Hg. revert dv Hv Hav.
    induction Hg as [v|i p k l r d u Hg IH|i p k l r d u Hg IH]; intros dv Hv Hav.
    - assert (1 <= dv) by (inversion Hav; lia). by replace (dv - 1 + 1) with dv by lia.
    - assert (1 <= dv) by (inversion Hav; lia). destruct Hv as (Hi & Hn & Hl & Hr).
      assert (Ha : at_depth s (dv + 1) (groot l)).
      { refine (at_child s dv _ (mk_inner k p (groot l) (groot r)) false Hav _ _); cbn [groot].
        - by apply is_inner_not32.
        - rewrite not32_not32 by lia. by apply idx_Some. }
      replace (dv - 1 + (d + 1)) with (dv + 1 - 1 + d) by lia. by apply IH.
    - assert (1 <= dv) by (inversion Hav; lia). destruct Hv as (Hi & Hn & Hl & Hr).
      assert (Ha : at_depth s (dv + 1) (groot r)).
      { refine (at_child s dv _ (mk_inner k p (groot l) (groot r)) true Hav _ _); cbn [groot].
        - by apply is_inner_not32.
        - rewrite not32_not32 by lia. by apply idx_Some. }
      replace (dv - 1 + (d + 1)) with (dv + 1 - 1 + d) by lia. by apply IH. }
  intros d u Hg. replace d with (1 - 1 + d) by lia. apply (H t 1); try done. rewrite <- Hroot. by constructor.
Qed.

Lemma get_depth_ok s es : srep s es ->
  exists d, get_depth s = Ok d /\
    (es = [] -> d = 0) /\
    (es <> [] -> (exists h, at_depth s d h /\ is_inner h = false) /\
       (forall d' h, at_depth s d' h -> d' <= d) /\
       d <= 129 /\ d <= N.of_nat (length es) /\ N.of_nat (length es) <= 2 ^ (d - 1)).
Proof.
  intros (ot & fl & ifl & Hinv & Hes & _). pose proof Hinv as [Hd Ht Hl Hi]. unfold get_depth.
  assert (Elen : length es = length (oleaves ot)) by (by rewrite <- Hes, map_length).
  destruct ot as [t|]; cbn in Ht.
  - destruct Ht as (Hroot & Hlc & Hrep & Hwf). cbn [oleaves] in Elen.
    pose proof (gleaves_ne t) as Hne.
    assert (Hpos : (0 < length (gleaves t))%nat) by (destruct (gleaves t); [done|cbn; lia]).
    assert (Hc : leaf_count (hdr s) <> 0) by (rewrite Hlc; lia).
    replace (leaf_count (hdr s) =? 0) with false by (symmetry; by apply N.eqb_neq).
    pose proof (depth_loop_ok s (2 * length (leaf_nodes s) + 2) [(t, 1)] 0) as HD. cbn [map fst snd] in HD.
    rewrite <- Hroot in HD. rewrite HD.
    + cbn [stack_max fold_left fst snd]. eexists. split; [reflexivity|].
      split; [intros ->; cbn in Elen; lia|]. intros _. rewrite N.max_l by lia.
      pose proof (gwf_height _ _ Hwf ltac:(lia)). pose proof (gheight_lt_leaves t). pose proof (gheight_pow t) as Hp.
      split_and!.
      * destruct (gat_deepest t) as (h & l & Hg). exists h. split.
        -- apply (gat_at s t Hc Hroot Hrep _ _ Hg).
        -- apply (gat_rep _ _ _ _ _ Hg) in Hrep as [Hh _]. by apply is_inner_leaf.
      * intros d' h Hat. destruct (at_gat s t d' h Hc Hroot Hrep Hat) as (u & Hg & _). apply gat_bound in Hg. lia.
      * lia.
      * lia.
      * rewrite Elen. replace (1 + N.of_nat (gheight t) - 1) with (N.of_nat (gheight t)) by lia.
        change 2 with (N.of_nat 2) at 1. rewrite <- Nat2N.inj_pow. lia.
    + repeat constructor. done.
    + cbn [sum_list_with fst]. pose proof (gsize_leaves t). destruct Hl as [_ _ Hll Hcap _ _]. rewrite map_length in Hll. cbn [oleaves] in Hll. lia.
  - rewrite Ht. exists 0. split; [done|]. split; [done|]. intros Hne. cbn in Elen. by destruct es.
Qed.
Lemma srep_size s es : srep s es -> size (to_map es) = length es.
Proof. intros Hs. apply to_map_size. by eapply srep_nodup. Qed.
Lemma depth_of_rep s es : srep s es -> let count := N.of_nat (length es) in
  exists d, get_depth s = Ok d /\ tree_depth s d /\ d <= 129 /\ d <= count /\
    (count <> 0 -> count <= 2 ^ (d - 1)).
Proof.
  intros Hs. destruct (get_depth_ok _ _ Hs) as (d & E & H0 & H1). exists d. split; [done|].
  pose proof (srep_length _ _ Hs) as Hl. unfold tree_depth. destruct es as [|e es].
  - rewrite (H0 eq_refl). cbn in Hl |- *. rewrite Hl. cbn. split_and!; done || lia.
  - destruct (H1 ltac:(done)) as (A & B & D1 & D2 & D3). rewrite Hl.
    destruct (N.eqb_spec (N.of_nat (length (e :: es))) 0) as [Hz|Hz]; [cbn in Hz; lia|]. cbv zeta. split_and!; done.
Qed.
End Depth.

From Verif Require Import Bytes EventQueue OrderBook Market Spec Layout LayoutProofs Borsh BorshProofs Ledger
  LedgerSpec LedgerProofs BookProofs MarketProofs InstrProps MarketReads Reads.

(** ** C46 on accounts *)
Section Spread.
Context (cs : nat) (same_id : bytes -> bytes -> bool) (pid : N).
Lemma spread_accounts c l a m : ledger_ok l -> opens cs pid l a m -> reachable same_id c m ->
  exists pb pa, spread_of_accounts cs (ac_bids a) (ac_asks a) l = (Ok (pb, pa), l) /\
    best_price m Bid pb /\ best_price m Ask pa.
Proof.
  intros Hok Ho Hr. destruct (spread_ok _ _ _ Hr) as (pb & pa & E & Hb & Ha). exists pb, pa. split; [|done].
  destruct Ho as [Hd _ _ Hbs Has _]. destruct (keys_distinct _ Hd) as (D1&D2&D3&D4&D5&D6).
  unfold spread_of_accounts.
  rewrite (bind_run _ _ _ _ _ (borrow_run [] (ac_bids a) l ltac:(apply not_elem_of_nil))).
  rewrite (bind_run _ _ _ _ _ (borrow_run [ac_bids a] (ac_asks a) l ltac:(set_solver))).
  rewrite Hbs. cbn [unwrap_err]. rewrite bind_ok. rewrite Has. cbn [unwrap_err]. rewrite bind_ok.
  unfold get_spread in *. cbn [bids asks]. rewrite E. done.
Qed.
Lemma other_tag buf t t' s : slab_from_buffer cs buf t = Ok s -> t' <> t ->
  slab_from_buffer cs buf t' = Err AccountTagMismatch.
Proof.
  unfold slab_from_buffer. intros H Ht. destruct (_ <? _)%nat; [done|]. cbv zeta in *.
  destruct (N.eqb_spec (hd 0 buf) t) as [E|E]; [|done].
  destruct (N.eqb_spec (hd 0 buf) t') as [E'|E']; [congruence|done].
Qed.
Lemma spread_swapped l a m : opens cs pid l a m ->
  spread_of_accounts cs (ac_asks a) (ac_bids a) l = (Panic PUnwrap, l).
Proof.
  intros [Hd _ _ Hbs Has _]. destruct (keys_distinct _ Hd) as (D1&D2&D3&D4&D5&D6).
  unfold spread_of_accounts.
  rewrite (bind_run _ _ _ _ _ (borrow_run [] (ac_asks a) l ltac:(apply not_elem_of_nil))).
  rewrite (bind_run _ _ _ _ _ (borrow_run [ac_asks a] (ac_bids a) l ltac:(set_solver))).
  by rewrite (other_tag _ _ tag_bids _ Has) by done.
Qed.
Lemma spread_same l k : spread_of_accounts cs k k l = (Panic PBorrow, l).
Proof.
  unfold spread_of_accounts.
  rewrite (bind_run _ _ _ _ _ (borrow_run [] k l ltac:(apply not_elem_of_nil))).
  unfold borrow, bind, get. cbn. by rewrite N.eqb_refl.
Qed.
End Spread.

(** ** C44: the length announced for the parameters of new_order *)
Lemma borsh_len_ok (p : params bytes) : length (wr_new_order p) = params_borsh_len p.
Proof.
  unfold wr_new_order, params_borsh_len. rewrite !app_length, !le_enc_length.
  unfold wr_side, wr_bool, wr_stb. cbn [length]. lia.
Qed.

(** ** C48: failures, before the runtime's rollback *)
From Verif Require Import MarketProofs InstrProps.

Section Raw.
Context {C : Type} (same_id : C -> C -> bool).
Implicit Types m : market C.

Lemma cancel_raw c m id r m' : reachable same_id c m ->
  process same_id (CancelOrder id) m = (r, m') -> is_ok r = false -> m' = m.
Proof.
  intros Hr H Hno. destruct (reachable_minv _ _ _ Hr) as (L & pend & Hm & Hsq).
  pose proof (remove_ok _ _ _ _ id Hm Hsq) as Hx. pose proof (exec_cancel same_id c m L pend id Hm Hsq) as He.
  cbn zeta in Hx, He. destruct (find_order id _) as [o|].
  - exfalso. destruct He as (m1 & He & _). unfold exec in He. rewrite H in He. by destruct r.
  - unfold process, process_cancel_order in H. rewrite bind_assoc in H. destruct (stale _ _ _).
    + rewrite (bind_panic _ _ _ _ _ Hx) in H. by injection H as <- <-.
    + rewrite (MachineProofs.bind_ok _ _ _ _ _ Hx) in H. cbn in H. by injection H as <- <-.
Qed.
Lemma price_raw m p : m_tick m <> 0 -> limit_price p mod m_tick m <> 0 ->
  process same_id (NewOrder p) m = (Err InvalidLimitPrice, m).
Proof.
  intros Ht Hp. unfold process, process_new_order. rewrite bind_assoc, bind_get.
  apply N.eqb_neq in Ht, Hp. rewrite Ht, Hp. done.
Qed.
Lemma consume_raw c m n : reachable same_id c m ->
  exists m', process same_id (ConsumeEvents n) m = (Ok None, m').
Proof.
  intros Hr. destruct (consume_ok same_id _ _ n Hr) as (m' & He & _). exists m'. unfold exec in He.
  destruct (process _ _ _) as [[] ?]; congruence.
Qed.
(** A mass cancellation, failed or not, has cancelled the first [k] ids and done nothing else. *)
Lemma mass_loop_raw c pend : forall ids m L tb tq r m', minv c m L pend -> seq_of m < p63 ->
  mass_cancel_loop ids tb tq m = (r, m') ->
  exists k sms, cancels same_id m (take k ids) sms m'.
Proof.
  induction ids as [|id ids IH]; intros m L tb tq r m' Hm Hsq H; cbn [mass_cancel_loop] in H.
  { injection H as <- <-. exists O, []. constructor. }
  pose proof (remove_ok _ _ _ _ id Hm Hsq) as Hx. pose proof (exec_cancel same_id c m L pend id Hm Hsq) as He.
  cbn zeta in Hx, He. destruct (find_order id _) as [o|].
  - destruct Hx as (m1 & Hx & Hm1 & Hq). destruct He as (m2 & He & _).
    assert (Em : m2 = m1).
    { apply cancel_process in He as (lc & q & Hx' & _). rewrite Hx in Hx'. by injection Hx' as _ <-. }
    subst m2. rewrite (MachineProofs.bind_ok _ _ _ _ _ Hx) in H. cbn [ok_or] in H.
    erewrite bind_lift in H by done. cbv zeta in H.
    assert (Hone : m' = m1 -> exists k sms, cancels same_id m (take k (id :: ids)) sms m').
    { intros ->. eexists 1%nat, [_]. cbn. rewrite take_0. econstructor; [done|constructor]. }
    unfold checked_add, to_u64 in H. destruct (_ + _ <? _); cbn [unwrap] in H.
    2:{ injection H as <- <-. by apply Hone. }
    erewrite bind_lift in H by done. destruct (fp32_mul_floor _ _) as [q|].
    2:{ injection H as <- <-. by apply Hone. }
    destruct (_ + _ <? _); cbn [unwrap] in H.
    2:{ injection H as <- <-. by apply Hone. }
    erewrite bind_lift in H by done. unfold seq_of in Hsq. rewrite <- Hq in Hsq.
    destruct (IH _ _ _ _ _ _ Hm1 Hsq H) as (k & sms & Hc). eexists (S k), (_ :: sms). cbn [take].
    econstructor; done.
  - exists O, []. cbn [take]. destruct (stale _ _ _).
    + rewrite (bind_panic _ _ _ _ _ Hx) in H. injection H as <- <-. constructor.
    + rewrite (MachineProofs.bind_ok _ _ _ _ _ Hx) in H. cbn in H. injection H as <- <-. constructor.
Qed.
Lemma mass_raw c m ids r m' : reachable same_id c m -> process same_id (MassCancelOrders ids) m = (r, m') ->
  exists k sms, cancels same_id m (take k ids) sms m'.
Proof.
  intros Hr H. destruct (reachable_minv _ _ _ Hr) as (L & pend & Hm & Hsq).
  unfold process, process_mass_cancel in H. rewrite bind_assoc in H.
  destruct (mass_cancel_loop ids 0 0 m) as [r1 m1] eqn:Hl.
  assert (m' = m1); [|subst; by eapply mass_loop_raw].
  destruct r1 as [a|e|x|].
  - rewrite (MachineProofs.bind_ok _ _ _ _ _ Hl) in H. cbn in H. by injection H as <- <-.
  - rewrite (bind_err _ _ _ _ _ Hl) in H. by injection H as <- <-.
  - rewrite (bind_panic _ _ _ _ _ Hl) in H. by injection H as <- <-.
  - unfold bind at 1 in H. rewrite Hl in H. by injection H as <- <-.
Qed.
End Raw.
