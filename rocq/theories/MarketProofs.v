(** * MarketProofs.v: the invariant of reachable markets and the effect of each instruction *)
From Verif Require Import Machine Bytes Critbit EventQueue OrderBook Market Spec MachineProofs
  TreeProofs SlabProofs SlabProofs2 QueueProofs IdProofs Engine BookProofs EngineProofs.
From Coq Require Import ZifyBool ZifyNat ZifyN.
From Coq Require Import Sorting.Sorted.

Global Arguments process_new_order : simpl never.
Global Arguments process_cancel_order : simpl never.
Global Arguments process_mass_cancel : simpl never.
Global Arguments process_consume_events : simpl never.
Global Arguments process : simpl never.
Global Arguments exec : simpl never.
Global Arguments resting : simpl never.
Global Arguments pending : simpl never.
Global Arguments emitted : simpl never.
Global Arguments init_market : simpl never.
Global Arguments on_book : simpl never.

Section MarketProofs.
Context {C : Type} (same_id : C -> C -> bool).
Implicit Types m : market C.
Implicit Types c : config C.
Implicit Types L : side -> list (order C).

Definition order_ok c (seq : N) (sd : side) (o : order C) : Prop :=
  exists price s, o_id o = order_id_of price s sd /\ 0 < price < p64 /\
    (c_tick c | price) /\ s < seq /\ c_min c <= o_qty o < p64 /\
    o_qty o * price < p64 * p32.

Definition caps c (sd : side) : nat := match sd with Bid => c_bids c | Ask => c_asks c end.

Record minv c m L (pend : list (event_ref C)) : Prop := mk_minv {
  mi_min : m_min m = c_min c;
  mi_tick : m_tick m = c_tick c;
  mi_rep : forall sd, lrep sd (tree (m_book m) sd) (L sd);
  mi_q : qrep (evq (m_book m)) pend;
  mi_caps : forall sd, length (leaf_nodes (tree (m_book m) sd)) = caps c sd;
  mi_qcap : q_cap (evq (m_book m)) = N.of_nat (c_events c);
  mi_ok : forall sd, Forall (order_ok c (q_seq (evq (m_book m))) sd) (L sd);
  mi_unc : forall b a, b ∈ L Bid -> a ∈ L Ask -> o_price b < o_price a;
}.
Definition seq_of m : N := q_seq (evq (m_book m)).

Lemma minv_resting c m L pend sd : minv c m L pend -> resting m sd = prio sd (L sd).
Proof. intros H. unfold resting. by rewrite (lrep_traverse _ _ _ (mi_rep _ _ _ _ H sd)). Qed.
Lemma minv_pending c m L pend : minv c m L pend -> pending m = pend.
Proof. intros H. unfold pending. by rewrite (queue_iter_ok _ _ (mi_q _ _ _ _ H)). Qed.

Lemma order_ok_price c seq sd o : seq < p63 -> order_ok c seq sd o ->
  o_price o = id_price (o_id o) /\ 0 < o_price o < p64 /\ (c_tick c | o_price o) /\
  side_of_id (o_id o) = sd /\ o_id o < p128 /\ o_qty o * o_price o < p64 * p32 /\
  c_min c <= o_qty o < p64 /\ id_seq sd (o_id o) < seq /\
  o_id o = order_id_of (o_price o) (id_seq sd (o_id o)) sd.
Proof.
  intros Hseq (price&s&Hid&Hp&Ht&Hs&Hq&Hv).
  assert (Hpr : o_price o = price) by (unfold o_price; rewrite Hid; apply price_of_order_id; lia).
  assert (Hsq : id_seq sd (o_id o) = s).
  { rewrite Hid. rewrite order_id_of_eq by lia. unfold id_seq.
    rewrite N.add_comm, N.mod_add by lia.
    rewrite (N.mod_small _ _ (id_low_lt s sd ltac:(lia))).
    destruct sd; unfold id_low, not64; [lia|done]. }
  rewrite Hpr, Hsq, Hid. split_and!; try done.
  - unfold id_price. rewrite order_id_of_eq by lia. rewrite N.div_add_l by lia.
    rewrite (N.div_small _ _ (id_low_lt s sd ltac:(lia))). lia.
  - lia.
  - lia.
  - apply side_of_order_id; lia.
  - apply order_id_lt; lia.
  - lia.
  - lia.
Qed.
Lemma order_ok_mono c seq seq' sd o : seq <= seq' -> order_ok c seq sd o -> order_ok c seq' sd o.
Proof. intros Hle (price&s&?&?&?&?&?). exists price, s. split_and!; try done; lia. Qed.
Lemma order_ok_typed c seq sd o : seq < p63 -> order_ok c seq sd o -> order_typed o.
Proof.
  intros Hs H. destruct (order_ok_price _ _ _ _ Hs H) as (?&?&?&?&?&?&?&?).
  split; [done|lia].
Qed.
Lemma order_ok_less c seq sd (o : order C) q : order_ok c seq sd o -> c_min c <= q <= o_qty o ->
  order_ok c seq sd (mk_leaf (o_id o) q, o_cb o).
Proof.
  intros (price&s&?&?&?&?&?&?) Hq. exists price, s. unfold o_id, o_qty at 1 2 3; cbn.
  split_and!; try done; try lia.
  apply N.le_lt_trans with (o_qty o * price); [|done]. apply N.mul_le_mono_r. lia.
Qed.

(** ** Creation *)
Lemma init_minv c : config_ok c -> minv c (init_market c) (fun _ => []) [].
Proof.
  intros (H1&H2&H3&H4&H5&H6&H7&H8). split; cbn; try done.
  - intros [].
    + exists []. split; [by apply empty_srep|done].
    + exists []. split; [by apply empty_srep|done].
  - apply empty_qrep; lia.
  - intros []; cbn; apply replicate_length.
  - unfold q_cap, init_market, empty_queue. cbn. by rewrite replicate_length.
  - intros b a Hb. by apply elem_of_nil in Hb.
Qed.

(** ** exec *)
Lemma exec_ok o m r m' : process same_id o m = (Ok r, m') -> exec same_id o m = (Ok r, m').
Proof. intros H. unfold exec. by rewrite H. Qed.
Lemma exec_err o m e m' : process same_id o m = (Err e, m') -> exec same_id o m = (Err e, m).
Proof. intros H. unfold exec. by rewrite H. Qed.
Lemma exec_panic o m e m' : process same_id o m = (Panic e, m') -> exec same_id o m = (Panic e, m).
Proof. intros H. unfold exec. by rewrite H. Qed.
Lemma on_book_ok {A} (f : M (book C) A) m r b : f (m_book m) = (r, b) ->
  on_book f m = (r, set_m_book b m).
Proof. intros H. unfold on_book, zoom. by rewrite H. Qed.

(** ** New orders *)
Lemma esteps_order_ok c seq p l os E l' os' sd :
  esteps same_id p (c_min c) l os E l' os' -> Forall (order_ok c seq sd) os ->
  Forall (order_ok c seq sd) os'.
Proof.
  induction 1 as [|l os l1 os1 E1 E2 l2 os2 Hs _ IH]; intros Ho; [done|].
  apply IH. apply estep_next in Hs as [Hs _].
  inversion Hs; subst; apply Forall_cons in Ho as [Ho1 Ho2]; try done.
  constructor; [|done]. apply order_ok_less; [done|lia].
Qed.
Lemma tail_of_ids (os os' : list (order C)) o' : tail_of os os' -> o' ∈ os' ->
  exists o, o ∈ os /\ o_id o' = o_id o /\ o_cb o' = o_cb o /\ o_qty o' <= o_qty o.
Proof.
  intros (d&rest&->&H) Hin. destruct H as [->|(o&q&r'&->&Hq&->)].
  - exists o'. split; [apply elem_of_app; by right|]. done.
  - apply elem_of_cons in Hin as [->|Hin].
    + exists o. split; [apply elem_of_app; right; left|]. done.
    + exists o'. split; [apply elem_of_app; right; by right|]. done.
Qed.

Definition enew (p : params C) (min : N) (own opp : list (order C)) (cap : nat) (seq : N) :=
  match ematch same_id p min opp with
  | (E1, Abort) => (E1, None)
  | (E1, Fin l opp') =>
      let '(own', E2, sm, seq') := epost p min l own cap seq in
      (E1 ++ E2, Some (sm, own', opp', seq'))
  end.

(** [new_order] computes [enew]. *)
Lemma new_order_enew p min b own opp pend : let sd := p_side p in
  brep b (opposite sd) own opp pend -> Forall order_typed own -> Forall order_typed opp ->
  match_limit p < p64 -> max_base_qty p < p64 -> max_quote_qty p < p64 -> limit_price p < p64 ->
  q_seq (evq b) + 1 < p64 ->
  order_id_of (limit_price p) (q_seq (evq b)) sd ∉ map o_id own ->
  match enew p min own opp (length (leaf_nodes (tree b sd))) (q_seq (evq b)) with
  | (E, r) =>
      (room b pend E ->
       match r with
       | None => exists b', new_order same_id p min b = (Err WouldSelfTrade, b')
       | Some (sm, own', opp', seq') =>
           exists b', new_order same_id p min b = (Ok sm, b') /\
             brep b' (opposite sd) own' opp' (pend ++ E) /\ same_shape b b' /\
             q_seq (evq b') = seq'
       end) /\
      (~ room b pend E -> exists b', new_order same_id p min b = (Err EventQueueFull, b'))
  end.
Proof.
  intros sd Hb Hto Htp H1 H2 H3 H4 Hsq Hni. unfold enew.
  destruct (match_loop_ok same_id p min own b opp pend Hb Htp H1 H2 H3) as [HA HB].
  destruct (ematch same_id p min opp) as [E1 [l opp'|]]; cbn [fst snd] in *.
  - destruct (decide (room b pend E1)) as [Hr|Hr].
    + destruct (HA Hr) as (b1&Hm&Hb1&Hsh&Hsq1&Htr&Hlb&Hlq&Hlt&Hto').
      pose proof (after_ok p min l b1 own opp' (pend ++ E1) Hb1 Hto Hlt Hlb Hlq H4) as Ha.
      fold sd in Ha, Htr. rewrite Hsq1, Htr in Ha. specialize (Ha Hsq Hni). cbn zeta in Ha.
      destruct (epost p min l own (length (leaf_nodes (tree b sd))) (q_seq (evq b)))
        as [[[own' E2] sm] seq'].
      destruct Ha as [Ha1 Ha2].
      assert (Hrr : room b1 (pend ++ E1) E2 <-> room b pend (E1 ++ E2)).
      { rewrite (room_shape b b1) by done. unfold room. rewrite !app_length.
        by rewrite Nat.add_assoc. }
      rewrite <- Hrr. rewrite new_order_eq, (bind_ok _ _ _ _ _ Hm). split.
      * intros Hr2. destruct (Ha1 Hr2) as (b2&?&Hb2&?&?&?). exists b2.
        rewrite <- app_assoc in Hb2. split; [done|]. split; [done|].
        split; [by eapply same_shape_trans|done].
      * done.
    + destruct (HB Hr) as (b1&Hm).
      destruct (epost p min l own (length (leaf_nodes (tree b sd))) (q_seq (evq b)))
        as [[[own' E2] sm] seq'].
      split.
      * intros Hr2. exfalso. apply Hr. unfold room in *. rewrite app_length in Hr2. lia.
      * intros _. exists b1. rewrite new_order_eq. by apply bind_err.
  - split; [intros Hr|intros Hr].
    + destruct (HA Hr) as (b1&Hm). exists b1. rewrite new_order_eq. by apply bind_err.
    + destruct (HB Hr) as (b1&Hm). exists b1. rewrite new_order_eq. by apply bind_err.
Qed.

(** What the posting stage can do. *)
Inductive posted_case (p : params C) (min : N) (l : locals) (own : list (order C)) (cap : nat)
    (seq : N) : list (order C) -> list (event_ref C) -> summary -> N -> Prop :=
| pc_none seq' :
    (l_crossed l = true \/ post_allowed p = false \/ to_post p l < min) /\ seq' = seq \/
    (l_crossed l = false /\ post_allowed p = true /\ min <= to_post p l /\ seq' = seq + 1 /\
     (cap <= length own)%nat /\
     match last own with
     | Some w => match p_side p with Bid => limit_price p <= o_price w
                                 | Ask => o_price w <= limit_price p end
     | None => True
     end) ->
    posted_case p min l own cap seq own []
      (mk_summary None (max_base_qty p - l_base l) (max_quote_qty p - l_quote l) 0) seq'
| pc_post tp :
    l_crossed l = false -> post_allowed p = true -> tp = to_post p l -> min <= tp ->
    (length own < cap)%nat ->
    posted_case p min l own cap seq
      (ins (p_side p) (mk_leaf (order_id_of (limit_price p) seq (p_side p)) tp, p_callback p) own)
      []
      (mk_summary (Some (order_id_of (limit_price p) seq (p_side p)))
         (max_base_qty p - (l_base l - tp))
         (max_quote_qty p - (l_quote l - quote_of (p_side p) tp (limit_price p))) tp) (seq + 1)
| pc_evict tp own0 w :
    l_crossed l = false -> post_allowed p = true -> tp = to_post p l -> min <= tp ->
    (cap <= length own)%nat -> own = own0 ++ [w] ->
    match p_side p with Bid => o_price w < limit_price p | Ask => limit_price p < o_price w end ->
    posted_case p min l own cap seq
      (ins (p_side p) (mk_leaf (order_id_of (limit_price p) seq (p_side p)) tp, p_callback p) own0)
      [ev_out (p_side p) w (o_qty w)]
      (mk_summary (Some (order_id_of (limit_price p) seq (p_side p)))
         (max_base_qty p - (l_base l - tp))
         (max_quote_qty p - (l_quote l - quote_of (p_side p) tp (limit_price p))) tp) (seq + 1).

Lemma epost_cases p min l own cap seq own' E sm seq' :
  epost p min l own cap seq = (own', E, sm, seq') ->
  posted_case p min l own cap seq own' E sm seq'.
Proof.
  unfold epost. destruct (l_crossed l) eqn:Hc.
  { cbn. intros [= <- <- <- <-]. apply pc_none. auto. }
  destruct (post_allowed p) eqn:Hpa.
  2:{ cbn. intros [= <- <- <- <-]. apply pc_none. auto. }
  cbn [orb negb]. destruct (N.ltb_spec (to_post p l) min).
  { intros [= <- <- <- <-]. apply pc_none. auto. }
  destruct (Nat.ltb_spec (length own) cap).
  { intros [= <- <- <- <-]. by apply pc_post. }
  destruct (last own) as [w|] eqn:Hl.
  - pose proof Hl as Hl0. apply last_Some in Hl as (own0&Hown).
    destruct (match p_side p with
              | Bid => o_price w <? limit_price p
              | Ask => limit_price p <? o_price w
              end) eqn:Hb.
    + intros [= <- <- <- <-]. rewrite Hown at 2. rewrite removelast_last.
      apply pc_evict; try done. destruct (p_side p); lia.
    + intros [= <- <- <- <-]. apply pc_none. right. rewrite Hl0. split_and!; try done.
      destruct (p_side p); lia.
  - intros [= <- <- <- <-]. apply pc_none. right. by rewrite Hl.
Qed.


Definition sides (sd : side) (own opp : list (order C)) : side -> list (order C) :=
  fun x => match sd, x with Bid, Bid | Ask, Ask => own | _, _ => opp end.
Lemma sides_own sd own opp : sides sd own opp sd = own.
Proof. by destruct sd. Qed.
Lemma sides_opp sd own opp : sides sd own opp (opposite sd) = opp.
Proof. by destruct sd. Qed.
Lemma sides_forall sd own opp (P : side -> list (order C) -> Prop) :
  P sd own -> P (opposite sd) opp -> forall x, P x (sides sd own opp x).
Proof. intros H1 H2 x. by destruct sd, x. Qed.

Lemma not_crosses_rest sd limit (o : order C) os x :
  sorted (opposite sd) (o :: os) -> Forall order_typed (o :: os) -> x ∈ o :: os ->
  crosses sd limit (o_price o) = false -> crosses sd limit (o_price x) = false.
Proof.
  intros Hs Ht Hx Hc. apply elem_of_cons in Hx as [->|Hx]; [done|].
  inversion Hs as [|? ? _ Hall]; subst. rewrite Forall_forall in Hall.
  specialize (Hall x Hx). rewrite Forall_forall in Ht.
  destruct (Ht o ltac:(left)) as [Ho _]. destruct (Ht x ltac:(by right)) as [Hx' _].
  unfold o_price, crosses in *. destruct sd; cbn in Hall.
  - pose proof (price_mono (o_id o) (o_id x) Ho Hx' ltac:(lia)). lia.
  - pose proof (price_mono (o_id x) (o_id o) Hx' Ho ltac:(lia)). lia.
Qed.

Lemma minv_brep c m L pend sd : minv c m L pend ->
  brep (m_book m) (opposite sd) (L sd) (L (opposite sd)) pend.
Proof.
  intros H. split.
  - rewrite opp_opp. apply H.
  - apply H.
  - apply H.
Qed.
Lemma minv_typed c m L pend sd : minv c m L pend -> seq_of m < p63 -> Forall order_typed (L sd).
Proof.
  intros H Hs. eapply Forall_impl; [apply (mi_ok _ _ _ _ H)|].
  intros o Ho. by eapply order_ok_typed.
Qed.
Lemma minv_fresh c m L pend sd price : minv c m L pend -> seq_of m < p63 -> price < p64 ->
  order_id_of price (seq_of m) sd ∉ map o_id (L sd).
Proof.
  intros H Hs Hp Hin. apply elem_of_list_fmap in Hin as (o&Heq&Hin).
  pose proof (mi_ok _ _ _ _ H sd) as Hok. rewrite Forall_forall in Hok.
  destruct (Hok o Hin) as (pr&s&Hid&Hpr&_&Hlt&_). rewrite Hid in Heq. unfold seq_of in *.
  apply order_id_inj in Heq as [_ ?]; lia.
Qed.

Lemma l_init_typed (p : params C) : op_typed (NewOrder p) -> locals_typed (l_init p).
Proof. intros (?&?&?&?). split_and!; done. Qed.

Definition price_bad c (p : params C) : bool :=
  negb (limit_price p mod c_tick c =? 0) || (post_allowed p && (limit_price p <? c_tick c)).

Lemma enew_inv c p own opp cap seq E sm own' opp' seq' :
  enew p (c_min c) own opp cap seq = (E, Some (sm, own', opp', seq')) ->
  exists l1 l E1 E2,
    esteps same_id p (c_min c) (l_init p) opp E1 l1 opp' /\
    estep same_id p (c_min c) l1 opp' = EBreak l /\
    posted_case p (c_min c) l own cap seq own' E2 sm seq' /\ E = E1 ++ E2.
Proof.
  unfold enew. destruct (ematch same_id p (c_min c) opp) as [E1 [l os|]] eqn:Em; [|done].
  destruct (epost p (c_min c) l own cap seq) as [[[o1 E2] s1] q1] eqn:Ep.
  intros [= <- -> -> -> ->].
  unfold ematch in Em. apply eloop_fin in Em as (l1&H1&H2).
  exists l1, l, E1, E2. split_and!; try done. by apply epost_cases.
Qed.

Lemma enew_order_ok c p own opp cap seq E sm own' opp' seq' :
  config_ok c -> op_typed (NewOrder p) -> price_bad c p = false -> seq < p63 ->
  Forall (order_ok c seq (p_side p)) own ->
  Forall (order_ok c seq (opposite (p_side p))) opp ->
  enew p (c_min c) own opp cap seq = (E, Some (sm, own', opp', seq')) ->
  seq <= seq' <= seq + 1 /\
  Forall (order_ok c seq' (p_side p)) own' /\
  Forall (order_ok c seq' (opposite (p_side p))) opp'.
Proof.
  intros Hc Hty Hpb Hsq Ho Hp He. apply enew_inv in He as (l1&l&E1&E2&Hst&Hbr&Hpc&->).
  pose proof (l_init_typed p Hty) as Hli.
  assert (Htp : Forall order_typed opp).
  { eapply Forall_impl; [exact Hp|]. intros; by eapply order_ok_typed. }
  destruct (esteps_typed _ _ _ _ _ _ _ _ Hst Hli Htp) as (Hl1&_&_&_&_).
  destruct (estep_break _ _ _ _ _ _ Hbr) as (Hb1&Hb2&Hb3).
  assert (Hlt : locals_typed l) by (unfold locals_typed in *; rewrite Hb1, Hb2, Hb3; done).
  assert (Hnew : post_allowed p = true -> c_min c <= to_post p l ->
    order_ok c (seq + 1) (p_side p)
      (mk_leaf (order_id_of (limit_price p) seq (p_side p)) (to_post p l), p_callback p)).
  { intros Hpa Hmin. exists (limit_price p), seq. destruct Hty as (?&?&Hlp&?).
    destruct Hc as (?&Htk&_). unfold price_bad in Hpb. rewrite Hpa in Hpb.
    apply orb_false_iff in Hpb as [Hpb1 Hpb2]. cbn [andb] in Hpb2.
    assert (Hlow : to_post p l < p64).
    { unfold to_post. pose proof (afford_u64 (l_quote l) (limit_price p)). lia. }
    unfold o_id, o_qty; cbn [fst lf_key lf_qty]. split_and!; try done; try lia.
    - apply N.mod_divide; lia.
    - assert (Hle : to_post p l * limit_price p <= l_quote l * p32).
      { apply afford_spec; [done|]. unfold to_post. lia. }
      destruct Hlt as (_&_&Hq). lia. }
  assert (Hsq' : seq <= seq' <= seq + 1).
  { destruct Hpc as [seq0 [[_ ->]|(_&_&_&->&_)]| |]; lia. }
  split; [done|]. split.
  - destruct Hpc as [seq0 _|tp Hcr Hpa -> Hmin Hlen|tp own0 w Hcr Hpa -> Hmin Hlen -> Hw].
    + eapply Forall_impl; [exact Ho|]. intros; eapply order_ok_mono; [|done]. lia.
    + rewrite ins_perm. constructor; [by apply Hnew|].
      eapply Forall_impl; [exact Ho|]. intros; eapply order_ok_mono; [|done]. lia.
    + rewrite ins_perm. constructor; [by apply Hnew|].
      apply Forall_app in Ho as [Ho _].
      eapply Forall_impl; [exact Ho|]. intros; eapply order_ok_mono; [|done]. lia.
  - eapply esteps_order_ok; [exact Hst|].
    eapply Forall_impl; [exact Hp|]. intros; eapply order_ok_mono; [|done]. lia.
Qed.

(** Prices on the two sides never cross. *)
Definition apart (sd : side) (own opp : list (order C)) : Prop :=
  forall x y, x ∈ own -> y ∈ opp -> crosses sd (o_price x) (o_price y) = false.
Lemma apart_sides sd own opp : apart sd own opp ->
  forall b a, b ∈ sides sd own opp Bid -> a ∈ sides sd own opp Ask -> o_price b < o_price a.
Proof.
  intros H b a Hb Ha. destruct sd; cbn in *.
  - specialize (H b a Hb Ha). unfold crosses in H. lia.
  - specialize (H a b Ha Hb). unfold crosses in H. lia.
Qed.
Lemma minv_apart c m L pend sd : minv c m L pend -> apart sd (L sd) (L (opposite sd)).
Proof.
  intros H x y Hx Hy. unfold crosses. destruct sd; cbn in *.
  - pose proof (mi_unc _ _ _ _ H x y Hx Hy). lia.
  - pose proof (mi_unc _ _ _ _ H y x Hy Hx). lia.
Qed.

Lemma enew_apart c p own opp cap seq E sm own' opp' seq' :
  op_typed (NewOrder p) -> seq < p63 ->
  Forall order_typed opp -> sorted (opposite (p_side p)) opp' ->
  apart (p_side p) own opp ->
  enew p (c_min c) own opp cap seq = (E, Some (sm, own', opp', seq')) ->
  apart (p_side p) own' opp'.
Proof.
  intros Hty Hsq Htp Hsrt Hap He. apply enew_inv in He as (l1&l&E1&E2&Hst&Hbr&Hpc&->).
  pose proof (esteps_tail _ _ _ _ _ _ _ _ Hst) as Htl.
  pose proof (l_init_typed p Hty) as Hli.
  destruct (esteps_typed _ _ _ _ _ _ _ _ Hst Hli Htp) as (_&Htp'&_).
  assert (Hold : forall x y, x ∈ own -> y ∈ opp' -> crosses (p_side p) (o_price x) (o_price y) = false).
  { intros x y Hx Hy. destruct (tail_of_ids _ _ _ Htl Hy) as (o&Ho&Hid&_).
    unfold o_price at 2. rewrite Hid. by apply Hap. }
  assert (Hnew : l_crossed l = false -> forall y q, y ∈ opp' ->
    crosses (p_side p)
      (o_price (mk_leaf (order_id_of (limit_price p) seq (p_side p)) q, p_callback p))
      (o_price y) = false).
  { intros Hcr y q Hy. unfold o_price at 1. unfold o_id. cbn [fst lf_key].
    rewrite price_of_order_id; [|by destruct Hty as (?&?&?&?)|lia].
    pose proof (estep_break_crossed _ _ _ _ _ _ (esteps_crossed _ _ _ _ _ _ _ _ Hst eq_refl) Hbr Hcr)
      as [_ Hx].
    destruct opp' as [|o os']; [by apply elem_of_nil in Hy|].
    eapply not_crosses_rest; done. }
  destruct Hpc as [seq0 _|tp Hcr Hpa -> Hmin Hlen|tp own0 w Hcr Hpa -> Hmin Hlen -> Hw].
  - done.
  - intros x y Hx Hy. rewrite ins_perm in Hx. apply elem_of_cons in Hx as [->|Hx]; auto.
  - intros x y Hx Hy. rewrite ins_perm in Hx. apply elem_of_cons in Hx as [->|Hx]; auto.
    apply Hold; [|done]. apply elem_of_app. by left.
Qed.

Lemma same_shape_tree (b b' : book C) sd : same_shape b b' ->
  length (leaf_nodes (tree b' sd)) = length (leaf_nodes (tree b sd)).
Proof. intros (H1&H2&_). destruct sd; [apply H1|apply H2]. Qed.

(** Effect of a new order. *)
Definition fits c (pend E : list (event_ref C)) : bool :=
  (length pend + length E <=? c_events c)%nat.
Lemma exec_new_order c m L pend p :
  config_ok c -> minv c m L pend -> op_typed (NewOrder p) -> seq_of m < p63 ->
  let sd := p_side p in
  if price_bad c p then exec same_id (NewOrder p) m = (Err InvalidLimitPrice, m)
  else
    match enew p (c_min c) (L sd) (L (opposite sd)) (caps c sd) (seq_of m) with
    | (E, r) =>
        if fits c pend E then
          match r with
          | None => exec same_id (NewOrder p) m = (Err WouldSelfTrade, m)
          | Some (sm, own', opp', seq') =>
              exists m', exec same_id (NewOrder p) m = (Ok (Some sm), m') /\
                minv c m' (sides sd own' opp') (pend ++ E) /\ seq_of m' = seq'
          end
        else exec same_id (NewOrder p) m = (Err EventQueueFull, m)
    end.
Proof.
  intros Hc Hm Hty Hsq sd.
  assert (Hpr : process same_id (NewOrder p) m =
    if price_bad c p then (Err InvalidLimitPrice, m)
    else bind (on_book (new_order same_id p (c_min c))) (fun s => ret (Some s)) m).
  { unfold process, process_new_order. rewrite bind_assoc, bind_get.
    rewrite (mi_tick _ _ _ _ Hm), (mi_min _ _ _ _ Hm). unfold price_bad.
    destruct Hc as (_&Htk&_). destruct (N.eqb_spec (c_tick c) 0); [lia|].
    destruct (limit_price p mod c_tick c =? 0); cbn [negb orb]; [|done].
    destruct (post_allowed p && (limit_price p <? c_tick c)); done. }
  destruct (price_bad c p) eqn:Hpb.
  { by eapply exec_err. }
  pose proof (minv_brep _ _ _ _ sd Hm) as Hb.
  pose proof (minv_typed _ _ _ _ sd Hm Hsq) as Ht1.
  pose proof (minv_typed _ _ _ _ (opposite sd) Hm Hsq) as Ht2.
  pose proof Hty as (H1&H2&H3&H4).
  pose proof (minv_fresh _ _ _ _ sd _ Hm Hsq H3) as Hfr. unfold seq_of in Hfr, Hsq |- *.
  pose proof (new_order_enew p (c_min c) (m_book m) (L sd) (L (opposite sd)) pend Hb Ht1 Ht2
    H4 H1 H2 H3 ltac:(lia) Hfr) as Hen.
  fold sd in Hen. rewrite (mi_caps _ _ _ _ Hm sd) in Hen.
  destruct (enew p (c_min c) (L sd) (L (opposite sd)) (caps c sd) (q_seq (evq (m_book m))))
    as [E r] eqn:He.
  destruct Hen as [Hen1 Hen2].
  assert (Hroom : room (m_book m) pend E <-> fits c pend E = true).
  { unfold room, fits. rewrite (mi_qcap _ _ _ _ Hm), Nat.leb_le. lia. }
  destruct (fits c pend E).
  - specialize (Hen1 ltac:(by apply Hroom)). destruct r as [[[[sm own'] opp'] seq']|].
    + destruct Hen1 as (b'&Hn&Hb'&Hsh&Hseq'). exists (set_m_book b' m).
      split; [apply exec_ok; rewrite Hpr, (bind_ok _ _ _ _ _ (on_book_ok _ _ _ _ Hn)); done|].
      split; [|done].
      destruct (enew_order_ok _ _ _ _ _ _ _ _ _ _ _ Hc Hty Hpb Hsq
        (mi_ok _ _ _ _ Hm sd) (mi_ok _ _ _ _ Hm (opposite sd)) He) as (_&Ho1&Ho2).
      pose proof Hb' as [B1 B2 B3]. rewrite opp_opp in B1.
      split; try apply Hm.
      * apply (sides_forall sd own' opp' (fun x l => lrep x (tree b' x) l)); done.
      * exact B3.
      * intros x. cbn. rewrite (same_shape_tree _ _ x Hsh). apply Hm.
      * cbn. destruct Hsh as (_&_&->). apply Hm.
      * cbn. rewrite Hseq'. apply (sides_forall sd own' opp' (fun x l => Forall (order_ok c seq' x) l)); done.
      * apply apart_sides. eapply enew_apart; [done|exact Hsq|exact Ht2| | |exact He].
        -- by eapply lrep_sorted.
        -- by eapply minv_apart.
    + destruct Hen1 as (b'&Hn). eapply exec_err. rewrite Hpr.
      by rewrite (bind_err _ _ _ _ _ (on_book_ok _ _ _ _ Hn)).
  - destruct Hen2 as (b'&Hn); [intros ?; by apply Hroom in H|].
    eapply exec_err. rewrite Hpr. by rewrite (bind_err _ _ _ _ _ (on_book_ok _ _ _ _ Hn)).
Qed.

(** ** Cancelling *)
Definition find_order (id : N) (os : list (order C)) : option (order C) :=
  List.find (fun o => o_id o =? id) os.
Definition del (id : N) (os : list (order C)) : list (order C) :=
  List.filter (fun o => negb (o_id o =? id)) os.
Definition order_quote (o : order C) : N := o_qty o * o_price o / p32.

Lemma find_order_Some id os o : find_order id os = Some o -> o ∈ os /\ o_id o = id.
Proof.
  intros H. apply find_some in H as [H1 H2]. split; [by apply elem_of_list_In|].
  by apply N.eqb_eq.
Qed.
Lemma find_order_None id os : find_order id os = None <-> id ∉ map o_id os.
Proof.
  split.
  - intros H Hin. apply elem_of_list_fmap in Hin as (o&->&Hin).
    apply elem_of_list_In in Hin. pose proof (find_none _ _ H o Hin) as Hx.
    cbn in Hx. by rewrite N.eqb_refl in Hx.
  - intros H. destruct (find_order id os) as [o|] eqn:E; [|done].
    apply find_order_Some in E as [E1 E2]. exfalso. apply H. rewrite <- E2.
    by apply elem_of_list_fmap_1.
Qed.
Lemma del_notin id os : id ∉ map o_id os -> del id os = os.
Proof.
  induction os as [|o os IH]; intros H; [done|]. cbn in *.
  apply not_elem_of_cons in H as [H1 H2].
  destruct (N.eqb_spec (o_id o) id); [congruence|]. cbn. f_equal. by apply IH.
Qed.
Lemma del_mid sd os1 o os2 : sorted sd (os1 ++ o :: os2) ->
  del (o_id o) (os1 ++ o :: os2) = os1 ++ os2.
Proof.
  intros Hs. destruct (sorted_app _ _ _ Hs) as (_&H2&H3).
  inversion H2 as [|? ? _ H4]; subst. rewrite Forall_forall in H4.
  unfold del. rewrite List.filter_app. cbn. rewrite N.eqb_refl. cbn.
  fold (del (o_id o) os1) (del (o_id o) os2).
  rewrite !del_notin; [done| |].
  - intros Hin. apply elem_of_list_fmap in Hin as (x&Heq&Hx).
    specialize (H4 x Hx). rewrite Heq in H4. by rewrite before_irrefl in H4.
  - intros Hin. apply elem_of_list_fmap in Hin as (x&Heq&Hx).
    specialize (H3 x o Hx ltac:(left)). rewrite Heq in H3. by rewrite before_irrefl in H3.
Qed.
Lemma elem_del id os o : o ∈ del id os <-> o ∈ os /\ o_id o <> id.
Proof.
  unfold del. rewrite !elem_of_list_In, filter_In, negb_true_iff, N.eqb_neq. done.
Qed.

(** The state in which removing an absent id panics. *)
Definition stale m (sd : side) (id : N) : bool :=
  (length (resting m sd) =? 1)%nat && bool_decide (slot0_key (tree (m_book m) sd) = Some id).

Lemma order_quote_fp c seq sd o : seq < p63 -> order_ok c seq sd o ->
  fp32_mul_floor (o_qty o) (o_price o) = Some (order_quote o).
Proof.
  intros Hs Ho. destruct (order_ok_price _ _ _ _ Hs Ho) as (_&_&_&_&_&Hv&_).
  unfold fp32_mul_floor. apply to_u64_Some. apply N.div_lt_upper_bound; lia.
Qed.

(** One removal on the market. *)
Lemma remove_ok c m L pend id :
  minv c m L pend -> seq_of m < p63 -> let sd := side_of_id id in
  match find_order id (L sd) with
  | Some o =>
      exists m', on_book (on_tree sd (remove_by_key id)) m = (Ok (Some o), m') /\
        minv c m' (sides sd (del id (L sd)) (L (opposite sd))) pend /\
        evq (m_book m') = evq (m_book m)
  | None =>
      on_book (on_tree sd (remove_by_key id)) m =
        (if stale m sd id then Panic PIndex else Ok None, m)
  end.
Proof.
  intros Hm Hsq sd. destruct (find_order id (L sd)) as [o|] eqn:Hf.
  - apply find_order_Some in Hf as [Hin <-]. apply elem_of_list_split in Hin as (os1&os2&Hos).
    pose proof (mi_rep _ _ _ _ Hm sd) as Hr. rewrite Hos in Hr.
    destruct (lrep_remove _ _ _ _ _ Hr) as (s'&Hrm&Hr'&Hd).
    pose proof (lrep_sorted _ _ _ Hr) as Hsrt.
    assert (Hdel : del (o_id o) (L sd) = os1 ++ os2) by (rewrite Hos; by eapply del_mid).
    exists (set_m_book (set_tree sd s' (m_book m)) m).
    split; [by apply on_book_ok, on_tree_ok|]. split; [|cbn; by rewrite evq_set_tree].
    split; try apply Hm; cbn [m_book set_m_book]; rewrite ?evq_set_tree; try apply Hm.
    + apply (sides_forall sd _ _ (fun x l => lrep x (tree (set_tree sd s' (m_book m)) x) l)).
      * rewrite tree_set_eq, Hdel. done.
      * rewrite tree_set_ne. apply Hm.
    + intros x. rewrite <- (mi_caps _ _ _ _ Hm x).
      assert (Hsh : same_shape (m_book m) (set_tree sd s' (m_book m))) by by apply shape_set_tree.
      by apply same_shape_tree.
    + apply (sides_forall sd _ _ (fun x l => Forall (order_ok c (q_seq (evq (m_book m))) x) l)).
      * pose proof (mi_ok _ _ _ _ Hm sd) as Hok. rewrite Forall_forall in *.
        intros x Hx. apply elem_del in Hx as [Hx _]. by apply Hok.
      * apply Hm.
    + apply apart_sides. intros x y Hx Hy. apply elem_del in Hx as [Hx _].
      by eapply minv_apart.
  - apply find_order_None in Hf.
    pose proof (mi_rep _ _ _ _ Hm sd) as (es&Hs&Hos).
    assert (Hni : id ∉ map e_key es).
    { intros Hin. apply Hf. rewrite Hos, <- prio_map. apply prio_elem.
      rewrite map_map. exact Hin. }
    pose proof (remove_absent _ _ _ Hs Hni) as Hrm.
    assert (Hst : stale m sd id =
      (length es =? 1)%nat && bool_decide (slot0_key (tree (m_book m) sd) = Some id)).
    { unfold stale. rewrite (minv_resting _ _ _ _ _ Hm), prio_length, Hos, prio_length, map_length.
      done. }
    rewrite Hst, (on_book_ok _ _ _ _ (on_tree_ok _ _ _ _ _ Hrm)). f_equal.
    destruct m as [? ? []]; destruct sd; done.
Qed.

Lemma exec_cancel c m L pend id :
  minv c m L pend -> seq_of m < p63 -> let sd := side_of_id id in
  match find_order id (L sd) with
  | Some o =>
      exists m', exec same_id (CancelOrder id) m =
          (Ok (Some (mk_summary None (o_qty o) (order_quote o) 0)), m') /\
        minv c m' (sides sd (del id (L sd)) (L (opposite sd))) pend /\
        evq (m_book m') = evq (m_book m)
  | None =>
      exec same_id (CancelOrder id) m =
        (if stale m sd id then Panic PIndex else Err OrderNotFound, m)
  end.
Proof.
  intros Hm Hsq sd. pose proof (remove_ok _ _ _ _ id Hm Hsq) as Hr. cbn zeta in Hr. fold sd in Hr.
  destruct (find_order id (L sd)) as [o|] eqn:Hf.
  - destruct Hr as (m'&Hr&Hm'&Hs'). exists m'. split; [|done]. apply exec_ok.
    unfold process, process_cancel_order. fold sd.
    rewrite bind_assoc, (bind_ok _ _ _ _ _ Hr). rewrite bind_assoc. cbn [ok_or].
    erewrite bind_lift by done. rewrite bind_assoc.
    apply find_order_Some in Hf as [Hin _].
    pose proof (mi_ok _ _ _ _ Hm sd) as Hok. rewrite Forall_forall in Hok.
    pose proof (order_quote_fp _ _ _ _ Hsq (Hok o Hin)) as Hq.
    unfold o_price, o_qty, o_id in Hq. rewrite Hq. done.
  - destruct (stale m sd id).
    + eapply exec_panic. unfold process, process_cancel_order. fold sd.
      by rewrite bind_assoc, (bind_panic _ _ _ _ _ Hr).
    + eapply exec_err. unfold process, process_cancel_order. fold sd.
      by rewrite bind_assoc, (bind_ok _ _ _ _ _ Hr).
Qed.

(** ** Consuming events *)
Lemma exec_consume c m L pend n :
  minv c m L pend ->
  exists m', exec same_id (ConsumeEvents n) m = (Ok None, m') /\
    minv c m' L (drop (N.to_nat n) pend) /\ seq_of m' = seq_of m /\
    bids (m_book m') = bids (m_book m) /\ asks (m_book m') = asks (m_book m).
Proof.
  intros Hm. destruct (pop_n_ok _ _ n (mi_q _ _ _ _ Hm)) as (q'&Hp&Hq'&Hs&Hcap).
  exists (set_m_book (set_evq q' (m_book m)) m). split; [|split; [|done]].
  - apply exec_ok. unfold process, process_consume_events.
    by rewrite (bind_ok _ _ _ _ _ (on_book_ok _ _ _ _ (on_evq_ok _ _ _ _ Hp))).
  - split; cbn [m_book set_m_book]; try apply Hm.
    + done.
    + cbn. rewrite Hcap. apply Hm.
    + cbn. rewrite Hs. apply Hm.
Qed.

(** ** Mass cancel *)
Definition delL (id : N) L : side -> list (order C) :=
  sides (side_of_id id) (del id (L (side_of_id id))) (L (opposite (side_of_id id))).
Inductive mres := MDone L (tb tq : N) | MMissing | MOver.
Fixpoint emass (ids : list N) L (tb tq : N) : mres :=
  match ids with
  | [] => MDone L tb tq
  | id :: ids =>
      match find_order id (L (side_of_id id)) with
      | None => MMissing
      | Some o =>
          if (tb + o_qty o <? p64) && (order_quote o + tq <? p64) then
            emass ids (delL id L) (tb + o_qty o) (order_quote o + tq)
          else MOver
      end
  end.
Lemma mass_loop_ok c : forall ids m L pend tb tq,
  minv c m L pend -> seq_of m < p63 ->
  match emass ids L tb tq with
  | MDone L' tb' tq' =>
      exists m', mass_cancel_loop ids tb tq m = (Ok (tb', tq'), m') /\
        minv c m' L' pend /\ evq (m_book m') = evq (m_book m)
  | MMissing => exists m', mass_cancel_loop ids tb tq m = (Err OrderNotFound, m') \/
                  mass_cancel_loop ids tb tq m = (Panic PIndex, m')
  | MOver => exists m', mass_cancel_loop ids tb tq m = (Panic PUnwrap, m')
  end.
Proof.
  induction ids as [|id ids IH]; intros m L pend tb tq Hm Hsq; cbn [emass mass_cancel_loop].
  { exists m. done. }
  pose proof (remove_ok _ _ _ _ id Hm Hsq) as Hr. cbn zeta in Hr.
  set (sd := side_of_id id) in *.
  destruct (find_order id (L sd)) as [o|] eqn:Hf.
  - destruct Hr as (m1&Hr&Hm1&Hs1). rewrite (bind_ok _ _ _ _ _ Hr). cbn [ok_or].
    erewrite bind_lift by done. cbn zeta.
    apply find_order_Some in Hf as [Hin _].
    pose proof (mi_ok _ _ _ _ Hm sd) as Hok. rewrite Forall_forall in Hok.
    pose proof (order_quote_fp _ _ _ _ Hsq (Hok o Hin)) as Hq.
    unfold o_price, o_qty, o_id in Hq. rewrite Hq.
    change (lf_qty (fst o)) with (o_qty o). unfold checked_add, to_u64.
    destruct (N.ltb_spec (tb + o_qty o) p64); cbn [andb].
    2:{ exists m1. by apply bind_panic. }
    cbn [unwrap]. erewrite bind_lift by done.
    destruct (N.ltb_spec (order_quote o + tq) p64).
    2:{ exists m1. by apply bind_panic. }
    cbn [unwrap]. erewrite bind_lift by done.
    specialize (IH m1 (delL id L) pend (tb + o_qty o) (order_quote o + tq) Hm1
      ltac:(unfold seq_of in *; rewrite Hs1; done)).
    destruct (emass ids (delL id L) (tb + o_qty o) (order_quote o + tq)); [|done|done].
    rewrite Hs1 in IH. done.
  - exists m. destruct (stale m sd id).
    + right. by apply bind_panic.
    + left. rewrite (bind_ok _ _ _ _ _ Hr). done.
Qed.
Lemma exec_mass_cancel c m L pend ids :
  minv c m L pend -> seq_of m < p63 ->
  match emass ids L 0 0 with
  | MDone L' tb tq =>
      exists m', exec same_id (MassCancelOrders ids) m = (Ok (Some (mk_summary None tb tq 0)), m') /\
        minv c m' L' pend /\ evq (m_book m') = evq (m_book m)
  | MMissing => exec same_id (MassCancelOrders ids) m = (Err OrderNotFound, m) \/
                exec same_id (MassCancelOrders ids) m = (Panic PIndex, m)
  | MOver => exec same_id (MassCancelOrders ids) m = (Panic PUnwrap, m)
  end.
Proof.
  intros Hm Hsq. pose proof (mass_loop_ok c ids m L pend 0 0 Hm Hsq) as H.
  destruct (emass ids L 0 0).
  - destruct H as (m'&H&Hm'&Hs). exists m'. split; [|done]. apply exec_ok.
    unfold process, process_mass_cancel. by rewrite bind_assoc, (bind_ok _ _ _ _ _ H).
  - destruct H as (m'&[H|H]).
    + left. eapply exec_err. unfold process, process_mass_cancel.
      by rewrite bind_assoc, (bind_err _ _ _ _ _ H).
    + right. eapply exec_panic. unfold process, process_mass_cancel.
      by rewrite bind_assoc, (bind_panic _ _ _ _ _ H).
  - destruct H as (m'&H). eapply exec_panic. unfold process, process_mass_cancel.
    by rewrite bind_assoc, (bind_panic _ _ _ _ _ H).
Qed.

(** ** All instructions *)
Lemma exec_minv c m L pend o r m' :
  config_ok c -> minv c m L pend -> op_typed o -> seq_of m < p63 ->
  exec same_id o m = (r, m') ->
  exists L' pend', minv c m' L' pend' /\ seq_of m <= seq_of m' <= seq_of m + 1.
Proof.
  intros Hc Hm Hty Hsq He. destruct o as [p|id|ids|n].
  - pose proof (exec_new_order c m L pend p Hc Hm Hty Hsq) as H. cbn zeta in H.
    destruct (price_bad c p); [rewrite H in He; simplify_eq; exists L, pend; split; [done|lia]|].
    destruct (enew p (c_min c) (L (p_side p)) (L (opposite (p_side p))) (caps c (p_side p)) (seq_of m))
      as [E r0] eqn:Hen.
    destruct (fits c pend E); [|rewrite H in He; simplify_eq; exists L, pend; split; [done|lia]].
    destruct r0 as [[[[sm own'] opp'] seq']|];
      [|rewrite H in He; simplify_eq; exists L, pend; split; [done|lia]].
    destruct H as (m1&H&Hm1&Hs1). rewrite H in He. simplify_eq. eexists _, _. split; [done|].
    apply enew_inv in Hen as (l1&l&E1&E2&_&_&Hpc&_).
    destruct Hpc as [seq0 [[_ Hq]|(_&_&_&Hq&_)]| |]; lia.
  - pose proof (exec_cancel c m L pend id Hm Hsq) as H. cbn zeta in H.
    destruct (find_order id (L (side_of_id id))).
    + destruct H as (m1&H&Hm1&Hs1). rewrite H in He. simplify_eq. eexists _, _. split; [done|].
      unfold seq_of. rewrite Hs1. lia.
    + rewrite H in He. simplify_eq. exists L, pend. split; [done|lia].
  - pose proof (exec_mass_cancel c m L pend ids Hm Hsq) as H.
    destruct (emass ids L 0 0).
    + destruct H as (m1&H&Hm1&Hs1). rewrite H in He. simplify_eq. eexists _, _. split; [done|].
      unfold seq_of. rewrite Hs1. lia.
    + destruct H as [H|H]; rewrite H in He; simplify_eq; exists L, pend; split; done || lia.
    + rewrite H in He; simplify_eq; exists L, pend; split; done || lia.
  - destruct (exec_consume c m L pend n Hm) as (m1&H&Hm1&Hs1&_). rewrite H in He. simplify_eq.
    eexists _, _. split; [done|]. lia.
Qed.

Lemma history_minv c log m : config_ok c -> history same_id c log m ->
  N.of_nat (length log) < p63 ->
  exists L pend, minv c m L pend /\ seq_of m <= N.of_nat (length log).
Proof.
  intros Hc. unfold history. induction 1 as [|log m o r m' Hh IH Hty He]; intros Hlen.
  - exists (fun _ => []), []. split; [by apply init_minv|]. unfold seq_of, init_market. cbn. lia.
  - rewrite app_length in *. cbn [length] in *.
    destruct IH as (L&pend&Hm&Hs); [lia|].
    destruct (exec_minv _ _ _ _ _ _ _ Hc Hm Hty ltac:(lia) He) as (L'&pend'&Hm'&Hs').
    exists L', pend'. split; [done|]. lia.
Qed.
Lemma reachable_minv c m : reachable same_id c m ->
  exists L pend, minv c m L pend /\ seq_of m < p63.
Proof.
  intros (Hc&log&Hh&Hl). destruct (history_minv _ _ _ Hc Hh Hl) as (L&pend&Hm&Hs).
  exists L, pend. split; [done|]. lia.
Qed.
End MarketProofs.
