(** * LedgerFacts2.v: closing, creating, and the runtime's checks on built instructions *)
From Verif Require Import Machine Bytes Critbit EventQueue OrderBook Market Spec MachineProofs QueueProofs
  SlabProofs BookProofs EngineProofs MarketProofs MarketFacts NewOrderProps
  Layout LayoutProofs Borsh BorshProofs TypedProps Ledger LedgerSpec LedgerProofs PropsLayout
  WorldProofs FollowProofs LedgerFacts.
From Coq Require Import ZifyBool ZifyNat ZifyN.

Section Counts.
Context {C : Type} (same_id : C -> C -> bool).
Lemma leaf_count_resting c m sd : reachable same_id c m ->
  leaf_count (hdr (tree (m_book m) sd)) = N.of_nat (length (resting m sd)).
Proof.
  intros Hr. apply reachable_minv in Hr as (L&pend&Hm&_). rewrite (minv_resting _ _ _ _ _ Hm), prio_length.
  eapply lrep_count. apply (mi_rep _ _ _ _ Hm).
Qed.
Lemma q_count_pending c m : reachable same_id c m ->
  q_count (evq (m_book m)) = N.of_nat (length (pending m)).
Proof.
  intros Hr. apply reachable_minv in Hr as (L&pend&Hm&_). rewrite (minv_pending _ _ _ _ Hm).
  by pose proof (mi_q _ _ _ _ Hm) as [_ _ _ Hc _ _].
Qed.
Lemma length_0 {A} (l : list A) : N.of_nat (length l) = 0 <-> l = [].
Proof. destruct l; cbn; split; try done; lia. Qed.
End Counts.

Section Facts2.
Context (cs : nat) (same_id : bytes -> bytes -> bool) (rent_exempt : N -> nat -> bool) (pid : N).
Notation pinstr := (process_instruction cs same_id rent_exempt pid).

(** ** close_market *)
Lemma close_instr_eq l a t more d :
  pinstr (keys a ++ t :: more) (ix_close_market :: d) l =
  (do! close_market cs pid a t in ret None) l.
Proof. by destruct a. Qed.
Lemma close_instr l a t more d l' r :
  pinstr (keys a ++ t :: more) (ix_close_market :: d) l = (Ok r, l') ->
  r = None /\ close_market cs pid a t l = (Ok tt, l').
Proof.
  rewrite close_instr_eq. intros H. apply bind_inv in H as ([] & l1 & E & H). by injection H as <- <-.
Qed.
Lemma close_effect l a t l' : ledger_ok l -> close_market cs pid a t l = (Ok tt, l') -> closed l a t l'.
Proof.
  intros Hok H. pose proof (close_inv _ _ _ _ _ _ Hok H)
    as (Hrec & Hd & Htk & Hs & bs & asl & q & Hb & Ha & Hq & Z1 & Z2 & Z3).
  pose proof Hrec as (O1 & ms & d & Hm & K1 & K2 & K3).
  pose proof (market_tag_same _ _ _ (proj1 (Hok _)) Hm) as ->.
  pose proof (close_run_any cs pid l a t (mk_market (ms_min ms) (ms_tick ms) (mk_book bs asl q)) Hd O1) as Hrun.
  cbn in Hrun. rewrite Hm, <- K1, <- K2, <- K3, Z1, Z2, Z3 in Hrun. cbn in Hrun.
  rewrite K1, K2, K3 in Hrun.
  destruct Hrun as (l1 & E & Hl1); try done. { rewrite <- K1, <- K2, <- K3. by destruct ms. }
  rewrite H in E. by injection E as <-.
Qed.

Lemma close_exact c l a m t more d : ledger_ok l -> opens cs pid l a m -> reachable same_id c m ->
  (exists l', pinstr (keys a ++ t :: more) (ix_close_market :: d) l = (Ok None, l')) <->
  (resting m Bid = [] /\ resting m Ask = [] /\ pending m = [] /\ t ∉ keys a /\
   a_lamports (l t) + close_total l a < p64).
Proof.
  intros Hok Ho Hr. pose proof (leaf_count_resting _ _ _ Bid Hr) as Cb.
  pose proof (leaf_count_resting _ _ _ Ask Hr) as Ca. pose proof (q_count_pending _ _ _ Hr) as Cq.
  cbn [tree] in Cb, Ca. split.
  - intros [l' H]. apply close_instr in H as [_ H].
    destruct (close_inv _ _ _ _ _ _ Hok H) as (_ & _ & Htk & Hs & bs & asl & q & Hb & Ha & Hq & Z1 & Z2 & Z3).
    destruct Ho as [_ _ _ Hb' Ha' Hq']. rewrite Hb in Hb'. rewrite Ha in Ha'. rewrite Hq in Hq'.
    apply Ok_inj in Hb' as ->. apply Ok_inj in Ha' as ->. apply Ok_inj, pair_inj in Hq' as [-> _].
    split_and!; try done; apply length_0; congruence.
  - intros (R1 & R2 & R3 & Htk & Hs). pose proof (close_run cs pid l a t m Hok Ho) as Hrun.
    rewrite Cb, Ca, Cq, R1, R2, R3 in Hrun. cbn in Hrun.
    destruct (Hrun Htk Hs) as (l' & E & _). exists l'. rewrite close_instr_eq. unfold bind. by rewrite E.
Qed.
Lemma close_active c l a m t more d : ledger_ok l -> opens cs pid l a m -> reachable same_id c m ->
  resting m Bid <> [] \/ resting m Ask <> [] \/ pending m <> [] ->
  fst (pinstr (keys a ++ t :: more) (ix_close_market :: d) l) = Err MarketStillActive.
Proof.
  intros Hok Ho Hr Hne. pose proof (leaf_count_resting _ _ _ Bid Hr) as Cb.
  pose proof (leaf_count_resting _ _ _ Ask Hr) as Ca. pose proof (q_count_pending _ _ _ Hr) as Cq.
  cbn [tree] in Cb, Ca. rewrite close_instr_eq.
  pose proof (close_run cs pid l a t m Hok Ho) as Hrun. rewrite Cb, Ca, Cq in Hrun.
  destruct (_ && _) eqn:E in Hrun.
  - apply andb_prop in E as [E E3]. apply andb_prop in E as [E1 E2]. apply N.eqb_eq in E1, E2, E3.
    apply length_0 in E1, E2, E3. naive_solver.
  - unfold bind. destruct (close_market cs pid a t l) as [[]]; cbn in *; congruence.
Qed.

(** ** create_market *)
Lemma create_instr_eq l a p more : create_typed p ->
  pinstr (keys a ++ more) (ix_create_market :: wr_create p) l =
  (do! create_market cs rent_exempt pid a p in ret None) l.
Proof.
  intros Hp. unfold process_instruction. change (ix_create_market =? ix_create_market) with true. cbv iota.
  destruct a. cbn [keys app parse_accounts Ledger.ac_market Ledger.ac_queue Ledger.ac_bids Ledger.ac_asks]. rewrite bind_ok.
  assert (Hb : bytes_ok (wr_create p)).
  { unfold wr_create. unfold bytes_ok. repeat first [apply Forall_app; split | apply le_enc_ok]. }
  unfold decode. rewrite (proj2 (C44_create (wr_create p) p Hb)) by done. cbn [ok_or]. by rewrite bind_ok.
Qed.
Lemma create_instr_iff l a p more : create_typed p ->
  (exists l', pinstr (keys a ++ more) (ix_create_market :: wr_create p) l = (Ok None, l')) <->
  creatable cs pid rent_exempt l a p.
Proof.
  intros Hp. rewrite create_instr_eq by done. split.
  - intros [l' H]. apply bind_inv in H as ([] & l1 & E & _). by eapply create_inv.
  - intros H. destruct (create_run _ _ _ _ _ _ H) as (l' & E & _). exists l'. unfold bind. by rewrite E.
Qed.
Lemma create_instr l a p more r l' : create_typed p ->
  pinstr (keys a ++ more) (ix_create_market :: wr_create p) l = (Ok r, l') ->
  r = None /\ creatable cs pid rent_exempt l a p /\ created l a p l'.
Proof.
  intros Hp. rewrite create_instr_eq by done. intros H. apply bind_inv in H as ([] & l1 & E & H).
  injection H as <- <-. pose proof (create_inv _ _ _ _ _ _ _ E) as Hc. split_and!; [done..|].
  destruct (create_run _ _ _ _ _ _ Hc) as (l' & E' & ?). rewrite E in E'. by injection E' as <-.
Qed.
Lemma creatable_iff l a p : ledger_ok l -> creatable cs pid rent_exempt l a p <->
  (NoDup (keys a) /\
   (a_owner (l (ac_queue a)) = pid /\ a_owner (l (ac_bids a)) = pid /\ a_owner (l (ac_asks a)) = pid) /\
   (forall k, k ∈ keys a -> rent_exempt (a_lamports (l k)) (length (a_data (l k))) = true) /\
   (0 < cp_min p /\ 0 < cp_tick p) /\
   (length (a_data (l (ac_market a))) = 120%nat /\ read_tag (a_data (l (ac_market a))) = Ok 0) /\
   ((exists n, (5 <= n)%nat /\ length (a_data (l (ac_queue a))) = queue_allocation_size cs n) /\
    cs <> 0%nat /\ read_tag (a_data (l (ac_queue a))) = Ok 0) /\
   (idx (a_data (l (ac_bids a))) 0 = Ok 0 /\ idx (a_data (l (ac_asks a))) 0 = Ok 0)).
Proof.
  intros Hok. split.
  - intros [Hd O1 O2 O3 Hre Hmin Htk Ml Mt Qs Qt Qo Bt At]. split_and!; try done; try lia.
    + by apply C42_accepted_sizes.
    + unfold is_ok in Qo. destruct (queue_from_buffer cs (a_data (l (ac_queue a))) 0) as [[q d]| | |] eqn:E; try done.
      by apply (queue_from_ok cs _ _ _ _ (proj1 (Hok _))) in E as (_ & ? & _).
  - intros (Hd & (O1 & O2 & O3) & Hre & (Hmin & Htk) & (Ml & Mt) & ((n & Hn & Hl) & Hcs & Qt) & (Bt & At)).
    split; try done; try lia.
    + apply C42_accepted_sizes. by exists n.
    + destruct (C42_open cs n _ 0 Hcs Hl (proj1 (Hok _)) Qt) as (q & -> & _). done.
Qed.

(** ** Configuration of a created market *)
Lemma new_config_ok p nb na ne xb xa lb la lq : create_typed p -> 0 < cp_min p -> 0 < cp_tick p ->
  N.of_nat lb <= 10485760 -> N.of_nat la <= 10485760 -> N.of_nat lq <= 10485760 ->
  slab_room cs lb nb xb -> slab_room cs la na xa -> (5 <= ne)%nat -> lq = queue_allocation_size cs ne ->
  config_ok (new_config cs p nb na ne xb xa).
Proof.
  intros [T1 T2] H1 H2 L1 L2 L3 (B1 & B2 & _) (A1 & A2 & _) Hne Hq. rewrite C42_allocation_size in Hq.
  unfold config_ok. cbn. change p31 with 2147483648. split_and!; try done; try nia.
Qed.

(** ** The runtime accepts what the built instructions do *)
Lemma runtime_ok_intro ms l l' :
  (forall k, k ∈ map mt_key ms ->
     (a_data (l' k) = a_data (l k) \/ (a_owner (l k) = pid /\ writable ms k = true)) /\
     (a_lamports (l' k) = a_lamports (l k) \/ writable ms k = true) /\
     (a_lamports (l k) <= a_lamports (l' k) \/ a_owner (l k) = pid)) ->
  total_lamports (remove_dups (map mt_key ms)) l' = total_lamports (remove_dups (map mt_key ms)) l ->
  runtime_ok pid ms l l' = true.
Proof.
  intros H Ht. unfold runtime_ok. rewrite Ht, N.eqb_refl, andb_true_r. apply forallb_forall.
  intros k Hk. apply elem_of_list_In in Hk. rewrite elem_of_remove_dups in Hk.
  destruct (H k Hk) as (H1 & H2 & H3). unfold account_ok.
  apply andb_true_intro; split; [apply andb_true_intro; split|]; apply orb_true_iff.
  - destruct H1 as [H1|[H1 H1']]; [left; by apply bool_decide_eq_true|right]. by rewrite H1, H1', N.eqb_refl.
  - destruct H2 as [->|H2]; [left; apply N.eqb_refl|by right].
  - destruct H3 as [H3|H3]; [left; by apply N.leb_le|right; by apply N.eqb_eq].
Qed.
Lemma writable_in ms k : In (mk_meta k true) ms -> writable ms k = true.
Proof.
  intros H. unfold writable. apply existsb_exists. exists (mk_meta k true). cbn. by rewrite N.eqb_refl.
Qed.

(** ** Built instructions *)
Notation entry := (entrypoint cs same_id rent_exempt pid).
Lemma entry_answer ks reg data l :
  entry (ks ++ [reg]) data l = answer reg (pinstr ks data) l.
Proof.
  unfold entrypoint, answer. rewrite split_last_app. cbn [unwrap]. rewrite bind_ok. cbn [fst snd].
  unfold bind at 1. destruct (pinstr ks data l) as [[r| | |] l1]; try reflexivity.
  unfold bind at 1, borrow. rewrite bind_get. cbn [existsb]. unfold ret at 1. cbv zeta.
  destruct (_ <? _)%nat; reflexivity.
Qed.
Lemma answer_ext reg f g l : f l = g l -> answer reg f l = answer reg g l.
Proof. unfold answer. by intros ->. Qed.
Lemma op_instr_eq (l : ledger) a more o : op_bytes_typed cs o ->
  pinstr (op_keys a o ++ more) (op_data o) l =
  match o with
  | NewOrder p => (let! s := new_order_l cs same_id pid a p in ret (Some s)) l
  | CancelOrder id => (let! s := cancel_order_l cs pid a id in ret (Some s)) l
  | MassCancelOrders ids => (let! s := mass_cancel_l cs pid a ids in ret (Some s)) l
  | ConsumeEvents n => (do! consume_events_l cs pid (ac_market a) (ac_queue a) n in ret None) l
  end.
Proof.
  intros Ht. destruct o as [p|id|ids|n]; cbn [op_keys op_data keys app] in *; cbn [op_bytes_typed] in Ht;
    unfold process_instruction.
  - change (ix_new_order =? ix_create_market) with false. change (ix_new_order =? ix_new_order) with true.
    cbv iota. cbn [parse_accounts]. rewrite bind_ok. unfold decode.
    rewrite (proj2 (C44_new_order cs (wr_new_order p) p (wr_new_order_ok cs p Ht))) by done.
    cbn [ok_or]. rewrite bind_ok. by destruct a.
  - change (ix_cancel_order =? ix_create_market) with false. change (ix_cancel_order =? ix_new_order) with false.
    change (ix_cancel_order =? ix_consume_events) with false. change (ix_cancel_order =? ix_cancel_order) with true.
    cbv iota. cbn [parse_accounts]. rewrite bind_ok. unfold decode.
    rewrite (proj2 (C44_cancel (wr_cancel id) id (le_enc_ok _ _))) by done.
    cbn [ok_or]. rewrite bind_ok. by destruct a.
  - change (ix_mass_cancel_orders =? ix_create_market) with false.
    change (ix_mass_cancel_orders =? ix_new_order) with false.
    change (ix_mass_cancel_orders =? ix_consume_events) with false.
    change (ix_mass_cancel_orders =? ix_cancel_order) with false.
    change (ix_mass_cancel_orders =? ix_close_market) with false.
    change (ix_mass_cancel_orders =? ix_mass_cancel_orders) with true.
    cbv iota. cbn [parse_accounts]. rewrite bind_ok. unfold decode.
    rewrite (proj2 (C44_mass_cancel (wr_mass_cancel ids) ids (wr_mass_cancel_ok ids))) by done.
    cbn [ok_or]. rewrite bind_ok. by destruct a.
  - change (ix_consume_events =? ix_create_market) with false.
    change (ix_consume_events =? ix_new_order) with false.
    change (ix_consume_events =? ix_consume_events) with true.
    cbv iota. cbn [parse_consume]. rewrite bind_ok. unfold decode.
    rewrite (proj2 (C44_consume (wr_consume n) n (le_enc_ok _ _))) by done.
    cbn [ok_or]. by rewrite bind_ok.
Qed.

Lemma execute_intro ms data l r l' : entry (map mt_key ms) data l = (Ok r, l') ->
  runtime_ok pid ms l l' = true -> execute cs same_id rent_exempt pid ms data l = (Ok r, l').
Proof. unfold execute. by intros -> ->. Qed.

(** Registers outside the accounts of the instruction. *)
Lemma register_frame ks reg data l r l' : reg ∉ ks -> entry (ks ++ [reg]) data l = (Ok r, l') ->
  exists l1, pinstr ks data l = (Ok r, l1) /\ (forall k, k <> reg -> l' k = l1 k) /\
    a_owner (l' reg) = a_owner (l reg) /\ a_lamports (l' reg) = a_lamports (l reg).
Proof.
  intros Hreg H. apply entrypoint_inv in H as (l1 & Hc & _ & ->). exists l1.
  pose proof (instr_frame _ _ _ _ _ _ _ _ _ Hc reg) as [E _].
  split_and!; [done| |..].
  - intros k Hk. by apply set_account_ne.
  - rewrite set_account_eq. cbn. rewrite E; [done|]. intros X. by apply used_in in X.
  - rewrite set_account_eq. cbn. rewrite E; [done|]. intros X. by apply used_in in X.
Qed.
Lemma op_data_inj o o' : op_bytes_typed cs o -> op_bytes_typed cs o' -> op_data o = op_data o' -> o = o'.
Proof. intros H H' E. apply (op_of_op_data cs) in H, H'. congruence. Qed.
Lemma op_data_not_create o d : op_data o <> ix_create_market :: d.
Proof. by destruct o. Qed.
Lemma op_data_not_close o d : op_data o <> ix_close_market :: d.
Proof. by destruct o. Qed.
Lemma op_data_ok o : op_bytes_typed cs o -> bytes_ok (op_data o).
Proof.
  destruct o; cbn [op_data op_bytes_typed]; intros H; apply Forall_cons; (split; [done|]).
  - by apply (wr_new_order_ok cs).
  - apply le_enc_ok.
  - apply wr_mass_cancel_ok.
  - apply le_enc_ok.
Qed.
Lemma op_keys_inj a a' o more : op_keys a o = op_keys a' o ++ more ->
  ac_market a = ac_market a' /\ ac_queue a = ac_queue a' /\
  match o with ConsumeEvents _ => True | _ => a = a' end.
Proof.
  destruct o; cbn [op_keys keys app]; intros H; injection H; intros; subst; split_and!; try done;
    destruct a, a'; cbn in *; congruence.
Qed.

Lemma op_keys_inj2 a a' o more more' : op_keys a o ++ more = op_keys a' o ++ more' ->
  ac_market a = ac_market a' /\ ac_queue a = ac_queue a' /\
  match o with ConsumeEvents _ => True | _ => a = a' end.
Proof.
  destruct o; cbn [op_keys keys app]; intros H; injection H; intros; subst; split_and!; try done;
    destruct a, a'; cbn in *; congruence.
Qed.

Lemma op_accepted_more a o more reg ms l r l' : wf_ledger cs pid l -> op_bytes_typed cs o ->
  reg ∉ op_keys a o ++ more -> a_owner (l reg) = pid -> map mt_key ms = (op_keys a o ++ more) ++ [reg] ->
  (forall k, k ∈ tail (op_keys a o) \/ k = reg -> In (mk_meta k true) ms) ->
  entry (map mt_key ms) (op_data o) l = (Ok r, l') ->
  execute cs same_id rent_exempt pid ms (op_data o) l = (Ok r, l').
Proof.
  intros W Ht Hreg Ho Hms Hw He. apply execute_intro; [done|]. rewrite Hms in He.
  destruct (register_frame _ _ _ _ _ _ Hreg He) as (l1 & Hc & Hsame & Hro & Hrl).
  assert (Hlam : forall k, a_lamports (l' k) = a_lamports (l k)).
  { intros k. destruct (N.eq_dec k reg) as [->|Hk]; [done|]. rewrite Hsame by done.
    destruct (op_data o) as [|t d] eqn:E; [by destruct o|].
    eapply instr_lamports; [exact Hc|]. intros ->. by apply (op_data_not_close o d). }
  apply runtime_ok_intro; [|by apply total_same].
  intros k Hk. rewrite Hms in Hk. rewrite Hlam. split; [|split; [by left|left; lia]].
  destruct (N.eq_dec k reg) as [->|Hkr].
  { right. split; [done|]. apply writable_in, Hw. by right. }
  destruct (call_effect _ _ _ _ _ _ _ _ _ W (op_data_ok o Ht) Hc)
    as [a' p more' _ E|a' o' more' E Ed Ht' Hr Hta|a' t more' d m _ E].
  { by apply op_data_not_create in E. }
  2:{ by apply op_data_not_close in E. }
  apply (op_data_inj o o' Ht Ht') in Ed as <-. apply op_keys_inj2 in E as (Em & Eq & Ea).
  pose proof (w_market _ _ _ W a' Hr) as Wa.
  destruct (keys_distinct _ (wf_distinct _ _ _ _ Wa)) as (D1&D2&D3&D4&D5&D6).
  rewrite Hsame by done. destruct (N.eq_dec k (ac_market a)) as [->|Hkm].
  - left. destruct (Hta (ac_market a)) as (_&_&_&_&_&->); congruence.
  - destruct (decide (k ∈ op_keys a o)) as [Hk'|Hk'].
    2:{ left. destruct (instr_frame _ _ _ _ _ _ _ _ _ Hc k) as [Hf _]. rewrite Hf; [done|].
        by destruct o. }
    assert (Htl : k ∈ tail (op_keys a o)) by (destruct o; cbn [op_keys keys tail] in *; by apply elem_of_cons in Hk' as [?|?]).
    right. split; [|apply writable_in, Hw; by left]. apply (wf_owned _ _ _ _ Wa).
    destruct o; cbn [op_keys] in *; [by subst a'..|]. apply elem_of_list_singleton in Htl.
    apply elem_keys. right; left. congruence.
Qed.
Lemma op_accepted a o reg ms l r l' : wf_ledger cs pid l -> op_bytes_typed cs o ->
  reg ∉ op_keys a o -> a_owner (l reg) = pid -> map mt_key ms = op_keys a o ++ [reg] ->
  (forall k, k ∈ tail (op_keys a o) \/ k = reg -> In (mk_meta k true) ms) ->
  entry (map mt_key ms) (op_data o) l = (Ok r, l') ->
  execute cs same_id rent_exempt pid ms (op_data o) l = (Ok r, l').
Proof.
  intros W Ht Hreg Ho Hms. by apply (op_accepted_more a o [] reg ms l r l' W Ht); rewrite ?app_nil_r.
Qed.
Lemma create_accepted a p reg l r l' : create_typed p -> reg ∉ keys a -> a_owner (l reg) = pid ->
  a_owner (l (ac_market a)) = pid ->
  let i := build_create_market a reg p in
  entry (map mt_key (i_metas i)) (i_data i) l = (Ok r, l') ->
  execute cs same_id rent_exempt pid (i_metas i) (i_data i) l = (Ok r, l').
Proof.
  intros Hp Hreg Ho Hom i He. apply execute_intro; [done|].
  change (map mt_key (i_metas i)) with (keys a ++ [reg]) in *. change (i_data i) with (ix_create_market :: wr_create p) in *.
  destruct (register_frame _ _ _ _ _ _ Hreg He) as (l1 & Hc & Hsame & Hro & Hrl).
  assert (Hlam : forall k, a_lamports (l' k) = a_lamports (l k)).
  { intros k. destruct (N.eq_dec k reg) as [->|Hk]; [done|]. rewrite Hsame by done.
    by eapply instr_lamports; [exact Hc|]. }
  apply runtime_ok_intro; [|by apply total_same].
  intros k Hk. rewrite Hlam. split; [|split; [by left|left; lia]]. right.
  rewrite <- (app_nil_r (keys a)) in Hc. apply create_instr in Hc as (_ & Hcr & _); [|done].
  change (map mt_key (i_metas i)) with (keys a ++ [reg]) in Hk. destruct Hcr.
  rewrite elem_of_app, elem_keys in Hk. split; [set_solver|]. apply writable_in. cbn. set_solver.
Qed.
Lemma close_accepted a t reg l r l' : wf_ledger cs pid l -> reg ∉ keys a -> reg <> t -> a_owner (l reg) = pid ->
  let i := build_close_market a t reg in
  entry (map mt_key (i_metas i)) (i_data i) l = (Ok r, l') ->
  execute cs same_id rent_exempt pid (i_metas i) (i_data i) l = (Ok r, l').
Proof.
  intros W Hreg Hrt Ho i He. apply execute_intro; [done|].
  change (map mt_key (i_metas i)) with ((keys a ++ [t]) ++ [reg]) in *. change (i_data i) with ([ix_close_market]) in *.
  assert (Hreg' : reg ∉ keys a ++ [t]) by set_solver.
  destruct (register_frame _ _ _ _ _ _ Hreg' He) as (l1 & Hc & Hsame & Hro & Hrl).
  apply close_instr in Hc as [_ Hc]. pose proof (close_effect _ _ _ _ (w_ok _ _ _ W) Hc) as Hcl.
  destruct (close_inv _ _ _ _ _ _ (w_ok _ _ _ W) Hc) as (Hrec & Hd & Htk & _).
  pose proof (w_market _ _ _ W a Hrec) as Wa.
  assert (Hlam : forall k, a_lamports (l' k) = a_lamports (l1 k)).
  { intros k. destruct (N.eq_dec k reg) as [->|Hk]; [|by rewrite Hsame]. rewrite Hrl, Hcl.
    apply not_held in Hreg. rewrite Hreg. by destruct (N.eqb_spec reg t). }
  apply runtime_ok_intro.
  - change (map mt_key (i_metas i)) with ((keys a ++ [t]) ++ [reg]). intros k Hk.
    assert (Hwr : writable (i_metas i) k = true).
    { apply writable_in. cbn. rewrite !elem_of_app, elem_keys in Hk. set_solver. }
    rewrite Hlam. split_and!; [|by right|].
    + destruct (N.eq_dec k reg) as [->|Hkr]; [by right|]. rewrite Hsame by done.
      destruct (decide (k ∈ keys a)) as [Hka|Hka].
      * right. split; [by apply (wf_owned _ _ _ _ Wa)|done].
      * left. by apply (closed_other cs rent_exempt _ _ _ _ _ Hcl Hka).
    + destruct (decide (k ∈ keys a)) as [Hka|Hka]; [right; by apply (wf_owned _ _ _ _ Wa)|].
      left. by apply (closed_other cs rent_exempt _ _ _ _ _ Hcl Hka).
  - change (map mt_key (i_metas i)) with ((keys a ++ [t]) ++ [reg]).
    transitivity (total_lamports (remove_dups ((keys a ++ [t]) ++ [reg])) l1); [apply total_same; try done; intros; apply Hlam|].
    eapply closed_total with (l := l) (a := a) (t := t); try done.
    + apply NoDup_remove_dups.
    + intros k Hk. apply elem_of_remove_dups. set_solver.
    + apply elem_of_remove_dups. set_solver.
Qed.

(** A call is a step when the runtime's rule holds of the accounts it uses. *)
Lemma call_step l ks data r :
  fst (pinstr ks data l) = Ok r ->
  let l' := snd (pinstr ks data l) in
  Forall (fun k => a_owner (l k) = pid \/ (a_data (l' k) = a_data (l k) /\ a_lamports (l k) <= a_lamports (l' k)))
    (used ks data) ->
  Forall (fun k => k < 256 ^ 32) ks -> bytes_ok data ->
  ledger_step cs same_id rent_exempt pid l (Call ks data r) l'.
Proof.
  intros H l' Hu Hks Hd. assert (Hc : pinstr ks data l = (Ok r, l')).
  { unfold l'. rewrite <- H. by destruct (pinstr ks data l). }
  constructor; try done. intros k Hk. destruct (decide (k ∈ used ks data)) as [Hin|Hin].
  - destruct (proj1 (Forall_forall _ _) Hu k Hin) as [?|[E1 E2]]; [done|]. destruct Hk; [done|lia].
  - destruct (instr_frame _ _ _ _ _ _ _ _ _ Hc k) as [E _]. rewrite (E Hin) in Hk. destruct Hk; [done|lia].
Qed.
End Facts2.
