(** * PropsWasmTree.v: the writing half of js/wasm/src/critbit.rs (C70) *)
From Verif Require Import Machine Bytes Critbit EventQueue OrderBook Market Spec MachineProofs
  QueueProofs TreeProofs Check CheckProofs Layout LayoutProofs BookProofs JsProofs JsQueueProofs Wasm WasmSpec WasmProofs
  PropsWasm WasmTree WasmTreeSpec WasmTreeProofs.
From Coq Require Import ZifyBool ZifyNat ZifyN.
From Coq Require Import Sorting.Sorted.

(** ** Removal *)
(** Removing the id of an order returns that order and leaves all others; its slot, and
    that of the inner node above it, become free and will be the next ones to be reused.
    The account keeps its size, owner tag and market. *)
Theorem C70_remove : forall s os free loose o, old_slab s os free loose -> o ∈ os ->
  exists s' freed n,
  (forall fuel, (n <= fuel)%nat ->
     w_remove_by_key fuel (o_id o) s = (Ok (Some (WLeaf (mk_w_leaf (o_id o) (o_cb o) (o_qty o)))), s')) /\
  old_slab s' (List.filter (fun x => negb (o_id x =? o_id o)) os) (freed ++ free) loose /\
  length freed = (if (length os =? 1)%nat then 1 else 2)%nat /\
  wh_bump (ws_header s') = wh_bump (ws_header s) /\ same_account s s'.
Proof.
  intros s os free loose o Hs Ho. destruct (remove_present s os free loose o Hs Ho) as (s'&freed&n&H1&H2&H3&H4&H5).
  exists s', freed, n. split_and!; try done; apply H5.
Qed.
(** Removing an id that no order has changes nothing and returns nothing: it does not fail,
    whatever the free slots contain. *)
Theorem C70_remove_absent : forall s os free loose k, old_slab s os free loose -> k ∉ map o_id os ->
  exists n, forall fuel, (n <= fuel)%nat -> w_remove_by_key fuel k s = (Ok None, s).
Proof. exact remove_absent. Qed.
(** [remove_min] and [remove_max] remove the order with the lowest and with the highest id. *)
Theorem C70_remove_extreme : forall s os free loose (find_max : bool), old_slab s os free loose ->
  StronglySorted (fun x y => o_id x < o_id y) os /\
  match (if find_max then last os else head os) with
  | None => exists n, forall fuel, (n <= fuel)%nat -> w_remove_extreme fuel find_max s = (Ok None, s)
  | Some o => exists s' freed n,
      (forall fuel, (n <= fuel)%nat ->
         w_remove_extreme fuel find_max s = (Ok (Some (WLeaf (mk_w_leaf (o_id o) (o_cb o) (o_qty o)))), s')) /\
      old_slab s' (List.filter (fun x => negb (o_id x =? o_id o)) os) (freed ++ free) loose /\ same_account s s'
  end.
Proof.
  intros s os free loose mx Hs. split.
  { destruct (sl_tree _ _ _ _ Hs) as (slots&[[-> _]|(t&->&_&_&Hst&Hsh)]&_); [constructor|].
    apply ss_mapR. exact (shape_sorted _ _ _ _ _ Hst Hsh). }
  pose proof (remove_extreme_ok s os free loose mx Hs) as H.
  assert (Hin : forall o, (if mx then last os else head os) = Some o -> o ∈ os).
  { intros o Ho. destruct mx; [by apply last_Some_elem_of|by apply head_Some_elem_of]. }
  destruct (if mx then last os else head os) as [o|] eqn:E; [|exact H]. destruct H as (n1&H).
  destruct (C70_remove s os free loose o Hs (Hin o eq_refl)) as (s'&freed&n2&H1&H2&_&_&H3).
  exists s', freed, (n1 + n2)%nat. split; [|done]. intros fuel Hf. rewrite H by lia. apply H1. lia.
Qed.

(** ** Allocation *)
Lemma fits_length s val : N.of_nat (ws_cs s) + 25 <= ws_slot s /\ 32 <= ws_slot s -> node_fits s val ->
  (length (w_node_bytes val) <= N.to_nat (ws_slot s))%nat.
Proof.
  intros Hr Hf. apply (node_bytes_length (ws_cs s)); [lia..|]. intros l ->. by destruct Hf as (_&_&?).
Qed.
Lemma fits_read s h val : N.of_nat (length (ws_buffer s)) < p32 -> node_fits s val ->
  slot_holds (ws_buffer s) (N.to_nat (ws_slot s)) h (w_node_bytes val) -> w_get_node s h = Ok (Some val).
Proof.
  intros Hmem Hf Hh. destruct val as [|[pl k c0 c1]|[k cb q]|x|x]; cbn [node_fits wi_plen wi_key wi_c0 wi_c1 wl_key wl_qty wl_cb] in Hf.
  - by destruct (get_holds s Hmem _ _ Hh) as (r&->).
  - destruct Hf as (?&?&?&?). by apply get_inner.
  - destruct Hf as (H1&H2&H3). exact (get_leaf s Hmem h (mk_leaf k q, cb) Hh (conj H1 (conj H2 H3))).
  - by apply get_free.
  - rewrite (get_last_free_mod s h x Hmem Hh). by rewrite N.mod_small.
Qed.
(** [insert] writes the node to the free slot released last, or to the first slot never
    used; it fails, changing nothing, exactly when there is neither.  The orders and all
    other slots stay as they are. *)
Theorem C70_insert : forall s os free loose val, old_slab s os free loose -> node_fits s val ->
  match free with
  | h :: free' => exists s', w_insert val s = (Ok (Some h), s') /\ old_slab s' os free' (h :: loose) /\
      w_get_node s' h = Ok (Some val) /\ (forall x, x <> h -> slot_kept s s' x) /\ same_account s s'
  | [] =>
      let h := wh_bump (ws_header s) in
      if 65 + (h + 1) * ws_slot s <=? N.of_nat (length (ws_buffer s)) then
        exists s', w_insert val s = (Ok (Some h), s') /\ old_slab s' os [] (h :: loose) /\
          w_get_node s' h = Ok (Some val) /\ (forall x, x <> h -> slot_kept s s' x) /\ same_account s s'
      else w_insert val s = (Ok None, s)
  end.
Proof.
  intros s os free loose val Hs Hf. pose proof (fits_length s val (sl_room _ _ _ _ Hs) Hf) as Hlen.
  assert (Hread : forall s' os' free' loose' h, old_slab s' os' free' loose' -> same_account s s' ->
    slot_holds (ws_buffer s') (N.to_nat (ws_slot s)) h (w_node_bytes val) -> w_get_node s' h = Ok (Some val)).
  { intros s' os' free' loose' h Hs' (_&_&_&E1&E2) Hh. rewrite <- E2 in Hh.
    apply fits_read; [exact (sl_memory _ _ _ _ Hs')| |done].
    destruct val; try exact Hf. cbn in Hf |- *. by rewrite E1. }
  destruct free as [|h free].
  - pose proof (insert_bump s os loose val Hs Hlen) as H. cbv zeta in H |- *.
    destruct (_ <=? _); [|exact H]. destruct H as (s'&H1&H2&H3&H4&H5). exists s'. split_and!; try done.
    by eapply Hread.
  - destruct (insert_free s os h free loose val Hs Hlen) as (s'&H1&H2&H3&H4&H5). exists s'. split_and!; try done.
    by eapply Hread.
Qed.

(** ** Reading *)
(** [find_by_key] returns the slot of the order with that id, and nothing if there is none. *)
Theorem C70_find_by_key : forall s os free loose k, old_slab s os free loose -> k < p128 ->
  exists r n, (forall fuel, (n <= fuel)%nat -> w_find_by_key fuel s k = Ok r) /\
  match r with
  | Some h => exists o, o ∈ os /\ o_id o = k /\ w_get_node s h = Ok (Some (WLeaf (mk_w_leaf (o_id o) (o_cb o) (o_qty o))))
  | None => k ∉ map o_id os
  end.
Proof.
  intros s os free loose k Hs Hk. pose proof (sl_memory _ _ _ _ Hs) as Hmem. pose proof (sl_room _ _ _ _ Hs) as Hroom.
  destruct (slab_leaves _ _ _ _ Hs) as (leaves&<-&[[-> Hr]|(t&->&Hr&Hst&Hsh)]).
  - exists None, 0%nat. split; [|by apply not_elem_of_nil]. intros fuel _. unfold w_find_by_key. by rewrite Hr.
  - destruct (find_key_ok s Hmem Hroom k t Hk 0 Hst Hsh) as (n&Hn).
    exists (slot_of k (oleaves t)), n. split.
    { intros fuel Hf. unfold w_find_by_key. rewrite Hr. by apply Hn. }
    unfold slot_of. destruct (List.find _ (oleaves t)) as [[h o]|] eqn:E; cbn.
    + apply find_some in E as [E1 E2]. cbn in E2. apply N.eqb_eq in E2. apply elem_of_list_In in E1.
      exists o. split; [by apply (elem_of_list_fmap_1 snd) in E1|]. split; [done|].
      destruct (stored_order _ _ _ _ _ _ Hst E1) as [H1 H2]. exact (get_leaf s Hmem h o H1 H2).
    + intros Hin. apply elem_of_list_fmap in Hin as (o&->&Hin). apply elem_of_list_fmap in Hin as ([h o']&->&Hin).
      pose proof (find_none _ _ E (h, o')) as Hno. cbn in Hno. rewrite N.eqb_refl in Hno.
      apply elem_of_list_In in Hin. by specialize (Hno Hin).
Qed.
(** [find_node_sequence] returns the slots of the first [depth] orders, lowest id first or
    highest id first. *)
Theorem C70_find_node_sequence : forall s os free loose depth (increasing : bool), old_slab s os free loose ->
  depth < 536870912 -> exists slots n,
  Forall2 (fun h o => w_get_node s h = Ok (Some (WLeaf (mk_w_leaf (o_id o) (o_cb o) (o_qty o))))) slots
    (take (N.to_nat depth) (if increasing then os else rev os)) /\
  forall fuel, (n <= fuel)%nat -> w_find_node_sequence fuel s depth increasing = Ok slots.
Proof.
  intros s os free loose depth inc Hs Hd. pose proof (sl_memory _ _ _ _ Hs) as Hmem. pose proof (sl_room _ _ _ _ Hs) as Hroom.
  destruct (slab_leaves _ _ _ _ Hs) as (leaves&<-&[[-> Hr]|(t&->&Hr&Hst&Hsh)]).
  - exists [], 0%nat. split; [destruct inc; cbn; rewrite take_nil; constructor|].
    intros fuel _. unfold w_find_node_sequence. by rewrite Hr.
  - destruct (seq_loop_ok s Hmem Hroom depth inc t 0 Hst Hsh) as (n&Hn).
    exists (take (N.to_nat depth) (map fst (if inc then oleaves t else rev (oleaves t)))), (n + 1)%nat. split.
    + assert (E : (if inc then map snd (oleaves t) else rev (map snd (oleaves t))) =
        map snd (if inc then oleaves t else rev (oleaves t))) by (destruct inc; [done|by rewrite map_rev]).
      rewrite E. apply Forall2_take.
      assert (Hall : forall h o, (h, o) ∈ (if inc then oleaves t else rev (oleaves t)) ->
        w_get_node s h = Ok (Some (WLeaf (mk_w_leaf (o_id o) (o_cb o) (o_qty o))))).
      { intros h o Ho. assert (Ho' : (h, o) ∈ oleaves t).
        { destruct inc; [done|]. apply elem_of_list_In in Ho. apply in_rev in Ho. by apply elem_of_list_In. }
        destruct (stored_order _ _ _ _ _ _ Hst Ho') as [H1 H2]. exact (get_leaf s Hmem h o H1 H2). }
      revert Hall. generalize (if inc then oleaves t else rev (oleaves t)). clear. intros l.
      induction l as [|[h o] l IH]; intros Hall; [constructor|]. cbn. constructor; [apply Hall; left|].
      apply IH. intros ???. apply Hall. by right.
    + intros fuel Hf. unfold w_find_node_sequence. rewrite Hr.
      destruct (N.leb_spec 2147483648 (4 * depth)) as [?|_]; [lia|].
      replace fuel with (n + S (fuel - n - 1))%nat by lia. rewrite Hn by (cbn; lia). cbn [app].
      cbn [w_seq_loop]. by destruct (_ =? _).
Qed.
(** The test function [check_invariants] accepts every slab in which all slots that were
    handed out are linked. *)
Theorem C70_check_invariants : forall s os free, old_slab s os free [] ->
  exists n, forall fuel, (n <= fuel)%nat -> w_check_invariants fuel s = Ok tt.
Proof.
  intros s os free Hs. pose proof (sl_memory _ _ _ _ Hs) as Hmem. pose proof (sl_room _ _ _ _ Hs) as Hroom.
  destruct (sl_tree _ _ _ _ Hs) as (slots&Htree&Hnd&Hall).
  assert (Hcount : N.of_nat (length slots) + N.of_nat (length free) = wh_bump (ws_header s)).
  { rewrite app_nil_r in Hnd, Hall.
    assert (Hp : slots ++ free ≡ₚ map N.of_nat (seq 0 (N.to_nat (wh_bump (ws_header s))))).
    { apply NoDup_Permutation; [done| |].
      - apply NoDup_fmap; [intros ???; lia|apply NoDup_seq].
      - intros x. rewrite Hall, elem_of_list_fmap. split.
        + intros Hx. exists (N.to_nat x). split; [lia|]. apply elem_of_seq. lia.
        + intros (y&->&Hy). apply elem_of_seq in Hy. lia. }
    apply Permutation_length in Hp. rewrite app_length, map_length, seq_length in Hp. lia. }
  assert (Hfr : w_check_free (N.to_nat (wh_free_len (ws_header s))) s (wh_free_head (ws_header s)) = Ok tt).
  { rewrite (sl_free_len _ _ _ _ Hs), Nat2N.id. apply (check_free_ok s Hmem); [exact (sl_free _ _ _ _ Hs)|].
    intros h Hh. apply (in_slab_small s Hmem Hroom). eapply slab_in; [done|].
    apply Hall, elem_of_app. right. apply elem_of_app. by left. }
  assert (Ht : exists n, forall fuel, (n <= fuel)%nat -> w_check_tree fuel s = Ok (N.of_nat (length slots))).
  { pose proof (slab_root _ _ _ _ Hs) as Hr. destruct Htree as [[-> ->]|(t&Hos&->&Hroot&Hst&Hsh)].
    - exists 0%nat. intros fuel _. unfold w_check_tree. by rewrite Hr.
    - assert (Hr' : w_root s = Some (oroot t)).
      { rewrite Hr, Hroot. destruct os; [|done]. unfold oorders in Hos. symmetry in Hos. apply map_eq_nil in Hos.
        by apply oleaves_ne in Hos. }
      pose proof (at_stored s Hmem Hroom t 0 Hst Hsh) as Hat.
      destruct t as [h o|h n key l r].
      { exists 0%nat. intros fuel _. unfold w_check_tree. rewrite Hr'. rewrite (rbind_ok _ _ _ Hat). done. }
      cbn [ostored oshape] in Hst, Hsh. destruct Hst as (_&Hkey&Sl&Sr). destruct Hsh as (Hn&Kl&Kr&Ol&Or).
      destruct (check_rec_ok s Hmem Hroom l (n + 1) n key false Sl Ol) as (nl&Il); [lia|lia|done| |].
      { intros k Hk. destruct (Kl k Hk) as [A1 A2]. split.
        - apply prefix_agree; [exact (stored_ids _ _ _ _ _ Sl Hk)|done|lia|done].
        - by rewrite crit_testbit by lia. }
      destruct (check_rec_ok s Hmem Hroom r (n + 1) n key true Sr Or) as (nr&Ir); [lia|lia|done| |].
      { intros k Hk. destruct (Kr k Hk) as [A1 A2]. split.
        - apply prefix_agree; [exact (stored_ids _ _ _ _ _ Sr Hk)|done|lia|done].
        - by rewrite crit_testbit by lia. }
      exists (nl + nr)%nat. intros fuel Hf. unfold w_check_tree. rewrite Hr', (rbind_ok _ _ _ Hat).
      cbn [onode w_key w_children w_prefix_len unwrap wi_key wi_c0 wi_c1 wi_plen].
      rewrite !(rbind_ok (Ok _) _ _ eq_refl), (rbind_ok _ _ _ (Il fuel ltac:(lia))), (rbind_ok _ _ _ (Ir fuel ltac:(lia))).
      f_equal. cbn [oslots length]. rewrite app_length. lia. }
  destruct Ht as (n&Hn). exists n. intros fuel Hf. unfold w_check_invariants. rewrite (rbind_ok _ _ _ (Hn fuel Hf)).
  rewrite (sl_free_len _ _ _ _ Hs) at 1. rewrite Hcount, N.eqb_refl, (rbind_ok (assert_that true) _ tt eq_refl). exact Hfr.
Qed.

(** ** Sizes *)
(** [compute_slot_size] is the smallest slot that holds every node, but never less than 32
    bytes, 3 more than an inner node has. *)
Theorem C70_slot_size : forall cs s, ws_cs s = cs -> 
  (forall n, node_fits s n -> N.of_nat (length (w_node_bytes n)) <= w_slot_size (N.of_nat cs)) /\
  (w_slot_size (N.of_nat cs) = 32 \/
   exists n, node_fits s n /\ N.of_nat (length (w_node_bytes n)) = w_slot_size (N.of_nat cs)).
Proof.
  intros cs s <-. unfold w_slot_size. split.
  - intros [|i|l|x|x]; cbn [node_fits w_node_bytes]; rewrite ?app_length, ?le_enc_length; cbn [length]; intros; lia.
  - destruct (N.le_gt_cases (N.of_nat (ws_cs s)) 7); [left; lia|]. right.
    exists (WLeaf (mk_w_leaf 0 (replicate (ws_cs s) 0) 0)). split; [by cbn; rewrite replicate_length|].
    cbn [w_node_bytes wl_key wl_cb wl_qty]. rewrite !app_length, !le_enc_length, replicate_length. cbn [length]. lia.
Qed.
(** ** The header *)
(** [check] recognises the account of a side by its first byte: 3 for bids, 4 for asks. *)
Theorem C70_check : forall data cs slot s, w_new data cs slot = Ok s ->
  (w_check s true = true <-> data !! 0%nat = Some 3) /\ (w_check s false = true <-> data !! 0%nat = Some 4).
Proof.
  intros data cs slot s H. unfold w_new in H. destruct (w_header_read data) as [h|] eqn:E; [|done]. injection H as <-.
  unfold w_header_read in E. destruct (Nat.ltb_spec (length data) 65) as [?|Hl]; [done|].
  destruct data as [|b data]; [cbn in Hl; lia|].
  assert (Hb : le_dec (slice (b :: data) 0 1) = b) .
  { unfold slice. change (take 1 (drop 0 (b :: data))) with [b]. unfold le_dec. lia. }
  rewrite Hb in E. destruct (b <? 5); [|done]. injection E as <-. unfold w_check. cbn.
  split; rewrite N.eqb_eq; split; [by intros ->|by intros [= ->]|by intros ->|by intros [= ->]].
Qed.

(** The operations work on a copy of the header.  [write_header] stores it: whoever then
    opens the account gets the slab as it is now, and an account with the tag of one side
    of the book is one that the exported readers (C65) understand, with the orders [os]. *)
Theorem C70_write_header : forall s os free loose, old_slab s os free loose ->
  exists s', w_write_header s = (Ok tt, s') /\ old_slab s' os free loose /\
  ws_header s' = ws_header s /\ same_account s s' /\
  w_new (ws_buffer s') (ws_cs s) (ws_slot s) = Ok s' /\
  (wh_tag (ws_header s) = 3 \/ wh_tag (ws_header s) = 4 -> exists leaves, map snd leaves = os /\
     old_book (ws_buffer s') (ws_cs s) (N.to_nat (ws_slot s)) leaves).
Proof.
  intros s os free loose Hs. pose proof (sl_memory _ _ _ _ Hs) as Hmem. pose proof (sl_room _ _ _ _ Hs) as Hroom.
  pose proof (sl_used _ _ _ _ Hs) as Hused. destruct (sl_header _ _ _ _ Hs) as (A1&A2&A3&A4).
  pose proof (slab_bump _ _ _ _ Hs) as Hbump. pose proof (slab_free_bound _ _ _ _ Hs) as Hfb.
  pose proof (header_bytes_length (ws_header s) A2) as Hhl.
  set (d := w_overwrite (ws_buffer s) 0 (w_header_bytes (ws_header s))).
  assert (Hl : length d = length (ws_buffer s)) by (apply overwrite_length; lia).
  assert (Hd : d = w_header_bytes (ws_header s) ++ drop 65 (ws_buffer s)).
  { unfold d. rewrite overwrite_eq by lia. by rewrite Hhl. }
  assert (Keep : forall x b, slot_holds (ws_buffer s) (N.to_nat (ws_slot s)) x b -> slot_holds d (N.to_nat (ws_slot s)) x b).
  { intros x b. apply header_holds; [done|lia]. }
  set (s' := w_set_buffer d s). exists s'.
  assert (Hs' : old_slab s' os free loose).
  { split; cbn [s' ws_buffer ws_cs ws_slot ws_header w_set_buffer]; try apply Hs.
    - by rewrite Hl.
    - by rewrite Hl.
    - eapply ofree_ext; [|exact (sl_free _ _ _ _ Hs)]. intros x b _. apply Keep.
    - destruct (sl_tree _ _ _ _ Hs) as (slots&Htree&Hrest). exists slots. split; [|exact Hrest].
      destruct Htree as [?|(t&T1&T2&T3&T4&T5)]; [by left|]. right. exists t. split_and!; try done.
      eapply stored_ext; [|exact T4]. intros x b _. apply Keep. }
  assert (Hcnt : N.of_nat (length os) <= wh_bump (ws_header s)).
  { destruct (sl_tree _ _ _ _ Hs) as (slots&Htree&Hnd&Hall).
    assert (Hsl : (length slots <= N.to_nat (wh_bump (ws_header s)))%nat).
    { assert (Hs2 : slots ⊆+ map N.of_nat (seq 0 (N.to_nat (wh_bump (ws_header s))))).
      { apply NoDup_submseteq; [by apply NoDup_app in Hnd as (?&_)|]. intros x Hx.
        assert (x < wh_bump (ws_header s)) by (apply Hall, elem_of_app; by left).
        apply elem_of_list_fmap. exists (N.to_nat x). split; [lia|]. apply elem_of_seq. lia. }
      apply submseteq_length in Hs2. by rewrite map_length, seq_length in Hs2. }
    destruct Htree as [[-> _]|(t&->&->&_)]; [cbn; lia|]. pose proof (oslots_length t).
    pose proof (oroot_slot t). assert (length (oslots t) <> 0)%nat by (destruct t; done). lia. }
  split; [|split; [exact Hs'|split; [done|split; [done|split]]]].
  - unfold w_write_header. rewrite bind_get. by destruct (Nat.ltb_spec (length (ws_buffer s)) 65) as [?|_]; [lia|].
  - unfold w_new. assert (Hread : w_header_read d = Some (ws_header s)).
    { unfold w_header_read. destruct (Nat.ltb_spec (length d) 65) as [?|_]; [lia|].
      rewrite Hd. unfold w_header_bytes. rewrite <- !app_assoc.
      assert (Htag : [wh_tag (ws_header s)] = le_enc 1 (wh_tag (ws_header s))).
      { change (le_enc 1 (wh_tag (ws_header s))) with [wh_tag (ws_header s) mod 256]. by rewrite N.mod_small by lia. }
      rewrite Htag. le_slices. rewrite (le_dec_enc_small 1) by (cbn; lia).
      destruct (N.ltb_spec (wh_tag (ws_header s)) 5) as [_|?]; [|lia].
      assert (Hmk : forall rest, slice (wh_market (ws_header s) ++ rest) 0 32 = wh_market (ws_header s)).
      { intros rest. by apply slice_app_l. }
      rewrite (sl_count _ _ _ _ Hs), (sl_free_len _ _ _ _ Hs).
      rewrite !le_dec_enc_small by (cbn; lia). rewrite ?Hmk. destruct (ws_header s) eqn:Eh. cbn in *. f_equal.
      pose proof (sl_count _ _ _ _ Hs) as C1. pose proof (sl_free_len _ _ _ _ Hs) as C2. rewrite Eh in C1, C2. cbn in C1, C2.
      by rewrite C1, C2. }
    change (ws_buffer s') with d. rewrite Hread. done.
  - intros Htag. destruct (slab_leaves _ _ _ _ Hs') as (leaves&Hlv&H). exists leaves. split; [done|].
    split.
    + exists (wh_tag (ws_header s)), (wh_bump (ws_header s)), (wh_free_len (ws_header s)), (wh_free_head (ws_header s)),
        (wh_root (ws_header s)), (drop 65 (ws_buffer s)), (wh_market (ws_header s)).
      assert (Hll : N.of_nat (length leaves) = wh_leaf_count (ws_header s)).
      { rewrite (sl_count _ _ _ _ Hs), <- Hlv. by rewrite map_length. }
      rewrite Hll. split; [exact Hd|]. split_and!; try done.
      * rewrite (sl_count _ _ _ _ Hs). lia.
      * destruct H as [[-> _]|(t&->&Hr&Hst&Hsh)]; [by left|]. right.
        assert (E : wh_root (ws_header s) = oroot t).
        { unfold w_root in Hr. change (ws_header s') with (ws_header s) in Hr. destruct (_ =? 0); [done|]. by injection Hr. }
        rewrite E. exact (stored_old_tree s' t (sl_memory _ _ _ _ Hs') (sl_room _ _ _ _ Hs') 0 Hst Hsh).
    + destruct H as [[-> _]|(t&->&Hr&Hst&Hsh)]; [constructor|].
      pose proof (shape_sorted _ _ _ _ _ Hst Hsh) as Hss. unfold okeys, oorders in Hss. rewrite map_map in Hss.
      apply ss_mapR in Hss. exact Hss.
    + cbn. by rewrite Hl.
Qed.

(** ** Histories *)
(** No sequence of these operations fails or damages the account; orders disappear only by
    removal. *)
Theorem C70_history : forall ops s os free loose, old_slab s os free loose ->
  (forall val, OpInsert val ∈ ops -> node_fits s val) ->
  exists n s' os' free' loose', (forall fuel, (n <= fuel)%nat -> w_run fuel ops s = (Ok tt, s')) /\
  old_slab s' os' free' loose' /\ same_account s s' /\
  (forall o, o ∈ os' -> o ∈ os) /\
  (forall o, o ∈ os -> OpRemove (o_id o) ∉ ops -> (forall mx, OpRemoveExtreme mx ∉ ops) -> o ∈ os').
Proof.
  assert (Htrans : forall s1 s2 s3, same_account s1 s2 -> same_account s2 s3 -> same_account s1 s3).
  { intros s1 s2 s3 (B1&B2&B3&B4&B5) (C1&C2&C3&C4&C5). unfold same_account. by rewrite C1, C2, C3, C4, C5. }
  assert (Hfits : forall s1 s2 val, same_account s1 s2 -> node_fits s1 val -> node_fits s2 val).
  { intros s1 s2 val (_&_&_&E&_). destruct val; try done. cbn. by rewrite E. }
  induction ops as [|op ops IH]; intros s os free loose Hs Hf.
  { exists 0%nat, s, os, free, loose. split_and!; done. }
  assert (Hop : exists n s1 os1 free1 loose1, (forall fuel, (n <= fuel)%nat -> w_run_op fuel op s = (Ok tt, s1)) /\
    old_slab s1 os1 free1 loose1 /\ same_account s s1 /\ (forall o, o ∈ os1 -> o ∈ os) /\
    (forall o, o ∈ os -> op <> OpRemove (o_id o) -> (forall mx, op <> OpRemoveExtreme mx) -> o ∈ os1)).
  { assert (Hfilter : forall k o, o ∈ List.filter (fun x => negb (o_id x =? k)) os <-> o ∈ os /\ o_id o <> k).
    { intros k o. rewrite !elem_of_list_In, filter_In. split; intros [H1 H2]; (split; [done|]).
      - intros E. rewrite (proj2 (N.eqb_eq _ _) E) in H2. done.
      - by rewrite (proj2 (N.eqb_neq _ _) H2). }
    destruct op as [k|mx|val|].
    - destruct (decide (k ∈ map o_id os)) as [Hk|Hk].
      + apply elem_of_list_fmap in Hk as (o&->&Ho).
        destruct (C70_remove s os free loose o Hs Ho) as (s1&freed&n&H1&H2&_&_&H3).
        exists n, s1, (List.filter (fun x => negb (o_id x =? o_id o)) os), (freed ++ free), loose. split_and!; try done; try apply H3.
        * intros fuel Hfu. cbn [w_run_op]. by rewrite (bind_ok _ _ _ _ _ (H1 fuel Hfu)).
        * intros x Hx. by apply Hfilter in Hx as [? _].
        * intros x Hx Hne _. apply Hfilter. split; [done|]. intros E. by apply Hne; rewrite E.
      + destruct (C70_remove_absent s os free loose k Hs Hk) as (n&H1).
        exists n, s, os, free, loose. split_and!; try done.
        intros fuel Hfu. cbn [w_run_op]. by rewrite (bind_ok _ _ _ _ _ (H1 fuel Hfu)).
    - destruct (C70_remove_extreme s os free loose mx Hs) as [_ H].
      destruct (if mx then last os else head os) as [o|].
      + destruct H as (s1&freed&n&H1&H2&H3).
        exists n, s1, (List.filter (fun x => negb (o_id x =? o_id o)) os), (freed ++ free), loose. split_and!; try done; try apply H3.
        * intros fuel Hfu. cbn [w_run_op]. by rewrite (bind_ok _ _ _ _ _ (H1 fuel Hfu)).
        * intros x Hx. by apply Hfilter in Hx as [? _].
        * intros x Hx _ Hne. by destruct (Hne mx).
      + destruct H as (n&H1). exists n, s, os, free, loose. split_and!; try done.
        intros fuel Hfu. cbn [w_run_op]. by rewrite (bind_ok _ _ _ _ _ (H1 fuel Hfu)).
    - pose proof (C70_insert s os free loose val Hs (Hf val ltac:(left))) as H.
      assert (Hcase : (exists s1 free1 loose1 r, w_insert val s = (Ok r, s1) /\ old_slab s1 os free1 loose1 /\ same_account s s1)).
      { destruct free as [|h free].
        - cbv zeta in H. destruct (_ <=? _).
          + destruct H as (s1&E&H2&_&_&H3). by eauto 10.
          + exists s, [], loose, None. split_and!; done.
        - destruct H as (s1&E&H2&_&_&H3). by eauto 10. }
      destruct Hcase as (s1&free1&loose1&r&E&H2&H3). exists 0%nat, s1, os, free1, loose1. split_and!; try done; try apply H3.
      intros fuel _. cbn [w_run_op]. by rewrite (bind_ok _ _ _ _ _ E).
    - destruct (C70_write_header s os free loose Hs) as (s1&E&H2&_&H3&_).
      exists 0%nat, s1, os, free, loose. split_and!; try done; try apply H3. }
  destruct Hop as (n1&s1&os1&free1&loose1&E1&Hs1&Ha1&Hin1&Hk1).
  destruct (IH s1 os1 free1 loose1 Hs1) as (n2&s2&os2&free2&loose2&E2&Hs2&Ha2&Hin2&Hk2).
  { intros val Hv. eapply Hfits; [done|]. apply Hf. by right. }
  exists (n1 + n2)%nat, s2, os2, free2, loose2. split_and!; try done.
  - intros fuel Hfu. cbn [w_run]. rewrite (bind_ok _ _ _ _ _ (E1 fuel ltac:(lia))). apply E2. lia.
  - by eapply Htrans.
  - intros o Ho. by apply Hin1, Hin2.
  - intros o Ho Hr Hx. apply Hk2.
    + apply Hk1; [done|intros ->; apply Hr; left|intros mx ->; apply (Hx mx); left].
    + intros Hr'. apply Hr. by right.
    + intros mx Hr'. apply (Hx mx). by right.
Qed.

(** ** Changing an order *)
(** Looking up an order, changing its quantity and writing the node back where it was found
    changes the quantity of that order and nothing else: ids, callback infos, all other
    orders and the free slots stay. *)
Definition with_quantity (q : N) (o : order bytes) : order bytes := (mk_leaf (o_id o) q, o_cb o).
Fixpoint oset (k q : N) (t : otree) : otree :=
  match t with
  | OLeaf h o => OLeaf h (if o_id o =? k then with_quantity q o else o)
  | OInner h n key l r => OInner h n key (oset k q l) (oset k q r)
  end.
Lemma oset_root k q t : oroot (oset k q t) = oroot t.
Proof. by destruct t. Qed.
Lemma oset_slots k q t : oslots (oset k q t) = oslots t.
Proof. induction t as [|???? IHl ? IHr]; [done|]. cbn. by rewrite IHl, IHr. Qed.
Lemma oset_orders k q t : oorders (oset k q t) = map (fun x => if o_id x =? k then with_quantity q x else x) (oorders t).
Proof. induction t as [|???? IHl ? IHr]; [done|]. cbn [oset]. by rewrite !oorders_inner, map_app, IHl, IHr. Qed.
Lemma oset_keys k q t : okeys (oset k q t) = okeys t.
Proof.
  unfold okeys. rewrite oset_orders, map_map. apply map_ext. intros x. by destruct (_ =? _).
Qed.
Lemma oset_shape k q t : forall lo, oshape lo t -> oshape lo (oset k q t).
Proof.
  induction t as [|???? IHl ? IHr]; intros lo; [done|]. cbn [oset oshape]. rewrite !oset_keys.
  intros (?&?&?&?&?). repeat (split; [done|]). split; [by apply IHl|by apply IHr].
Qed.
Lemma oset_stored data cs slot q t h o : ostored data cs slot t -> NoDup (oslots t) -> NoDup (okeys t) ->
  (h, o) ∈ oleaves t -> q < p64 -> (length (old_leaf_bytes (with_quantity q o)) <= slot)%nat ->
  ostored (at_slot data slot h (old_leaf_bytes (with_quantity q o))) cs slot (oset (o_id o) q t).
Proof.
  assert (Hother : forall t h o, (h, o) ∈ oleaves t -> h ∈ oslots t /\ o_id o ∈ okeys t).
  { clear. intros t h o H. split.
    - induction t as [|???? IHl ? IHr]; cbn in *.
      + apply elem_of_list_singleton in H as [= -> ->]. left.
      + apply elem_of_app in H. right. apply elem_of_app. destruct H; [left|right]; auto.
    - unfold okeys, oorders. apply elem_of_list_fmap_1. by apply (elem_of_list_fmap_1 snd) in H. }
  assert (Hnone : forall k t, k ∉ okeys t -> oset k q t = t).
  { clear. intros k t. induction t as [|???? IHl ? IHr]; cbn [oset].
    - unfold okeys, oorders. cbn. rewrite not_elem_of_cons. intros [H _].
      by destruct (N.eqb_spec (o_id o) k); [congruence|].
    - rewrite okeys_inner, not_elem_of_app. intros [??]. by rewrite IHl, IHr. }
  intros Hst Hs Hk Hin Hq Hlen.
  assert (Hat : in_slab data slot h) by (eapply stored_in; [done|by eapply Hother]).
  induction t as [h' o'|h' n key l IHl r IHr]; cbn [oset ostored oslots] in *.
  - cbn in Hin. apply elem_of_list_singleton in Hin as [= -> ->]. rewrite N.eqb_refl.
    destruct Hst as (_&H1&H2&H3). split; [by apply holds_new|]. by split_and!.
  - destruct Hst as (H1&H2&Sl&Sr). apply NoDup_cons in Hs as [Hs0 Hs]. apply NoDup_app in Hs as (Nl&Nlr&Nr).
    rewrite okeys_inner in Hk. apply NoDup_app in Hk as (Kl&Klr&Kr). rewrite not_elem_of_app in Hs0. destruct Hs0 as [Hs1 Hs2].
    cbn [oleaves] in Hin. rewrite !oset_root. apply elem_of_app in Hin as [Hin|Hin].
    + destruct (Hother _ _ _ Hin) as [Hh Ho]. split_and!; try done.
      * apply holds_other; [done..|by intros ->|done].
      * by apply IHl.
      * rewrite Hnone by (by apply Klr). eapply stored_ext; [|done]. intros x b Hx.
        apply holds_other; [done..|]. intros ->. by apply (Nlr h).
    + destruct (Hother _ _ _ Hin) as [Hh Ho]. split_and!; try done.
      * apply holds_other; [done..|by intros ->|done].
      * rewrite Hnone by (intros Hc; by apply (Klr _ Hc)). eapply stored_ext; [|done]. intros x b Hx.
        apply holds_other; [done..|]. intros ->. by apply (Nlr h).
      * by apply IHr.
Qed.
Theorem C70_set_quantity : forall s os free loose o q, old_slab s os free loose -> o ∈ os -> q < p64 ->
  exists h node s' n,
  (forall fuel, (n <= fuel)%nat -> w_find_by_key fuel s (o_id o) = Ok (Some h)) /\
  w_get_node s h = Ok (Some node) /\
  w_as_leaf node = Some (w_leaf_new (o_id o) (o_cb o) (o_qty o)) /\
  w_write_node (WLeaf (w_set_base_quantity q (w_leaf_new (o_id o) (o_cb o) (o_qty o)))) h s = (Ok (Some tt), s') /\
  old_slab s' (map (fun x => if o_id x =? o_id o then (mk_leaf (o_id x) q, o_cb x) else x) os) free loose /\
  ws_header s' = ws_header s /\ same_account s s'.
Proof.
  intros s os free loose o q Hs Ho Hq. pose proof (sl_memory _ _ _ _ Hs) as Hmem. pose proof (sl_room _ _ _ _ Hs) as Hroom.
  destruct (slab_orders _ _ _ _ Hs) as [Hnd Hok]. pose proof (Hok o Ho) as (O1&O2&O3).
  pose proof (slab_root _ _ _ _ Hs) as Hroot.
  destruct (sl_tree _ _ _ _ Hs) as (slots&[[-> _]|(t&->&->&Hr&Hst&Hsh)]&Hsl&Hall); [by apply elem_of_nil in Ho|].
  pose proof Ho as Ho'. unfold oorders in Ho'. apply elem_of_list_fmap in Ho' as ([h o']&->&Hin). cbn [snd] in *.
  destruct (find_key_ok s Hmem Hroom (o_id o') t O1 0 Hst Hsh) as (n&Hn).
  assert (Hslot : slot_of (o_id o') (oleaves t) = Some h).
  { unfold slot_of. destruct (List.find _ (oleaves t)) as [[h2 o2]|] eqn:E.
    - apply find_some in E as [E1 E2]. cbn in E2. apply N.eqb_eq in E2. apply elem_of_list_In in E1. cbn. f_equal.
      unfold oorders in Hnd. rewrite map_map in Hnd. clear -Hnd Hin E1 E2.
      induction (oleaves t) as [|[h3 o3] ls IH]; [by apply elem_of_nil in Hin|]. cbn in Hnd. apply NoDup_cons in Hnd as [H1 H2].
      apply elem_of_cons in Hin as [Hin|Hin], E1 as [E1|E1].
      + congruence.
      + injection Hin as -> ->. destruct H1. rewrite <- E2. by apply (elem_of_list_fmap_1 (fun x => o_id (snd x))) in E1.
      + injection E1 as -> ->. destruct H1. rewrite E2. by apply (elem_of_list_fmap_1 (fun x => o_id (snd x))) in Hin.
      + by apply IH.
    - pose proof (find_none _ _ E (h, o')) as Hno. cbn in Hno. rewrite N.eqb_refl in Hno.
      apply elem_of_list_In in Hin. by specialize (Hno Hin). }
  destruct (stored_order _ _ _ _ _ _ Hst Hin) as [H1 H2].
  assert (Hht : h ∈ oslots t).
  { clear -Hin. induction t as [|???? IHl ? IHr]; cbn in *.
    - apply elem_of_list_singleton in Hin as [= -> ->]. left.
    - apply elem_of_app in Hin. right. apply elem_of_app. destruct Hin; [left|right]; auto. }
  assert (Hat : in_slab (ws_buffer s) (N.to_nat (ws_slot s)) h) by (by eapply stored_in).
  set (b := old_leaf_bytes (with_quantity q o')).
  assert (Hlen : (length b <= N.to_nat (ws_slot s))%nat).
  { unfold b, old_leaf_bytes. change (o_cb (with_quantity q o')) with (o_cb o').
    rewrite !app_length, !le_enc_length. cbn [length]. lia. }
  pose proof (write_node_ok s Hmem (WLeaf (w_set_base_quantity q (w_leaf_new (o_id o') (o_cb o') (o_qty o')))) h Hat Hlen) as E.
  exists h, (WLeaf (w_leaf_new (o_id o') (o_cb o') (o_qty o'))),
    (w_set_buffer (at_slot (ws_buffer s) (N.to_nat (ws_slot s)) h b) s), n.
  split; [|split; [|split; [|split; [|split]]]]; try done.
  - intros fuel Hf. unfold w_find_by_key. rewrite Hroot.
    destruct (oorders t); [by apply elem_of_nil in Ho|]. rewrite <- Hr, <- Hslot. by apply Hn.
  - exact (get_leaf s Hmem h o' H1 H2).
  - unfold w_write_node_unwrap in E. unfold bind in E |- *. revert E.
    destruct (w_write_node _ h s) as [[[[]|]|?|?|] s2]; intros E; try discriminate E. cbn in E. injection E as ->. done.
  - rewrite (map_ext _ (fun x => if o_id x =? o_id o' then with_quantity q x else x)) by done. rewrite <- oset_orders.
    assert (Hl : length (at_slot (ws_buffer s) (N.to_nat (ws_slot s)) h b) = length (ws_buffer s)) by (by apply at_slot_length).
    split; cbn [ws_buffer ws_cs ws_slot ws_header w_set_buffer]; try apply Hs.
    + by rewrite Hl.
    + by rewrite Hl; apply Hs.
    + rewrite oset_orders, map_length. apply Hs.
    + eapply ofree_ext; [|exact (sl_free _ _ _ _ Hs)]. intros x c Hx. apply holds_other; [done..|].
      intros ->. apply NoDup_app in Hsl as (_&Hd&_). apply (Hd h Hht). apply elem_of_app. by left.
    + exists (oslots t). split; [|done]. right. exists (oset (o_id o') q t). rewrite oset_slots, oset_root.
      split_and!; try done; [|by apply oset_shape].
      apply oset_stored; try done. by apply NoDup_app in Hsl as (?&_).
  - split; [done|]. unfold same_account. cbn. split_and!; try done. by apply at_slot_length.
Qed.

(** ** The account of PropsWasm.v, which has three orders *)
Definition t_s : w_slab := mk_w_slab (mk_w_header 4 5 0 0 0 3 (replicate 32 1)) w_data 1 32.
Definition t_tree : otree :=
  OInner 0 62 (5 * p64 + 1) (OInner 1 126 (5 * p64 + 1) (OLeaf 2 w_o1) (OLeaf 3 w_o2)) (OLeaf 4 w_o3).
Lemma t_prefix n a b : n <= 128 -> a / 2 ^ (128 - n) = b / 2 ^ (128 - n) -> same_prefix n a b.
Proof.
  intros Hn H i Hi. rewrite <- !N.shiftr_div_pow2 in H. apply (f_equal (fun x => N.testbit x (i - (128 - n)))) in H.
  rewrite !N.shiftr_spec in H by lia. by replace (i - (128 - n) + (128 - n)) with i in H by lia.
Qed.
Lemma t_key n a b (c : bool) : (n <=? 128) && (a / 2 ^ (128 - n) =? b / 2 ^ (128 - n)) &&
  Bool.eqb (N.testbit a (127 - n)) c = true -> same_prefix n a b /\ N.testbit a (127 - n) = c.
Proof.
  rewrite !andb_true_iff. intros [[H1 H2] H3]. split; [|by apply eqb_prop].
  apply t_prefix; [by apply N.leb_le|by apply N.eqb_eq].
Qed.
Ltac tkeys := intros k Hk; repeat (apply elem_of_cons in Hk as [->|Hk]; [apply t_key; vm_compute; reflexivity|]);
  by apply elem_of_nil in Hk.
Lemma t_slab : old_slab t_s [w_o1; w_o2; w_o3] [] [].
Proof.
  split.
  - split; apply N.leb_le; vm_compute; reflexivity.
  - vm_compute; reflexivity.
  - apply N.leb_le; vm_compute; reflexivity.
  - split_and!; vm_compute; reflexivity.
  - reflexivity.
  - reflexivity.
  - exact I.
  - exists [0; 1; 2; 3; 4]. split; [right; exists t_tree|split].
    + split_and!; [reflexivity..| |].
      * unfold t_tree. cbn [ostored]. change (ws_buffer t_s) with w_data. change (ws_cs t_s) with 1%nat.
        change (N.to_nat (ws_slot t_s)) with 32%nat.
        split_and!; [holds|vm_compute; reflexivity|holds|vm_compute; reflexivity|holds|done|holds|done|holds|done].
      * unfold t_tree. cbn [oshape]. split_and!; try exact I; try (apply N.leb_le; vm_compute; reflexivity);
          try (vm_compute; reflexivity); tkeys.
    + apply NoDup_ListNoDup. repeat constructor; cbn; lia.
    + intros h. change (wh_bump (ws_header t_s)) with 5. cbn [app]. rewrite !elem_of_cons, elem_of_nil. lia.
Qed.
(** Removing the order in slot 3 moves its neighbour from slot 2 to slot 1, the place of
    the inner node above them, and releases slots 2 and 3; the next node gets slot 3.
    Before the removal the account was full. *)
Definition t_ops : list w_op := [OpRemove (o_id w_o2); OpRemove 77; OpInsert (WFree 9); OpWriteHeader].
Example C70_example :
  old_slab t_s [w_o1; w_o2; w_o3] [] [] /\ (forall val, OpInsert val ∈ t_ops -> node_fits t_s val) /\
  fst (w_remove_by_key 10 (o_id w_o2) t_s) = Ok (Some (WLeaf (mk_w_leaf (o_id w_o2) [8] 20))) /\
  w_find_by_key 10 t_s (o_id w_o2) = Ok (Some 3) /\ w_find_by_key 10 t_s 77 = Ok None /\
  w_find_node_sequence 10 t_s 2 false = Ok [4; 3] /\
  w_check_invariants 10 t_s = Ok tt /\ (w_check t_s true, w_check t_s false) = (false, true) /\
  fst (w_insert (WFree 9) t_s) = Ok None /\
  (let s1 := snd (w_remove_by_key 10 (o_id w_o2) t_s) in
   (wh_free_len (ws_header s1), wh_free_head (ws_header s1), wh_leaf_count (ws_header s1)) = (2, 3, 2) /\
   w_check_invariants 10 s1 = Ok tt /\ w_find_node_sequence 10 s1 5 true = Ok [1; 4] /\
   fst (w_insert (WFree 9) s1) = Ok (Some 3)) /\
  (let s2 := snd (w_run 10 t_ops t_s) in
   fst (w_run 10 t_ops t_s) = Ok tt /\ wasm_find_l2_depth 10 (ws_buffer s2) 1 32 3 true = Ok [10; 5; 5; 7] /\
   fst (w_remove_extreme 10 true s2) = Ok (Some (WLeaf (mk_w_leaf (o_id w_o3) [9] 5)))).
Proof.
  split; [exact t_slab|]. split.
  { intros val Hv. repeat (apply elem_of_cons in Hv as [Hv|Hv]; [try discriminate Hv; injection Hv as ->; done|]).
    by apply elem_of_nil in Hv. }
  by vm_compute.
Qed.

Example C70_set_quantity_example : w_o2 ∈ [w_o1; w_o2; w_o3] /\
  (let s1 := snd (w_write_node (WLeaf (w_set_base_quantity 13 (w_leaf_new (o_id w_o2) (o_cb w_o2) (o_qty w_o2)))) 3 t_s) in
   wasm_find_l2_depth 10 (ws_buffer t_s) 1 32 3 true = Ok [30; 5; 5; 7] /\
   wasm_find_l2_depth 10 (ws_buffer s1) 1 32 3 true = Ok [23; 5; 5; 7] /\
   w_as_leaf <$> (match w_get_node s1 3 with Ok n => n | _ => None end) =
     Some (Some (w_leaf_new (o_id w_o2) [8] 13)) /\
   w_as_leaf <$> (match w_get_node s1 1 with Ok n => n | _ => None end) = Some None).
Proof. split; [right; left|]. by vm_compute. Qed.

Print Assumptions C70_remove.
Print Assumptions C70_remove_absent.
Print Assumptions C70_remove_extreme.
Print Assumptions C70_insert.
Print Assumptions C70_find_by_key.
Print Assumptions C70_find_node_sequence.
Print Assumptions C70_check_invariants.
Print Assumptions C70_slot_size.
Print Assumptions C70_check.
Print Assumptions C70_write_header.
Print Assumptions C70_history.
Print Assumptions C70_set_quantity.
