(** * WasmTreeProofs.v: proofs about the writing half of js/wasm/src/critbit.rs *)
From Verif Require Import Machine Bytes Critbit EventQueue OrderBook Market Spec MachineProofs
  QueueProofs TreeProofs MarketFacts Check CheckProofs Layout LayoutProofs JsProofs JsQueueProofs Wasm WasmSpec WasmProofs
  WasmTree WasmTreeSpec.
From Coq Require Import ZifyBool ZifyNat ZifyN.
From Coq Require Import Sorting.Sorted.

(** ** Overwriting bytes *)
Lemma overwrite_length data off b : (off + length b <= length data)%nat ->
  length (w_overwrite data off b) = length data.
Proof. intros H. unfold w_overwrite. rewrite !app_length, !take_length, drop_length. lia. Qed.
Lemma overwrite_eq data off b : (off + length b <= length data)%nat ->
  w_overwrite data off b = take off data ++ b ++ drop (off + length b) data.
Proof. intros H. unfold w_overwrite. by rewrite (take_ge b) by lia. Qed.
Lemma overwrite_in data off b : (off + length b <= length data)%nat ->
  slice (w_overwrite data off b) off (length b) = b.
Proof.
  intros H. rewrite overwrite_eq by done. rewrite slice_app_r by (rewrite take_length; lia).
  rewrite take_length. replace (off - off `min` length data)%nat with 0%nat by lia. by apply slice_app_l.
Qed.
Lemma overwrite_out data off b o n : (off + length b <= length data)%nat ->
  (o + n <= off \/ off + length b <= o)%nat ->
  slice (w_overwrite data off b) o n = slice data o n.
Proof.
  intros H Hd. rewrite overwrite_eq by done. unfold slice. destruct Hd as [Hd|Hd].
  - rewrite drop_app_le by (rewrite take_length; lia).
    rewrite take_app_le by (rewrite drop_length, take_length; lia).
    rewrite <- (take_drop off data) at 2. rewrite drop_app_le by (rewrite take_length; lia).
    by rewrite take_app_le by (rewrite drop_length, take_length; lia).
  - f_equal. rewrite app_assoc, drop_app_ge by (rewrite app_length, take_length; lia).
    rewrite app_length, take_length, drop_drop. f_equal. lia.
Qed.
Definition at_slot (data : bytes) (slot : nat) (h : N) (b : bytes) : bytes :=
  w_overwrite data (65 + N.to_nat h * slot) b.
Definition in_slab (data : bytes) (slot : nat) (h : N) : Prop := (65 + N.to_nat h * slot + slot <= length data)%nat.
Lemma holds_new data slot h b : in_slab data slot h -> (length b <= slot)%nat ->
  slot_holds (at_slot data slot h b) slot h b.
Proof.
  unfold in_slab. intros H1 H2. unfold slot_holds, at_slot. rewrite overwrite_length by lia. split_and!; [lia|done|].
  apply overwrite_in. lia.
Qed.
Lemma holds_other data slot h h' b b' : in_slab data slot h' -> (length b' <= slot)%nat -> h <> h' ->
  slot_holds data slot h b -> slot_holds (at_slot data slot h' b') slot h b.
Proof.
  unfold in_slab. intros H1 H2 Hne (H3&H4&H5). unfold slot_holds, at_slot. rewrite overwrite_length by lia.
  split_and!; [lia|done|]. rewrite overwrite_out; [done|lia|].
  assert ((N.to_nat h < N.to_nat h')%nat \/ (N.to_nat h' < N.to_nat h)%nat) as [?|?] by lia; [left|right]; nia.
Qed.
Lemma at_slot_length data slot h b : in_slab data slot h -> (length b <= slot)%nat ->
  length (at_slot data slot h b) = length data.
Proof. unfold in_slab. intros. apply overwrite_length. lia. Qed.

Lemma node_bytes_length cs slot n : (cs + 25 <= slot)%nat -> (32 <= slot)%nat ->
  (forall l, n = WLeaf l -> length (wl_cb l) = cs) -> (length (w_node_bytes n) <= slot)%nat.
Proof.
  intros H1 H2 Hl. destruct n as [|i|l|x|x]; cbn [w_node_bytes app length]; rewrite ?app_length, ?le_enc_length; try lia.
  rewrite (Hl l) by done. lia.
Qed.

(** ** Slabs *)
Section S.
Context (s : w_slab).
Notation data := (ws_buffer s).
Notation slot := (N.to_nat (ws_slot s)).
Hypothesis Hmem : N.of_nat (length data) < p32.

Lemma slot_offset h : in_slab data slot h ->
  as_usize (w_header_len + as_usize (h * ws_slot s)) = 65 + h * ws_slot s.
Proof.
  unfold in_slab, as_usize, w_header_len. intros H.
  assert (E : h * ws_slot s = N.of_nat (N.to_nat h * slot)) by lia.
  rewrite (N.mod_small (h * ws_slot s)) by lia. apply N.mod_small. lia.
Qed.
Lemma write_node_ok n h : in_slab data slot h -> (length (w_node_bytes n) <= slot)%nat ->
  w_write_node_unwrap n h s = (Ok tt, w_set_buffer (at_slot data slot h (w_node_bytes n)) s).
Proof.
  intros H1 H2. unfold w_write_node_unwrap, w_write_node. rewrite bind_assoc, bind_get, (slot_offset _ H1).
  unfold in_slab in H1.
  assert (E : h * ws_slot s = N.of_nat (N.to_nat h * slot)) by lia.
  destruct (N.ltb_spec (N.of_nat (length data)) (65 + h * ws_slot s)) as [?|_]; [lia|].
  rewrite bind_assoc, bind_put, bind_ret.
  destruct (N.leb_spec (65 + h * ws_slot s + N.of_nat (length (w_node_bytes n))) (N.of_nat (length data))) as [_|?]; [|lia].
  unfold at_slot. replace (65 + N.to_nat h * slot)%nat with (N.to_nat (65 + h * ws_slot s)) by lia. done.
Qed.
Lemma get_holds h b : slot_holds data slot h b -> exists r, w_get_node s h = w_node_read (ws_cs s) (b ++ r).
Proof. intros H. apply (get_slot data (ws_cs s) slot Hmem s eq_refl eq_refl ltac:(lia) h b H). Qed.
Lemma get_inner h pl k c0 c1 : slot_holds data slot h (old_inner_bytes pl k c0 c1) ->
  pl < p32 -> k < p128 -> c0 < p32 -> c1 < p32 ->
  w_get_node s h = Ok (Some (WInner (mk_w_inner pl k c0 c1))).
Proof. intros H H1 H2 H3 H4. destruct (get_holds _ _ H) as (r&E). by rewrite E, read_inner. Qed.
Lemma get_leaf h o : slot_holds data slot h (old_leaf_bytes o) -> old_order_ok (ws_cs s) o ->
  w_get_node s h = Ok (Some (WLeaf (w_leaf_of o))).
Proof. intros H Ho. destruct (get_holds _ _ H) as (r&E). by rewrite E, read_leaf. Qed.
Lemma read_free h r : h < p32 -> w_free_read (le_enc 4 h ++ r) = Some h.
Proof.
  intros H. unfold w_free_read.
  destruct (Nat.ltb_spec (length (le_enc 4 h ++ r)) 4) as [E|_]; [rewrite app_length, le_enc_length in E; lia|].
  rewrite slice_app_l by (by rewrite le_enc_length). by rewrite le_dec_enc_small.
Qed.
Lemma get_free h x : slot_holds data slot h ([3] ++ le_enc 4 x) -> x < p32 ->
  w_get_node s h = Ok (Some (WFree x)).
Proof.
  intros H Hx. destruct (get_holds _ _ H) as (r&E). rewrite E. cbn [app w_node_read N.eqb Pos.eqb].
  by rewrite (read_free x r Hx).
Qed.
Lemma get_last_free h x : slot_holds data slot h ([4] ++ le_enc 4 x) -> exists y,
  w_get_node s h = Ok (Some (WLastFree y)).
Proof.
  intros H. destruct (get_holds _ _ H) as (r&E). rewrite E. cbn [app w_node_read N.eqb Pos.eqb].
  unfold w_free_read.
  destruct (Nat.ltb_spec (length (le_enc 4 x ++ r)) 4) as [E'|_]; [rewrite app_length, le_enc_length in E'; lia|].
  cbn. eauto.
Qed.
(** Releasing a slot. *)
Lemma remove_slot_ok h n : w_get_node s h = Ok (Some n) -> in_slab data slot h -> (32 <= slot)%nat ->
  w_remove_unwrap h s = (Ok n,
    w_set_header (w_set_free (as_u64 (wh_free_len (ws_header s) + 1)) h (ws_header s))
      (w_set_buffer (at_slot data slot h
         (w_node_bytes (if wh_free_len (ws_header s) =? 0 then WLastFree (wh_free_head (ws_header s))
                        else WFree (wh_free_head (ws_header s))))) s)).
Proof.
  intros Hg Hin Hs. unfold w_remove_unwrap, w_remove. rewrite bind_assoc, bind_get, bind_assoc.
  rewrite (bind_lift _ (Some n)) by done. rewrite bind_assoc.
  set (fn := if wh_free_len (ws_header s) =? 0 then WLastFree (wh_free_head (ws_header s))
             else WFree (wh_free_head (ws_header s))).
  assert (Hfn : (length (w_node_bytes fn) <= slot)%nat).
  { unfold fn. destruct (wh_free_len (ws_header s) =? 0); unfold w_node_bytes; rewrite app_length, le_enc_length;
      cbn [length]; lia. }
  rewrite (bind_ok _ _ _ _ _ (write_node_ok fn h Hin Hfn)).
  done.
Qed.
End S.

(** ** Trees *)
Lemma prefix_agree n a b : a < p128 -> b < p128 -> n <= 128 -> same_prefix n a b <-> agree n a b.
Proof.
  intros Ha Hb Hn. split.
  - intros H i Hi Hi'. rewrite !crit_testbit by done. apply H. lia.
  - intros H i Hi. destruct (N.lt_ge_cases i 128) as [Hlt|Hge].
    + specialize (H (127 - i) ltac:(lia) ltac:(lia)). rewrite !crit_testbit in H by lia.
      by replace (127 - (127 - i)) with i in H by lia.
    + by rewrite !high_bits.
Qed.
Lemma walk_down_bit n k : wi_plen n < 128 ->
  w_walk_down n k = (if N.testbit k (127 - wi_plen n) then wi_c1 n else wi_c0 n, N.testbit k (127 - wi_plen n)).
Proof.
  intros H. unfold w_walk_down. rewrite (N.mod_small (wi_plen n)) by done.
  pose proof (bit_set_crit k (wi_plen n) H) as E. unfold bit_set in E. rewrite E.
  by rewrite crit_testbit.
Qed.
Lemma oorders_inner h n key l r : oorders (OInner h n key l r) = oorders l ++ oorders r.
Proof. unfold oorders. cbn. by rewrite map_app. Qed.
Lemma okeys_inner h n key l r : okeys (OInner h n key l r) = okeys l ++ okeys r.
Proof. unfold okeys. by rewrite oorders_inner, map_app. Qed.
Lemma oleaves_ne t : oleaves t <> [].
Proof. induction t as [|h n key l IHl r IHr]; cbn; [done|]. intros E. by apply app_eq_nil in E as [? ?]. Qed.
Lemma okeys_ne t : exists k, k ∈ okeys t.
Proof.
  induction t as [h o|h n key l [k Hk] r _]; [exists (o_id o); by left|].
  exists k. rewrite okeys_inner. apply elem_of_app. by left.
Qed.
Lemma oslots_length t : S (length (oslots t)) = (2 * length (oorders t))%nat.
Proof.
  induction t as [h o|h n key l IHl r IHr]; [done|]. rewrite oorders_inner. cbn. rewrite !app_length. lia.
Qed.
Lemma oroot_slot t : oroot t ∈ oslots t.
Proof. destruct t; left. Qed.
Lemma oshape_mono lo lo' t : lo' <= lo -> oshape lo t -> oshape lo' t.
Proof. destruct t; cbn; [done|]. intros ? ((?&?)&?). split; [lia|done]. Qed.
Lemma stored_ids data cs slot t k : ostored data cs slot t -> k ∈ okeys t -> k < p128.
Proof.
  induction t as [h o|h n key l IHl r IHr]; cbn [ostored].
  - intros (_&H&_). unfold okeys, oorders. cbn. by intros ->%elem_of_list_singleton.
  - intros (_&_&Hl&Hr). rewrite okeys_inner, elem_of_app. intros [?|?]; auto.
Qed.
Lemma stored_order data cs slot t h o : ostored data cs slot t -> (h, o) ∈ oleaves t ->
  slot_holds data slot h (old_leaf_bytes o) /\ old_order_ok cs o.
Proof.
  induction t as [h' o'|h' n key l IHl r IHr]; cbn [ostored oleaves].
  - intros H. by intros [= -> ->]%elem_of_list_singleton.
  - intros (_&_&Hl&Hr). rewrite elem_of_app. intros [?|?]; auto.
Qed.
Lemma stored_in data cs slot t h : ostored data cs slot t -> h ∈ oslots t -> in_slab data slot h.
Proof.
  induction t as [h' o|h' n key l IHl r IHr]; cbn [ostored oslots].
  - intros ((H&_)&_). by intros ->%elem_of_list_singleton.
  - intros ((H&_)&_&Hl&Hr). rewrite elem_of_cons, elem_of_app. intros [->|[?|?]]; auto.
Qed.
Lemma stored_ext data data' cs slot t :
  (forall h b, h ∈ oslots t -> slot_holds data slot h b -> slot_holds data' slot h b) ->
  ostored data cs slot t -> ostored data' cs slot t.
Proof.
  induction t as [h' o|h' n key l IHl r IHr]; intros He; cbn [ostored].
  - intros (H&Ho). split; [|done]. apply He; [left|done].
  - intros (H&Hk&Hl&Hr). split_and!; [|done| |].
    + apply He; [left|done].
    + apply IHl; [|done]. intros h b Hh. apply He. cbn. right. apply elem_of_app. by left.
    + apply IHr; [|done]. intros h b Hh. apply He. cbn. right. apply elem_of_app. by right.
Qed.
Lemma shape_sorted data cs slot lo t : ostored data cs slot t -> oshape lo t -> StronglySorted N.lt (okeys t).
Proof.
  revert lo. induction t as [h o|h n key l IHl r IHr]; intros lo Hst Hsh; [repeat constructor|].
  rewrite okeys_inner. cbn in Hst, Hsh. destruct Hst as (_&Hk&Sl&Sr). destruct Hsh as (Hn&Kl&Kr&Hl&Hr).
  apply ss_app. split; [by eapply IHl|]. split; [by eapply IHr|].
  intros x y Hx Hy. pose proof (stored_ids _ _ _ _ _ Sl Hx). pose proof (stored_ids _ _ _ _ _ Sr Hy).
  destruct (Kl x Hx) as [A1 C1]. destruct (Kr y Hy) as [A2 C2].
  apply agree_lt with n; [done|done|lia| |by rewrite crit_testbit by lia..].
  apply prefix_agree; [done..|lia|]. intros i Hi. by rewrite A1, A2.
Qed.

(** ** Removing a leaf from a tree *)
Definition reroot (h : N) (t : otree) : otree :=
  match t with OLeaf _ o => OLeaf h o | OInner _ n key l r => OInner h n key l r end.
Definition onode (t : otree) : w_node :=
  match t with
  | OLeaf _ o => WLeaf (w_leaf_of o)
  | OInner _ n key l r => WInner (mk_w_inner n key (oroot l) (oroot r))
  end.
(** [odel k t ph ch bit o sib t']: the leaf of [k] is in slot [ch], its parent in slot [ph],
    its sibling is [sib]; [t'] is the tree without it. *)
Inductive odel (k : N) : otree -> N -> N -> bool -> order bytes -> otree -> otree -> Prop :=
| del_l h n key ch o sib : o_id o = k ->
    odel k (OInner h n key (OLeaf ch o) sib) h ch false o sib (reroot h sib)
| del_r h n key ch o sib : o_id o = k ->
    odel k (OInner h n key sib (OLeaf ch o)) h ch true o sib (reroot h sib)
| del_in_l h n key l r ph ch bit o sib l' : odel k l ph ch bit o sib l' ->
    odel k (OInner h n key l r) ph ch bit o sib (OInner h n key l' r)
| del_in_r h n key l r ph ch bit o sib r' : odel k r ph ch bit o sib r' ->
    odel k (OInner h n key l r) ph ch bit o sib (OInner h n key l r').

Lemma reroot_root h t : oroot (reroot h t) = h.
Proof. by destruct t. Qed.
Lemma reroot_orders h t : oorders (reroot h t) = oorders t.
Proof. by destruct t. Qed.
Lemma reroot_slots h t : exists rest, oslots t = oroot t :: rest /\ oslots (reroot h t) = h :: rest.
Proof. destruct t; cbn; eauto. Qed.
Lemma odel_root k t ph ch bit o sib t' : odel k t ph ch bit o sib t' -> oroot t' = oroot t.
Proof. destruct 1; cbn; by rewrite ?reroot_root. Qed.
Lemma odel_slots k t ph ch bit o sib t' : odel k t ph ch bit o sib t' ->
  oslots t ≡ₚ ch :: oroot sib :: oslots t'.
Proof.
  induction 1 as [h n key ch o sib E|h n key ch o sib E|h n key l r ph ch bit o sib l' H IH|h n key l r ph ch bit o sib r' H IH].
  - destruct (reroot_slots h sib) as (rest&E1&E2). cbn [oslots app]. rewrite E1, E2. cbn [app].
    rewrite (Permutation_swap ch h). constructor. apply Permutation_swap.
  - destruct (reroot_slots h sib) as (rest&E1&E2). cbn [oslots]. rewrite E1, E2. cbn [app].
    rewrite (Permutation_app_comm rest [ch]). cbn [app].
    rewrite (Permutation_swap ch (oroot sib)), (Permutation_swap ch h). constructor.
    by rewrite (Permutation_swap h).
  - cbn [oslots]. rewrite IH. cbn [app].
    rewrite (Permutation_swap ch h). constructor. apply Permutation_swap.
  - cbn [oslots]. rewrite IH. rewrite (Permutation_app_comm (oslots l)). cbn [app].
    rewrite (Permutation_app_comm (oslots r')).
    rewrite (Permutation_swap ch h). constructor. apply Permutation_swap.
Qed.
Lemma odel_parent_in k t ph ch bit o sib t' : odel k t ph ch bit o sib t' -> ph ∈ oslots t'.
Proof.
  induction 1 as [h n key ch o sib E|h n key ch o sib E|h n key l r ph ch bit o sib l' H IH|h n key l r ph ch bit o sib r' H IH].
  - rewrite <- (reroot_root h sib) at 1. apply oroot_slot.
  - rewrite <- (reroot_root h sib) at 1. apply oroot_slot.
  - cbn. right. apply elem_of_app. by left.
  - cbn. right. apply elem_of_app. by right.
Qed.
Lemma odel_key k t ph ch bit o sib t' : odel k t ph ch bit o sib t' -> o_id o = k /\ (ch, o) ∈ oleaves t.
Proof.
  induction 1 as [h n key ch o sib E|h n key ch o sib E|h n key l r ph ch bit o sib l' H IH|h n key l r ph ch bit o sib r' H IH].
  - split; [done|]. cbn. left.
  - split; [done|]. cbn. apply elem_of_app. right. left.
  - destruct IH as [? ?]. split; [done|]. cbn. apply elem_of_app. by left.
  - destruct IH as [? ?]. split; [done|]. cbn. apply elem_of_app. by right.
Qed.
Lemma odel_perm k t ph ch bit o sib t' : odel k t ph ch bit o sib t' -> oorders t ≡ₚ o :: oorders t'.
Proof.
  induction 1 as [h n key ch o sib E|h n key ch o sib E|h n key l r ph ch bit o sib l' H IH|h n key l r ph ch bit o sib r' H IH];
    rewrite ?oorders_inner, ?reroot_orders.
  - done.
  - by rewrite (Permutation_app_comm (oorders sib)).
  - by rewrite IH.
  - rewrite IH. by rewrite <- Permutation_middle.
Qed.
Lemma odel_keys k t ph ch bit o sib t' x : odel k t ph ch bit o sib t' -> x ∈ okeys t' -> x ∈ okeys t.
Proof.
  intros H. unfold okeys. rewrite (odel_perm _ _ _ _ _ _ _ _ H). cbn. intros Hx. by right.
Qed.
Definition drop_id (k : N) (os : list (order bytes)) : list (order bytes) :=
  List.filter (fun o => negb (o_id o =? k)) os.
Lemma drop_id_none k os : k ∉ map o_id os -> drop_id k os = os.
Proof.
  induction os as [|o os IH]; [done|]. cbn. rewrite not_elem_of_cons. intros [H1 H2].
  destruct (N.eqb_spec (o_id o) k); [congruence|]. cbn. f_equal. by apply IH.
Qed.
Lemma odel_orders k t ph ch bit o sib t' : odel k t ph ch bit o sib t' -> NoDup (okeys t) ->
  oorders t' = drop_id k (oorders t).
Proof.
  unfold okeys. induction 1 as [h n key ch o sib E|h n key ch o sib E|h n key l r ph ch bit o sib l' H IH|h n key l r ph ch bit o sib r' H IH];
    rewrite ?oorders_inner, ?reroot_orders; unfold drop_id; rewrite List.filter_app, map_app; intros Hnd;
    apply NoDup_app in Hnd as (N1&N2&N3).
  - cbn. rewrite E, N.eqb_refl. cbn. symmetry. apply drop_id_none. intros Hin. eapply N2; [|exact Hin].
    cbn. rewrite E. left.
  - cbn. rewrite E, N.eqb_refl. cbn. rewrite app_nil_r. symmetry. apply drop_id_none. intros Hin.
    apply (N2 k); [done|]. cbn. rewrite E. left.
  - f_equal; [by apply IH|]. symmetry. apply drop_id_none. intros Hin. apply (N2 k); [|done].
    destruct (odel_key _ _ _ _ _ _ _ _ H) as [<- Ho]. apply elem_of_list_fmap_1. unfold oorders.
    by apply (elem_of_list_fmap_1 snd) in Ho.
  - f_equal; [|by apply IH]. symmetry. apply drop_id_none. intros Hin. apply (N2 k); [done|].
    destruct (odel_key _ _ _ _ _ _ _ _ H) as [<- Ho]. apply elem_of_list_fmap_1. unfold oorders.
    by apply (elem_of_list_fmap_1 snd) in Ho.
Qed.
Lemma odel_shape k t ph ch bit o sib t' lo : odel k t ph ch bit o sib t' -> oshape lo t -> oshape lo t'.
Proof.
  intros H. revert lo. induction H as [h n key ch o sib E|h n key ch o sib E|h n key l r ph ch bit o sib l' H IH|h n key l r ph ch bit o sib r' H IH];
    intros lo; cbn [oshape].
  - intros (Hn&_&_&_&Hs). apply (oshape_mono (n + 1) lo) in Hs; [|lia]. by destruct sib.
  - intros (Hn&_&_&Hs&_). apply (oshape_mono (n + 1) lo) in Hs; [|lia]. by destruct sib.
  - intros (Hn&Kl&Kr&Hl&Hr). split_and!; try done; try lia; [|by apply IH].
    intros x Hx. apply Kl. by eapply odel_keys.
  - intros (Hn&Kl&Kr&Hl&Hr). split_and!; try done; try lia; [|by apply IH].
    intros x Hx. apply Kr. by eapply odel_keys.
Qed.
Lemma odel_stored k t ph ch bit o sib t' data data' cs slot : odel k t ph ch bit o sib t' ->
  NoDup (oslots t) -> ostored data cs slot t ->
  (forall h b, h ∈ oslots t -> h <> ch -> h <> oroot sib -> h <> ph ->
     slot_holds data slot h b -> slot_holds data' slot h b) ->
  slot_holds data' slot ph (w_node_bytes (onode sib)) -> ostored data' cs slot t'.
Proof.
  assert (Hre : forall h (sib : otree), NoDup (oslots sib) -> h ∉ oslots sib ->
    ostored data cs slot sib ->
    (forall h' b, h' ∈ oslots sib -> h' <> oroot sib -> slot_holds data slot h' b -> slot_holds data' slot h' b) ->
    slot_holds data' slot h (w_node_bytes (onode sib)) -> ostored data' cs slot (reroot h sib)).
  { intros h sb Hnd Hni Hst He Hh. destruct sb as [hs os|hs ns ks sl sr]; cbn in Hst |- *.
    - by destruct Hst.
    - destruct Hst as (_&Hk&Hl&Hr). cbn in Hnd. apply NoDup_cons in Hnd as [Hn1 Hn2].
      split_and!; [done|done| |].
      + eapply stored_ext; [|done]. intros h' b Hh'. apply He; cbn.
        * right. apply elem_of_app. by left.
        * intros ->. apply Hn1, elem_of_app. by left.
      + eapply stored_ext; [|done]. intros h' b Hh'. apply He; cbn.
        * right. apply elem_of_app. by right.
        * intros ->. apply Hn1, elem_of_app. by right. }
  induction 1 as [h n key ch o sib E|h n key ch o sib E|h n key l r ph ch bit o sib l' H IH|h n key l r ph ch bit o sib r' H IH];
    cbn [oslots]; intros Hnd; cbn [ostored]; intros (Hh&Hk&Hl&Hr) He Hp;
    apply NoDup_cons in Hnd as [Hn1 Hn2]; apply NoDup_app in Hn2 as (N1&N2&N3);
    rewrite not_elem_of_app in Hn1; destruct Hn1 as [Hn1 Hn1'].
  - apply Hre; try done. intros h' b Hh' Hne. apply He; try done.
    + right. apply elem_of_app. by right.
    + intros ->. apply (N2 ch); [left|done].
    + by intros ->.
  - apply Hre; try done. intros h' b Hh' Hne. apply He; try done.
    + right. apply elem_of_app. by left.
    + intros ->. apply (N2 ch); [done|left].
    + by intros ->.
  - pose proof (odel_slots _ _ _ _ _ _ _ _ H) as Hs.
    assert (Hin : ch ∈ oslots l /\ oroot sib ∈ oslots l /\ ph ∈ oslots l).
    { rewrite Hs. split; [left|]. split; [right; left|]. do 2 right. by eapply odel_parent_in. }
    destruct Hin as (I1&I2&I3). split_and!; [|done| |].
    + rewrite (odel_root _ _ _ _ _ _ _ _ H). apply He; try (by intros ->); [left|done].
    + apply IH; try done. intros h' b Hh'. apply He. right. apply elem_of_app. by left.
    + eapply stored_ext; [|done]. intros h' b Hh'. apply He; [right; apply elem_of_app; by right|..];
        intros ->; first [by apply (N2 ch)|by apply (N2 (oroot sib))|by apply (N2 ph)].
  - pose proof (odel_slots _ _ _ _ _ _ _ _ H) as Hs.
    assert (Hin : ch ∈ oslots r /\ oroot sib ∈ oslots r /\ ph ∈ oslots r).
    { rewrite Hs. split; [left|]. split; [right; left|]. do 2 right. by eapply odel_parent_in. }
    destruct Hin as (I1&I2&I3). split_and!; [|done| |].
    + rewrite (odel_root _ _ _ _ _ _ _ _ H). apply He; try (by intros ->); [left|done].
    + eapply stored_ext; [|done]. intros h' b Hh'. apply He; [right; apply elem_of_app; by left|..];
        intros ->; first [by apply (N2 ch)|by apply (N2 (oroot sib))|by apply (N2 ph)].
    + apply IH; try done. intros h' b Hh'. apply He. right. apply elem_of_app. by right.
Qed.

(** ** Reading a stored tree *)
Section R.
Context (s : w_slab).
Notation data := (ws_buffer s).
Notation slot := (N.to_nat (ws_slot s)).
Notation stored := (ostored data (ws_cs s) slot).
Hypothesis Hmem : N.of_nat (length data) < p32.
Hypothesis Hroom : N.of_nat (ws_cs s) + 25 <= ws_slot s /\ 32 <= ws_slot s.

Lemma in_slab_small h : in_slab data slot h -> h < p32.
Proof. unfold in_slab. intros H. assert (N.to_nat h <= N.to_nat h * slot)%nat by nia. lia. Qed.
Lemma root_small t : stored t -> oroot t < p32.
Proof. intros H. apply in_slab_small. eapply stored_in; [done|apply oroot_slot]. Qed.
Lemma get_stored t lo : stored t -> oshape lo t -> w_get_node s (oroot t) = Ok (Some (onode t)).
Proof.
  destruct t as [h o|h n key l r]; cbn [ostored oshape oroot onode].
  - intros (H1&H2) _. by apply get_leaf.
  - intros (H1&H2&H3&H4) (H5&_). apply get_inner; try done; [lia|by apply root_small..].
Qed.
Lemma at_stored t lo : stored t -> oshape lo t -> w_node_at s (oroot t) = Ok (onode t).
Proof. intros H1 H2. unfold w_node_at. by rewrite (get_stored _ _ H1 H2). Qed.
Lemma onode_bytes t : stored t -> (length (w_node_bytes (onode t)) <= slot)%nat.
Proof.
  intros H. apply (node_bytes_length (ws_cs s)); [lia..|]. intros l Hl.
  destruct t as [h o|]; [|done]. cbn in Hl. injection Hl as <-. by destruct H as (_&_&_&?).
Qed.

(** Where the walk of a key goes. *)
Lemma key_side h n key l r lo k : oshape lo (OInner h n key l r) -> k ∈ okeys (OInner h n key l r) ->
  k ∈ okeys (if N.testbit k (127 - n) then r else l).
Proof.
  cbn [oshape]. intros (_&Kl&Kr&_&_). rewrite okeys_inner, elem_of_app. intros [H|H].
  - destruct (Kl _ H) as [_ ->]. done.
  - destruct (Kr _ H) as [_ ->]. done.
Qed.
Definition in_keys (k : N) (t : otree) : bool := existsb (N.eqb k) (okeys t).
Lemma in_keys_spec k t : in_keys k t = true <-> k ∈ okeys t.
Proof.
  unfold in_keys. rewrite existsb_exists, elem_of_list_In. split.
  - intros (x&Hx&E). apply N.eqb_eq in E. by subst.
  - intros H. exists k. split; [done|apply N.eqb_refl].
Qed.
Lemma walk_ok k t : forall lo hp bitp, stored t -> oshape lo t -> exists n, forall fuel, (n <= fuel)%nat ->
  (k ∉ okeys t -> w_remove_walk fuel s hp (oroot t) bitp k = Ok None) /\
  (k ∈ okeys t ->
    (exists o, t = OLeaf (oroot t) o /\ o_id o = k /\ w_remove_walk fuel s hp (oroot t) bitp k = Ok (Some (hp, oroot t, bitp))) \/
    (exists ph ch bit o sib t', odel k t ph ch bit o sib t' /\
       w_remove_walk fuel s hp (oroot t) bitp k = Ok (Some (ph, ch, bit)))).
Proof.
  induction t as [h o|h n key l IHl r IHr]; intros lo hp bitp Hst Hsh.
  - exists 1%nat. intros [|f] Hf; [lia|]. cbn [w_remove_walk].
    rewrite (rbind_ok _ _ _ (at_stored _ _ Hst Hsh)). cbn [onode w_leaf_of wl_key oroot].
    unfold okeys, oorders. cbn [oleaves map snd]. rewrite elem_of_list_singleton. split.
    + intros H. destruct (N.eqb_spec (o_id o) k); [congruence|done].
    + intros ->. left. exists o. by rewrite N.eqb_refl.
  - cbn [ostored] in Hst. pose proof Hst as (_&_&Sl&Sr). pose proof Hsh as Hsh0. cbn [oshape] in Hsh. destruct Hsh as (Hn&Kl&Kr&Ol&Or).
    destruct (IHl (n + 1) h false Sl Ol) as (nl&Il). destruct (IHr (n + 1) h true Sr Or) as (nr&Ir).
    exists (S (nl + nr)). intros [|f] Hf; [lia|]. cbn [w_remove_walk].
    rewrite (rbind_ok _ _ _ (at_stored (OInner h n key l r) lo Hst Hsh0)). cbn [onode oroot].
    rewrite walk_down_bit by (cbn; lia). cbn [wi_c0 wi_c1 wi_plen].
    specialize (Il f ltac:(lia)). specialize (Ir f ltac:(lia)).
    pose proof (key_side _ _ _ _ _ _ k Hsh0) as Hside. rewrite okeys_inner in Hside |- *.
    destruct (N.testbit k (127 - n)) eqn:Eb.
    + destruct Ir as [I1 I2]. split.
      * intros H. apply I1. rewrite not_elem_of_app in H. tauto.
      * intros H. destruct (I2 (Hside H)) as [(o&Ho&Hk&E)|(ph&ch&bit&o&sib&t'&D&E)]; right.
        -- exists h, (oroot r), true, o, l, (reroot h l). split; [|done]. rewrite Ho. by constructor.
        -- do 6 eexists. split; [by apply del_in_r|done].
    + destruct Il as [I1 I2]. split.
      * intros H. apply I1. rewrite not_elem_of_app in H. tauto.
      * intros H. destruct (I2 (Hside H)) as [(o&Ho&Hk&E)|(ph&ch&bit&o&sib&t'&D&E)]; right.
        -- exists h, (oroot l), false, o, r, (reroot h r). split; [|done]. rewrite Ho. by constructor.
        -- do 6 eexists. split; [by apply del_in_l|done].
Qed.
(** The parent found by the walk. *)
Lemma odel_parent k t ph ch bit o sib t' lo : odel k t ph ch bit o sib t' -> stored t -> oshape lo t ->
  (exists n, w_node_at s ph = Ok (WInner n) /\ wi_c0 n = (if bit then oroot sib else ch) /\
     wi_c1 n = (if bit then ch else oroot sib)) /\
  w_get_node s ch = Ok (Some (WLeaf (w_leaf_of o))) /\ stored sib /\ exists lo', oshape lo' sib.
Proof.
  intros H. revert lo. induction H as [h n key ch o sib E|h n key ch o sib E|h n key l r ph ch bit o sib l' H IH|h n key l r ph ch bit o sib r' H IH];
    intros lo Hst Hsh.
  - pose proof (at_stored _ _ Hst Hsh) as Ha. cbn [oroot onode] in Ha.
    destruct Hst as (_&_&Sl&Sr). destruct Hsh as (_&_&_&Ol&Or).
    split; [eexists; split; [exact Ha|done]|]. split; [|by eauto].
    exact (get_stored _ _ Sl Ol).
  - pose proof (at_stored _ _ Hst Hsh) as Ha. cbn [oroot onode] in Ha.
    destruct Hst as (_&_&Sl&Sr). destruct Hsh as (_&_&_&Ol&Or).
    split; [eexists; split; [exact Ha|done]|]. split; [|by eauto].
    exact (get_stored _ _ Sr Or).
  - destruct Hst as (_&_&Sl&Sr). destruct Hsh as (_&_&_&Ol&Or). by eapply IH.
  - destruct Hst as (_&_&Sl&Sr). destruct Hsh as (_&_&_&Ol&Or). by eapply IH.
Qed.
End R.

(** ** The chain of free slots *)
Lemma ofree_ext data data' slot free : forall head,
  (forall h b, h ∈ free -> slot_holds data slot h b -> slot_holds data' slot h b) ->
  ofree data slot head free -> ofree data' slot head free.
Proof.
  induction free as [|h free IH]; intros head He; [done|]. cbn [ofree]. intros (E&H). split; [done|].
  destruct free as [|h' free].
  - destruct H as (x&H). exists x. apply He; [left|done].
  - destruct H as (H1&H2). split; [apply He; [left|done]|]. apply IH; [|done].
    intros ?? Hh. apply He. by right.
Qed.
Lemma ofree_push data slot head free h : ofree data slot head free -> h ∉ free -> in_slab data slot h ->
  (32 <= slot)%nat ->
  ofree (at_slot data slot h (w_node_bytes (if N.of_nat (length free) =? 0 then WLastFree head else WFree head)))
    slot h (h :: free).
Proof.
  intros H Hni Hin Hs. split; [done|].
  assert (Hlen : forall n, n = WLastFree head \/ n = WFree head -> (length (w_node_bytes n) <= slot)%nat).
  { intros n [->| ->]; unfold w_node_bytes; rewrite app_length, le_enc_length; cbn [length]; lia. }
  destruct free as [|h' free].
  - exists head. apply (holds_new data slot h (w_node_bytes (WLastFree head))); [done|]. apply Hlen. by left.
  - destruct (N.eqb_spec (N.of_nat (length (h' :: free))) 0) as [E|_]; [done|].
    pose proof H as [<- _]. split.
    + apply (holds_new data slot h (w_node_bytes (WFree h'))); [done|]. apply Hlen. by right.
    + eapply ofree_ext; [|exact H]. intros x b Hx. apply holds_other; [done|apply Hlen; by right|]. by intros ->.
Qed.

(** ** Removing by key *)
Lemma free_bytes_length (b : bool) x : length (w_node_bytes (if b then WLastFree x else WFree x)) = 5%nat.
Proof. destruct b; unfold w_node_bytes; rewrite app_length, le_enc_length; done. Qed.
Lemma slab_in s os free loose h : old_slab s os free loose -> h < wh_bump (ws_header s) ->
  in_slab (ws_buffer s) (N.to_nat (ws_slot s)) h.
Proof. intros H Hh. pose proof (sl_used _ _ _ _ H). unfold in_slab. nia. Qed.
Lemma slab_bump s os free loose : old_slab s os free loose -> wh_bump (ws_header s) < 134217728.
Proof. intros H. pose proof (sl_used _ _ _ _ H). pose proof (sl_memory _ _ _ _ H). destruct (sl_room _ _ _ _ H). nia. Qed.
Lemma slab_free_bound s os free loose : old_slab s os free loose ->
  N.of_nat (length free) <= wh_bump (ws_header s).
Proof.
  intros H. destruct (sl_tree _ _ _ _ H) as (slots&_&Hnd&Hall).
  apply NoDup_app in Hnd as (_&_&Hnd). apply NoDup_app in Hnd as (Hnd&_&_).
  assert (Hs : free ⊆ map N.of_nat (seq 0 (N.to_nat (wh_bump (ws_header s))))).
  { intros h Hh. assert (h < wh_bump (ws_header s)) by (apply Hall; set_solver).
    apply elem_of_list_fmap. exists (N.to_nat h). split; [lia|]. apply elem_of_seq. lia. }
  assert (Hs' : free ⊆+ map N.of_nat (seq 0 (N.to_nat (wh_bump (ws_header s))))) by (by apply NoDup_submseteq).
  apply submseteq_length in Hs'. rewrite map_length, seq_length in Hs'. lia.
Qed.

Lemma remove_inner s os free loose k h n key l r ph ch bit o sib t' :
  old_slab s os free loose -> let t := OInner h n key l r in
  os = oorders t -> oroot t = wh_root (ws_header s) ->
  ostored (ws_buffer s) (ws_cs s) (N.to_nat (ws_slot s)) t -> oshape 0 t ->
  NoDup (oslots t ++ free ++ loose) ->
  (forall h, h ∈ oslots t ++ free ++ loose <-> h < wh_bump (ws_header s)) ->
  odel k t ph ch bit o sib t' ->
  exists s',
    (let! p := lift (w_node_at s ph) in
     let! c := lift (unwrap (w_children p)) in
     let! contents := w_remove_unwrap (if bit then fst c else snd c) in
     do! w_write_node_unwrap contents ph in
     do! w_header_do (fun h => w_set_tree (wh_root h) ((wh_leaf_count h + p64 - 1) mod p64) h) in
     let! removed := w_remove_unwrap ch in
     ret (Some removed)) s = (Ok (Some (WLeaf (w_leaf_of o))), s') /\
    old_slab s' (drop_id k os) (ch :: oroot sib :: free) loose /\
    wh_bump (ws_header s') = wh_bump (ws_header s) /\
    wh_tag (ws_header s') = wh_tag (ws_header s) /\ wh_market (ws_header s') = wh_market (ws_header s) /\
    length (ws_buffer s') = length (ws_buffer s) /\ ws_cs s' = ws_cs s /\ ws_slot s' = ws_slot s.
Proof.
  intros Hs t Hos Hroot Hst Hsh Hnd Hall D.
  pose proof (sl_memory _ _ _ _ Hs) as Hmem. pose proof (sl_room _ _ _ _ Hs) as Hroom.
  set (data := ws_buffer s) in *. set (slot := N.to_nat (ws_slot s)) in *.
  destruct (odel_parent s Hmem Hroom k t ph ch bit o sib t' 0 D Hst Hsh) as ((pn&Hp&Hc0&Hc1)&Hch&Hsib&lo'&Osib).
  pose proof (odel_slots _ _ _ _ _ _ _ _ D) as Hperm.
  pose proof (odel_parent_in _ _ _ _ _ _ _ _ D) as Hph.
  pose proof Hnd as Hnd0. rewrite Hperm in Hnd. cbn [app] in Hnd.
  apply NoDup_cons in Hnd as [Nch Hnd]. apply NoDup_cons in Hnd as [Nsib Hnd].
  assert (Hin : forall x, x ∈ oslots t ++ free ++ loose -> in_slab data slot x).
  { intros x Hx. eapply slab_in; [done|]. by apply Hall. }
  assert (Ich : in_slab data slot ch) by (apply Hin; rewrite Hperm; left).
  assert (Isib : in_slab data slot (oroot sib)) by (apply Hin; rewrite Hperm; right; left).
  assert (Iph : in_slab data slot ph) by (apply Hin; rewrite Hperm; do 2 right; apply elem_of_app; by left).
  assert (Ecs : ch <> oroot sib) by (intros E; apply Nch; rewrite E; left).
  assert (Ecp : ch <> ph) by (intros E; apply Nch; right; apply elem_of_app; left; by rewrite E).
  assert (Esp : oroot sib <> ph) by (intros E; apply Nsib; apply elem_of_app; left; by rewrite E).
  assert (Hslot : (32 <= slot)%nat) by lia.
  pose proof (get_stored s Hmem Hroom sib lo' Hsib Osib) as Gsib.
  pose proof (onode_bytes s Hmem Hroom sib Hsib) as Lsib. fold slot in Lsib.
  pose proof (slab_bump _ _ _ _ Hs) as Hbump. pose proof (slab_free_bound _ _ _ _ Hs) as Hfb.
  rewrite (bind_lift _ (WInner pn)) by done. rewrite (bind_lift _ (wi_c0 pn, wi_c1 pn)) by done. cbn [fst snd].
  assert (Esib : (if bit then wi_c0 pn else wi_c1 pn) = oroot sib) by (rewrite Hc0, Hc1; by destruct bit).
  rewrite Esib.
  pose proof (remove_slot_ok s Hmem (oroot sib) (onode sib) Gsib Isib Hslot) as E1.
  rewrite (bind_ok _ _ _ _ _ E1). clear E1. fold data slot. rewrite (sl_free_len _ _ _ _ Hs).
  set (f1 := w_node_bytes (if N.of_nat (length free) =? 0 then WLastFree (wh_free_head (ws_header s))
    else WFree (wh_free_head (ws_header s)))).
  assert (Lf1 : (length f1 <= slot)%nat).
  { unfold f1. rewrite free_bytes_length. lia. }
  assert (E64 : as_u64 (N.of_nat (length free) + 1) = N.of_nat (S (length free))).
  { unfold as_u64. rewrite N.mod_small; lia. }
  rewrite E64.
  set (d1 := at_slot data slot (oroot sib) f1).
  assert (Ld1 : length d1 = length data) by (by apply at_slot_length).
  assert (Keep1 : forall x b, x <> oroot sib -> slot_holds data slot x b -> slot_holds d1 slot x b)
    by (intros; by apply holds_other).
  set (s1 := w_set_header (w_set_free (N.of_nat (S (length free))) (oroot sib) (ws_header s)) (w_set_buffer d1 s)).
  assert (Iph1 : in_slab d1 slot ph) by (unfold in_slab; rewrite Ld1; exact Iph).
  assert (Hm1 : N.of_nat (length (ws_buffer s1)) < p32) by (change (ws_buffer s1) with d1; by rewrite Ld1).
  pose proof (write_node_ok s1 Hm1 (onode sib) ph Iph1 Lsib) as E2.
  rewrite (bind_ok _ _ _ _ _ E2). clear E2.
  change (ws_buffer s1) with d1. change (N.to_nat (ws_slot s1)) with slot.
  set (d2 := at_slot d1 slot ph (w_node_bytes (onode sib))).
  assert (Ld2 : length d2 = length data) by (unfold d2; rewrite at_slot_length; done).
  assert (Keep2 : forall x b, x <> ph -> slot_holds d1 slot x b -> slot_holds d2 slot x b)
    by (intros; by apply holds_other).
  unfold w_header_do at 1. rewrite (bind_ok _ _ _ _ _ (eq_refl : modify _ _ = (Ok tt, _))).
  assert (Hcount : (wh_leaf_count (ws_header s) + p64 - 1) mod p64 = N.of_nat (length os) - 1).
  { rewrite (sl_count _ _ _ _ Hs).
    assert (length os <> 0%nat /\ N.of_nat (length os) <= wh_bump (ws_header s)) as [? ?].
    { rewrite Hos. pose proof (oslots_length t) as Ht.
      assert (Hle : (length (oslots t) <= length (map N.of_nat (seq 0 (N.to_nat (wh_bump (ws_header s))))))%nat).
      { apply submseteq_length, NoDup_submseteq; [by apply NoDup_app in Hnd0 as (?&_)|].
        intros x Hx. assert (x < wh_bump (ws_header s)) by (apply Hall, elem_of_app; by left).
        apply elem_of_list_fmap. exists (N.to_nat x). split; [lia|]. apply elem_of_seq. lia. }
      rewrite map_length, seq_length in Hle.
      assert (1 <= length (oslots t))%nat by (unfold t; cbn; lia). lia. }
    replace (N.of_nat (length os) + p64 - 1) with (N.of_nat (length os) - 1 + 1 * p64) by lia.
    rewrite N.mod_add by done. apply N.mod_small. lia. }
  set (s3 := w_set_header (w_set_tree (wh_root (ws_header s)) (N.of_nat (length os) - 1)
    (w_set_free (N.of_nat (S (length free))) (oroot sib) (ws_header s))) (w_set_buffer d2 s)).
  assert (Es3 : w_set_header (w_set_tree (wh_root (ws_header (w_set_buffer d2 s1)))
    ((wh_leaf_count (ws_header (w_set_buffer d2 s1)) + p64 - 1) mod p64) (ws_header (w_set_buffer d2 s1))) (w_set_buffer d2 s1) = s3).
  { unfold s3, s1. cbn [ws_header w_set_buffer w_set_header wh_root w_set_free wh_leaf_count]. by rewrite Hcount. }
  rewrite Es3. clear Es3.
  assert (Hm3 : N.of_nat (length (ws_buffer s3)) < p32) by (change (ws_buffer s3) with d2; by rewrite Ld2).
  assert (Gch : w_get_node s3 ch = Ok (Some (WLeaf (w_leaf_of o)))).
  { destruct (odel_key _ _ _ _ _ _ _ _ D) as [_ Hl]. destruct (stored_order _ _ _ _ _ _ Hst Hl) as [H1 H2].
    apply get_leaf; [done| |done]. apply Keep2; [done|]. by apply Keep1. }
  assert (Ich3 : in_slab (ws_buffer s3) (N.to_nat (ws_slot s3)) ch).
  { unfold in_slab. change (ws_buffer s3) with d2. rewrite Ld2. exact Ich. }
  pose proof (remove_slot_ok s3 Hm3 ch _ Gch Ich3 Hslot) as E3.
  rewrite (bind_ok _ _ _ _ _ E3). clear E3.
  change (ws_buffer s3) with d2. change (N.to_nat (ws_slot s3)) with slot.
  change (wh_free_len (ws_header s3)) with (N.of_nat (length (oroot sib :: free))).
  change (wh_free_head (ws_header s3)) with (oroot sib).
  set (f2 := w_node_bytes (if N.of_nat (length (oroot sib :: free)) =? 0 then WLastFree (oroot sib) else WFree (oroot sib))).
  assert (Lf2 : (length f2 <= slot)%nat).
  { unfold f2. rewrite free_bytes_length. lia. }
  set (d3 := at_slot d2 slot ch f2).
  assert (Ich2 : in_slab d2 slot ch) by exact Ich3.
  assert (Ld3 : length d3 = length data) by (unfold d3; rewrite at_slot_length; done).
  assert (Keep3 : forall x b, x <> ch -> slot_holds d2 slot x b -> slot_holds d3 slot x b)
    by (intros; by apply holds_other).
  eexists. split; [reflexivity|].
  assert (E65 : as_u64 (N.of_nat (length (oroot sib :: free)) + 1) = N.of_nat (length (ch :: oroot sib :: free))).
  { unfold as_u64. cbn [length]. rewrite N.mod_small; lia. }
  rewrite E65. clear E64 E65.
  assert (Horders : oorders t' = drop_id k os).
  { rewrite Hos. eapply odel_orders; [done|]. eapply ss_lt_NoDup, shape_sorted; eauto. }
  split; [|split_and!; try done].
  cbn [ws_buffer ws_cs ws_slot ws_header w_set_header w_set_buffer] in *.
  split; cbn [ws_buffer ws_cs ws_slot ws_header w_set_header w_set_buffer s3 w_set_free w_set_tree wh_bump wh_tag
    wh_free_len wh_free_head wh_root wh_leaf_count wh_market].
  - done.
  - by rewrite Ld3.
  - rewrite Ld3. exact (sl_used _ _ _ _ Hs).
  - destruct (sl_header _ _ _ _ Hs) as (A1&A2&A3&A4). split_and!; try done.
    apply (in_slab_small s Hmem Hroom). done.
  - rewrite <- Horders. pose proof (odel_perm _ _ _ _ _ _ _ _ D) as Hop. apply Permutation_length in Hop.
    rewrite Hos, Hop. cbn [length]. lia.
  - done.
  - apply ofree_push; [|intros Hx; apply elem_of_cons in Hx as [Hx|Hx]; [done|];
      apply Nch; right; apply elem_of_app; right; apply elem_of_app; by left|done|done].
    apply (ofree_ext d1 d2).
    { intros x b Hx. apply Keep2. intros ->. apply elem_of_cons in Hx as [Hx|Hx]; [done|].
      apply NoDup_app in Hnd as (_&Hd&_). apply (Hd ph Hph). apply elem_of_app. by left. }
    apply ofree_push; [|intros Hx; apply Nsib, elem_of_app; right; apply elem_of_app; by left|done|done]. exact (sl_free _ _ _ _ Hs).
  - exists (oslots t'). split.
    + right. exists t'. split_and!; try done.
      * rewrite (odel_root _ _ _ _ _ _ _ _ D). done.
      * eapply (odel_stored k t ph ch bit o sib t' data d3); [done|by apply NoDup_app in Hnd0 as (?&_)|done| |].
        -- intros x b _ X1 X2 X3 Hx. apply Keep3, Keep2, Keep1; done.
        -- apply Keep3; [done|]. apply holds_new; done.
      * by eapply odel_shape.
    + assert (Hp2 : oslots t' ++ (ch :: oroot sib :: free) ++ loose ≡ₚ oslots t ++ free ++ loose).
      { rewrite Hperm. cbn [app]. by rewrite <- !Permutation_middle. }
      split; [by rewrite Hp2|]. intros x. rewrite Hp2. apply Hall.
Qed.

Lemma slab_orders s os free loose : old_slab s os free loose ->
  NoDup (map o_id os) /\ (forall o, o ∈ os -> old_order_ok (ws_cs s) o).
Proof.
  intros H. destruct (sl_tree _ _ _ _ H) as (slots&[[-> _]|(t&->&_&_&Hst&Hsh)]&_).
  - split; [constructor|]. intros o Ho. by apply elem_of_nil in Ho.
  - split; [by eapply ss_lt_NoDup, shape_sorted|]. intros o Ho. apply elem_of_list_fmap in Ho as ((h&o')&->&Ho).
    by eapply stored_order.
Qed.
Lemma slab_root s os free loose : old_slab s os free loose ->
  w_root s = match os with [] => None | _ => Some (wh_root (ws_header s)) end.
Proof.
  intros H. unfold w_root. rewrite (sl_count _ _ _ _ H). by destruct os.
Qed.
Lemma drop_id_one k o : o_id o = k -> drop_id k [o] = [].
Proof. intros <-. cbn. by rewrite N.eqb_refl. Qed.

Lemma walk_mono s k x : forall n m hp h b, w_remove_walk n s hp h b k = Ok x -> (n <= m)%nat ->
  w_remove_walk m s hp h b k = Ok x.
Proof.
  induction n as [|n IH]; intros m hp h b; [done|]. destruct m as [|m]; [lia|]. cbn [w_remove_walk].
  destruct (w_node_at s h) as [nd|?|?|]; try done. rewrite !(rbind_ok _ _ _ eq_refl).
  destruct nd as [|i|lf|?|?]; try done. destruct (w_walk_down i k) as [c b']. intros H Hm. apply IH; [done|lia].
Qed.
Lemma remove_present s os free loose o : old_slab s os free loose -> o ∈ os ->
  exists s' freed n, (forall fuel, (n <= fuel)%nat ->
    w_remove_by_key fuel (o_id o) s = (Ok (Some (WLeaf (w_leaf_of o))), s')) /\
  old_slab s' (drop_id (o_id o) os) (freed ++ free) loose /\
  length freed = (if (length os =? 1)%nat then 1 else 2)%nat /\
  wh_bump (ws_header s') = wh_bump (ws_header s) /\
  wh_tag (ws_header s') = wh_tag (ws_header s) /\ wh_market (ws_header s') = wh_market (ws_header s) /\
  length (ws_buffer s') = length (ws_buffer s) /\ ws_cs s' = ws_cs s /\ ws_slot s' = ws_slot s.
Proof.
  intros Hs Ho. pose proof (sl_memory _ _ _ _ Hs) as Hmem. pose proof (sl_room _ _ _ _ Hs) as Hroom.
  pose proof (slab_root _ _ _ _ Hs) as Hr.
  destruct (sl_tree _ _ _ _ Hs) as (slots&[[-> _]|(t&Hos&Esl&Hroot&Hst&Hsh)]&Hnd&Hall); [by apply elem_of_nil in Ho|].
  subst slots. assert (Hne : os <> []) by (intros ->; by apply elem_of_nil in Ho).
  assert (Hr' : w_root s = Some (wh_root (ws_header s))) by (rewrite Hr; by destruct os). clear Hr.
  pose proof (at_stored s Hmem Hroom t 0 Hst Hsh) as Hat. rewrite Hroot in Hat.
  destruct t as [h o'|h n key l r].
  - cbn in Hos. subst os. apply elem_of_list_singleton in Ho as <-. cbn [oroot] in Hroot.
    cbn [onode] in Hat. pose proof (get_stored s Hmem Hroom _ _ Hst Hsh) as Hg. cbn [oroot onode] in Hg.
    assert (Hin : in_slab (ws_buffer s) (N.to_nat (ws_slot s)) h) by (eapply stored_in; [done|left]).
    assert (Hni : h ∉ free).
    { cbn [oslots app] in Hnd. apply NoDup_cons in Hnd as [Hn _]. intros Hx. apply Hn, elem_of_app. by left. }
    pose proof (slab_bump _ _ _ _ Hs) as Hbump. pose proof (slab_free_bound _ _ _ _ Hs) as Hfb.
    set (s1 := w_set_header (w_set_tree 0 0 (ws_header s)) s).
    pose proof (remove_slot_ok s1 Hmem h (WLeaf (w_leaf_of o)) Hg Hin ltac:(cbn; lia)) as E1.
    eexists _, [h], 0%nat. split.
    { intros fuel _. unfold w_remove_by_key. rewrite bind_get, Hr', (bind_lift _ (WLeaf (w_leaf_of o))) by done.
      cbn [w_leaf_of wl_key]. rewrite N.eqb_refl, (sl_count _ _ _ _ Hs). cbn [length N.of_nat N.eqb Pos.eqb Pos.of_succ_nat].
      unfold w_header_do. rewrite (bind_ok _ _ _ _ _ (eq_refl : modify _ _ = (Ok tt, _))). fold s1.
      rewrite <- Hroot, (bind_ok _ _ _ _ _ E1). reflexivity. }
    change (ws_buffer s1) with (ws_buffer s). change (ws_slot s1) with (ws_slot s).
    change (wh_free_len (ws_header s1)) with (wh_free_len (ws_header s)).
    change (wh_free_head (ws_header s1)) with (wh_free_head (ws_header s)).
    rewrite (sl_free_len _ _ _ _ Hs).
    assert (E64 : as_u64 (N.of_nat (length free) + 1) = N.of_nat (length (h :: free))).
    { unfold as_u64. cbn [length]. rewrite N.mod_small; lia. }
    rewrite E64.
    assert (Hl : length (at_slot (ws_buffer s) (N.to_nat (ws_slot s)) h (w_node_bytes
      (if (N.of_nat (length free) =? 0) then WLastFree (wh_free_head (ws_header s)) else WFree (wh_free_head (ws_header s)))))
      = length (ws_buffer s)).
    { apply at_slot_length; [done|]. rewrite free_bytes_length. lia. }
    split; [|split_and!; done].
    destruct (sl_header _ _ _ _ Hs) as (A1&A2&A3&A4).
    split; cbn [ws_buffer ws_cs ws_slot ws_header w_set_header w_set_buffer s1 w_set_free w_set_tree wh_bump wh_tag
      wh_free_len wh_free_head wh_root wh_leaf_count wh_market]; rewrite ?drop_id_one by done; try done.
    + by rewrite Hl.
    + rewrite Hl. exact (sl_used _ _ _ _ Hs).
    + split_and!; try done. by apply (in_slab_small s Hmem Hroom).
    + apply ofree_push; [exact (sl_free _ _ _ _ Hs)|done|done|lia].
    + exists []. split; [by left|]. split; [exact Hnd|exact Hall].
  - assert (Hk : o_id o ∈ okeys (OInner h n key l r)).
    { unfold okeys. rewrite <- Hos. by apply elem_of_list_fmap_1. }
    destruct (walk_ok s Hmem Hroom (o_id o) (OInner h n key l r) 0 0 false Hst Hsh) as (m&Hm).
    assert (Hex : exists ph ch bit o' sib t', odel (o_id o) (OInner h n key l r) ph ch bit o' sib t' /\
      forall fuel, (m <= fuel)%nat ->
        w_remove_walk fuel s 0 h false (o_id o) = Ok (Some (ph, ch, bit))).
    { destruct (Hm m (le_n _)) as [_ Hm2]. destruct (Hm2 Hk) as [(?&?&_)|(ph&ch&bit&o'&sib&t'&D&E)]; [done|].
      exists ph, ch, bit, o', sib, t'. split; [done|]. intros fuel Hf.
      cbn [oroot] in E. eapply walk_mono; eauto. }
    destruct Hex as (ph&ch&bit&o'&sib&t'&D&Hw).
    destruct (remove_inner s os free loose (o_id o) h n key l r ph ch bit o' sib t' Hs Hos Hroot Hst Hsh Hnd Hall D)
      as (s'&E&Hs'&Hfr).
    assert (Eo : o' = o).
    { destruct (odel_key _ _ _ _ _ _ _ _ D) as [E1 E2].
      destruct (slab_orders _ _ _ _ Hs) as [Hndk _]. apply (in_id_unique os); try done.
      rewrite Hos. by apply (elem_of_list_fmap_1 snd) in E2. }
    subst o'.
    exists s', [ch; oroot sib], m. split_and!; try done; try apply Hfr.
    + intros fuel Hf. unfold w_remove_by_key. rewrite bind_get, Hr', (bind_lift _ (onode (OInner h n key l r))) by done.
      cbn [onode]. specialize (Hw (S fuel) ltac:(lia)). cbn [w_remove_walk] in Hw.
      rewrite <- Hroot in Hat. cbn [oroot] in Hat.
      rewrite (rbind_ok _ _ _ Hat) in Hw. cbn [onode] in Hw. rewrite <- Hroot. cbn [oroot].
      destruct (w_walk_down _ _) as [c b]. rewrite (bind_lift _ _ _ _ Hw). exact E.
    + rewrite Hos, oorders_inner, app_length.
      pose proof (oleaves_ne l). pose proof (oleaves_ne r). unfold oorders. rewrite !map_length.
      destruct (oleaves l), (oleaves r); try done. cbn. by destruct (length l0 + _)%nat eqn:E0; [lia|].
Qed.

Lemma remove_absent s os free loose k : old_slab s os free loose -> k ∉ map o_id os ->
  exists n, forall fuel, (n <= fuel)%nat -> w_remove_by_key fuel k s = (Ok None, s).
Proof.
  intros Hs Hk. pose proof (sl_memory _ _ _ _ Hs) as Hmem. pose proof (sl_room _ _ _ _ Hs) as Hroom.
  pose proof (slab_root _ _ _ _ Hs) as Hr.
  destruct (sl_tree _ _ _ _ Hs) as (slots&[[-> _]|(t&Hos&_&Hroot&Hst&Hsh)]&_).
  { exists 0%nat. intros fuel _. unfold w_remove_by_key. by rewrite bind_get, Hr. }
  assert (Hne : os <> []) by (rewrite Hos; unfold oorders; intros E%map_eq_nil; by apply oleaves_ne in E).
  assert (Hr' : w_root s = Some (wh_root (ws_header s))) by (rewrite Hr; by destruct os). clear Hr.
  pose proof (at_stored s Hmem Hroom t 0 Hst Hsh) as Hat. rewrite Hroot in Hat.
  destruct (walk_ok s Hmem Hroom k t 0 0 false Hst Hsh) as (m&Hm).
  exists m. intros fuel Hf. destruct (Hm (S fuel) ltac:(lia)) as [Hw _].
  rewrite Hos in Hk. specialize (Hw Hk). cbn [w_remove_walk] in Hw. rewrite Hroot in Hw.
  rewrite (rbind_ok _ _ _ Hat) in Hw.
  unfold w_remove_by_key. rewrite bind_get, Hr', (bind_lift _ (onode t)) by done.
  destruct t as [h o|h n key l r]; cbn [onode] in *.
  - destruct (N.eqb_spec (wl_key (w_leaf_of o)) k); [done|]. done.
  - destruct (w_walk_down _ _) as [c b]. rewrite (bind_lift _ _ _ _ Hw). done.
Qed.

(** ** Reading the leaves *)
Lemma stored_old_tree s t : N.of_nat (length (ws_buffer s)) < p32 ->
  N.of_nat (ws_cs s) + 25 <= ws_slot s /\ 32 <= ws_slot s -> forall lo,
  ostored (ws_buffer s) (ws_cs s) (N.to_nat (ws_slot s)) t -> oshape lo t ->
  old_tree (ws_buffer s) (ws_cs s) (N.to_nat (ws_slot s)) (oroot t) (oleaves t).
Proof.
  intros Hmem Hroom. induction t as [h o|h n key l IHl r IHr]; intros lo; cbn [ostored oshape oroot oleaves].
  - intros (H1&H2) _. by constructor.
  - intros (H1&H2&H3&H4) (H5&_&_&H6&H7). econstructor; try done; try lia; try (by eapply root_small).
    + by eapply IHl.
    + by eapply IHr.
Qed.
(** The leaves of a slab: the orders with their slots. *)
Lemma slab_leaves s os free loose : old_slab s os free loose -> exists leaves,
  map snd leaves = os /\
  (leaves = [] /\ w_root s = None \/
   exists t, leaves = oleaves t /\ w_root s = Some (oroot t) /\
     ostored (ws_buffer s) (ws_cs s) (N.to_nat (ws_slot s)) t /\ oshape 0 t).
Proof.
  intros H. pose proof (slab_root _ _ _ _ H) as Hr.
  destruct (sl_tree _ _ _ _ H) as (slots&[[-> _]|(t&Hos&_&Hroot&Hst&Hsh)]&_).
  - exists []. split; [done|]. by left.
  - exists (oleaves t). split; [by rewrite Hos|]. right. exists t. split_and!; try done. rewrite Hr, Hroot.
    destruct os; [|done]. unfold oorders in Hos. symmetry in Hos. apply map_eq_nil in Hos. by apply oleaves_ne in Hos.
Qed.
Lemma min_max_ok s os free loose : old_slab s os free loose -> exists leaves n, map snd leaves = os /\
  (forall h o, (h, o) ∈ leaves -> w_get_node s h = Ok (Some (WLeaf (w_leaf_of o)))) /\
  forall fuel mx, (n <= fuel)%nat -> w_find_min_max fuel s mx = Ok (fst <$> (if mx then last leaves else head leaves)).
Proof.
  intros H. pose proof (sl_memory _ _ _ _ H) as Hmem. pose proof (sl_room _ _ _ _ H) as Hroom.
  destruct (slab_leaves _ _ _ _ H) as (leaves&Hl&[[-> Hr]|(t&->&Hr&Hst&Hsh)]).
  - exists [], 0%nat. split; [done|]. split; [intros ?? Hx; by apply elem_of_nil in Hx|].
    intros fuel mx _. unfold w_find_min_max. rewrite Hr. by destruct mx.
  - destruct (find_loop_ok (ws_buffer s) (ws_cs s) (N.to_nat (ws_slot s)) Hmem s eq_refl eq_refl ltac:(lia)
      (oroot t) (oleaves t) (stored_old_tree _ _ Hmem Hroom 0 Hst Hsh)) as (n&Hn).
    exists (oleaves t), n. split; [done|]. split.
    + intros h o Ho. destruct (stored_order _ _ _ _ _ _ Hst Ho). by apply get_leaf.
    + intros fuel mx Hf. unfold w_find_min_max. rewrite Hr. by apply Hn.
Qed.
Lemma remove_extreme_ok s os free loose (mx : bool) : old_slab s os free loose ->
  match (if mx then last os else head os) with
  | None => exists n, forall fuel, (n <= fuel)%nat -> w_remove_extreme fuel mx s = (Ok None, s)
  | Some o => exists n, forall fuel, (n <= fuel)%nat -> w_remove_extreme fuel mx s = w_remove_by_key fuel (o_id o) s
  end.
Proof.
  intros H. destruct (min_max_ok _ _ _ _ H) as (leaves&n&<-&Hg&Hn).
  assert (E : (if mx then last (map snd leaves) else head (map snd leaves)) =
    snd <$> (if mx then last leaves else head leaves)).
  { destruct mx; [apply fmap_last|by destruct leaves]. }
  rewrite E. destruct (if mx then last leaves else head leaves) as [[h o]|] eqn:El; cbn.
  - assert (Hin : (h, o) ∈ leaves).
    { destruct mx; [by apply last_Some_elem_of|by apply head_Some_elem_of]. }
    exists n. intros fuel Hf. unfold w_remove_extreme. rewrite bind_get, (bind_lift _ (Some h)).
    2:{ rewrite Hn by exact Hf. by rewrite El. }
    rewrite (bind_lift _ _ _ _ (Hg _ _ Hin)). done.
  - exists n. intros fuel Hf. unfold w_remove_extreme. rewrite bind_get, (bind_lift _ None); [done|].
    rewrite Hn by done. by rewrite El.
Qed.

(** ** Allocating a slot *)
Lemma get_last_free_mod s h x : N.of_nat (length (ws_buffer s)) < p32 ->
  slot_holds (ws_buffer s) (N.to_nat (ws_slot s)) h ([4] ++ le_enc 4 x) ->
  w_get_node s h = Ok (Some (WLastFree (x mod p32))).
Proof.
  intros Hmem H. destruct (get_holds s Hmem _ _ H) as (r&E). rewrite E. cbn [app w_node_read N.eqb Pos.eqb].
  unfold w_free_read.
  destruct (Nat.ltb_spec (length (le_enc 4 x ++ r)) 4) as [E'|_]; [rewrite app_length, le_enc_length in E'; lia|].
  rewrite slice_app_l by (by rewrite le_enc_length). by rewrite le_dec_enc.
Qed.
Lemma capacity_ok s : 32 <= ws_slot s -> 65 <= N.of_nat (length (ws_buffer s)) -> N.of_nat (length (ws_buffer s)) < p32 ->
  w_capacity s = Ok ((N.of_nat (length (ws_buffer s)) - 65) / ws_slot s).
Proof.
  intros H1 H2 H3. unfold w_capacity. destruct (N.eqb_spec (ws_slot s) 0); [lia|]. do 2 f_equal.
  replace (N.of_nat (length (ws_buffer s)) + p32 - 65) with (N.of_nat (length (ws_buffer s)) - 65 + 1 * p32) by lia.
  rewrite N.mod_add by done. apply N.mod_small. lia.
Qed.
Lemma insert_free s os h free loose val : old_slab s os (h :: free) loose ->
  (length (w_node_bytes val) <= N.to_nat (ws_slot s))%nat -> exists s',
  w_insert val s = (Ok (Some h), s') /\ old_slab s' os free (h :: loose) /\
  slot_holds (ws_buffer s') (N.to_nat (ws_slot s)) h (w_node_bytes val) /\
  (forall x, x <> h -> slot_kept s s' x) /\ same_account s s'.
Proof.
  intros Hs Hval. pose proof (sl_memory _ _ _ _ Hs) as Hmem. pose proof (sl_room _ _ _ _ Hs) as Hroom.
  destruct (sl_header _ _ _ _ Hs) as (A1&A2&A3&A4).
  destruct (sl_tree _ _ _ _ Hs) as (slots&Htree&Hnd&Hall).
  pose proof (sl_free _ _ _ _ Hs) as Hfree. pose proof (sl_free_len _ _ _ _ Hs) as Hlen.
  assert (Hin : in_slab (ws_buffer s) (N.to_nat (ws_slot s)) h).
  { eapply slab_in; [done|]. apply Hall, elem_of_app. right. left. }
  assert (Hh : h = wh_free_head (ws_header s)) by (by destruct Hfree).
  assert (Hnext : exists next, next < p32 /\ ofree (ws_buffer s) (N.to_nat (ws_slot s)) next free /\
    exists nd, w_node_at s h = Ok nd /\
     (match nd with
      | WFree next => if 1 <? wh_free_len (ws_header s) then Ok next else Panic PAssert
      | WLastFree next => if wh_free_len (ws_header s) =? 1 then Ok next else Panic PAssert
      | _ => Panic PAssert
      end) = Ok next).
  { rewrite Hlen. destruct free as [|h' free].
    - destruct Hfree as (_&x&Hx). exists (x mod p32). split; [by apply N.mod_lt|]. split; [done|].
      exists (WLastFree (x mod p32)). split; [|done]. unfold w_node_at. by rewrite (get_last_free_mod _ _ _ Hmem Hx).
    - destruct Hfree as (_&Hx&Hf). exists h'.
      assert (h' < p32).
      { apply (in_slab_small s Hmem Hroom). eapply slab_in; [done|].
        apply Hall, elem_of_app. right. right. left. }
      split; [done|]. split; [done|]. exists (WFree h'). split.
      + unfold w_node_at. by rewrite (get_free s Hmem _ _ Hx).
      + destruct (N.ltb_spec 1 (N.of_nat (length (h :: h' :: free)))) as [_|E]; [done|cbn [length] in E; lia]. }
  destruct Hnext as (next&Hn1&Hn2&nd&Hn3&Hn4).
  set (s1 := w_set_header (w_set_free (N.of_nat (length free)) next (ws_header s)) s).
  pose proof (write_node_ok s1 Hmem val h Hin Hval) as E2.
  change (ws_buffer s1) with (ws_buffer s) in E2. change (ws_slot s1) with (ws_slot s) in E2.
  set (d := at_slot (ws_buffer s) (N.to_nat (ws_slot s)) h (w_node_bytes val)) in *.
  exists (w_set_buffer d s1).
  assert (Hl : length d = length (ws_buffer s)) by (by apply at_slot_length).
  assert (Keep : forall x b, x <> h -> slot_holds (ws_buffer s) (N.to_nat (ws_slot s)) x b -> slot_holds d (N.to_nat (ws_slot s)) x b)
    by (intros; by apply holds_other).
  assert (Hperm : slots ++ free ++ h :: loose ≡ₚ slots ++ (h :: free) ++ loose).
  { by rewrite <- (Permutation_middle free loose h). }
  pose proof Hnd as Hnd0. rewrite <- Hperm, (app_assoc slots), <- Permutation_middle in Hnd0.
  apply NoDup_cons in Hnd0 as [Hni _]. rewrite <- app_assoc in Hni.
  split_and!; try done.
  - unfold w_insert. rewrite bind_get.
    destruct (N.eqb_spec (wh_free_len (ws_header s)) 0) as [E|_]; [rewrite Hlen in E; done|].
    rewrite <- Hh, (bind_lift _ _ _ _ Hn3), (bind_lift _ _ _ _ Hn4).
    unfold w_header_do. rewrite (bind_ok _ _ _ _ _ (eq_refl : modify _ _ = (Ok tt, _))).
    assert (E : wh_free_len (ws_header s) - 1 = N.of_nat (length free)) by (rewrite Hlen; cbn [length]; lia).
    rewrite E. rewrite (bind_ok _ _ _ _ _ E2). done.
  - split; cbn [ws_buffer ws_cs ws_slot ws_header w_set_header w_set_buffer s1 w_set_free wh_bump wh_tag
      wh_free_len wh_free_head wh_root wh_leaf_count wh_market]; try done.
    + by rewrite Hl.
    + rewrite Hl. exact (sl_used _ _ _ _ Hs).
    + exact (sl_count _ _ _ _ Hs).
    + eapply ofree_ext; [|exact Hn2]. intros x b Hx. apply Keep. intros ->. apply Hni.
      apply elem_of_app. right. apply elem_of_app. by left.
    + exists slots. split.
      * destruct Htree as [?|(t&T1&T2&T3&T4&T5)]; [by left|]. right. exists t. split_and!; try done.
        eapply stored_ext; [|exact T4]. intros x b Hx. apply Keep. intros ->. apply Hni.
        apply elem_of_app. left. by rewrite T2.
      * split; [by rewrite Hperm|]. intros x. rewrite Hperm. apply Hall.
  - by apply holds_new.
  - intros x Hx b. by apply Keep.
Qed.
Lemma insert_bump s os loose val : old_slab s os [] loose ->
  (length (w_node_bytes val) <= N.to_nat (ws_slot s))%nat ->
  let h := wh_bump (ws_header s) in
  if 65 + (h + 1) * ws_slot s <=? N.of_nat (length (ws_buffer s)) then
    exists s', w_insert val s = (Ok (Some h), s') /\ old_slab s' os [] (h :: loose) /\
      slot_holds (ws_buffer s') (N.to_nat (ws_slot s)) h (w_node_bytes val) /\
      (forall x, x <> h -> slot_kept s s' x) /\ same_account s s'
  else w_insert val s = (Ok None, s).
Proof.
  intros Hs Hval h. pose proof (sl_memory _ _ _ _ Hs) as Hmem. pose proof (sl_room _ _ _ _ Hs) as Hroom.
  pose proof (sl_used _ _ _ _ Hs) as Hused. fold h in Hused. pose proof (slab_bump _ _ _ _ Hs) as Hbump. fold h in Hbump.
  destruct (sl_header _ _ _ _ Hs) as (A1&A2&A3&A4).
  destruct (sl_tree _ _ _ _ Hs) as (slots&Htree&Hnd&Hall). fold h in Hall.
  pose proof (capacity_ok s ltac:(lia) ltac:(lia) Hmem) as Hcap.
  set (cap := (N.of_nat (length (ws_buffer s)) - 65) / ws_slot s) in *.
  assert (Hcase : (65 + (h + 1) * ws_slot s <=? N.of_nat (length (ws_buffer s))) = negb (h =? cap)).
  { pose proof (N.div_mod (N.of_nat (length (ws_buffer s)) - 65) (ws_slot s) ltac:(lia)) as Hdm. fold cap in Hdm.
    pose proof (N.mod_lt (N.of_nat (length (ws_buffer s)) - 65) (ws_slot s) ltac:(lia)) as Hml.
    destruct (N.leb_spec (65 + (h + 1) * ws_slot s) (N.of_nat (length (ws_buffer s)))) as [E|E];
      destruct (N.eqb_spec h cap) as [E'|E']; try done; exfalso.
    - rewrite <- E' in Hdm. nia.
    - assert (h < cap \/ cap < h) as [?|?] by lia; nia. }
  assert (Eins : w_insert val s = (if h =? cap then (Ok None, s) else
    (do! w_header_do (w_set_bump (h + 1)) in
     let! r := w_write_node val h in
     ret (match r with Some _ => Some h | None => None end)) s)).
  { unfold w_insert. rewrite bind_get. rewrite (sl_free_len _ _ _ _ Hs). cbn [length N.of_nat N.eqb].
    rewrite (bind_lift _ _ _ _ Hcap). fold h.
    assert (E1 : as_usize h = h) by (apply N.mod_small; lia). rewrite E1.
    destruct (h =? cap); [done|]. destruct (N.eqb_spec h (p32 - 1)) as [E|_]; [lia|].
    assert (E2 : as_u32 h = h) by (apply N.mod_small; lia). rewrite E2.
    assert (E3 : as_u64 (h + 1) = h + 1) by (apply N.mod_small; lia). by rewrite E3. }
  rewrite Hcase. destruct (h =? cap) eqn:Ec; cbn [negb]; [exact Eins|]. cbn [negb] in Hcase. apply N.leb_le in Hcase.
  assert (Hin : in_slab (ws_buffer s) (N.to_nat (ws_slot s)) h) by (unfold in_slab; nia).
  set (s1 := w_set_header (w_set_bump (h + 1) (ws_header s)) s).
  pose proof (write_node_ok s1 Hmem val h Hin Hval) as E2.
  change (ws_buffer s1) with (ws_buffer s) in E2. change (ws_slot s1) with (ws_slot s) in E2.
  set (d := at_slot (ws_buffer s) (N.to_nat (ws_slot s)) h (w_node_bytes val)) in *.
  exists (w_set_buffer d s1).
  assert (Hl : length d = length (ws_buffer s)) by (by apply at_slot_length).
  assert (Hni : h ∉ slots ++ [] ++ loose) by (intros Hx; apply Hall in Hx; lia).
  assert (Keep : forall x b, x <> h -> slot_holds (ws_buffer s) (N.to_nat (ws_slot s)) x b -> slot_holds d (N.to_nat (ws_slot s)) x b)
    by (intros; by apply holds_other).
  assert (Hperm : slots ++ [] ++ h :: loose ≡ₚ h :: (slots ++ [] ++ loose)).
  { cbn [app]. by rewrite <- Permutation_middle. }
  split_and!; try done.
  - rewrite Eins. unfold w_header_do. rewrite (bind_ok _ _ _ _ _ (eq_refl : modify _ _ = (Ok tt, _))).
    assert (E3 : w_write_node val h s1 = (Ok (Some tt), w_set_buffer d s1)).
    { unfold w_write_node_unwrap in E2. unfold bind in E2 |- *.
      destruct (w_write_node val h s1) as [[[[]|]|?|?|] s2]; try discriminate E2.
      apply (f_equal snd) in E2. unfold lift, snd in E2. by rewrite E2. }
    change (w_set_header (w_set_bump (h + 1) (ws_header s)) s) with s1.
    rewrite (bind_ok _ _ _ _ _ E3). done.
  - split; cbn [ws_buffer ws_cs ws_slot ws_header w_set_header w_set_buffer s1 w_set_bump wh_bump wh_tag
      wh_free_len wh_free_head wh_root wh_leaf_count wh_market]; try done.
    + by rewrite Hl.
    + rewrite Hl. exact Hcase.
    + exact (sl_count _ _ _ _ Hs).
    + exact (sl_free_len _ _ _ _ Hs).
    + exists slots. split.
      * destruct Htree as [?|(t&T1&T2&T3&T4&T5)]; [by left|]. right. exists t. split_and!; try done.
        eapply stored_ext; [|exact T4]. intros x b Hx. apply Keep. intros ->. apply Hni.
        apply elem_of_app. left. by rewrite T2.
      * split.
        -- rewrite Hperm. constructor; [done|exact Hnd].
        -- intros x. rewrite Hperm, elem_of_cons, Hall. lia.
  - by apply holds_new.
  - intros x Hx b. by apply Keep.
Qed.

(** ** Looking up a key *)
Lemma stored_key_agree data cs slot t lo h n key l r k :
  t = OInner h n key l r -> ostored data cs slot t -> oshape lo t -> k ∈ okeys t -> agree n k key.
Proof.
  intros -> Hst Hsh Hk. pose proof (stored_ids _ _ _ _ _ Hst Hk). cbn [ostored oshape] in *.
  destruct Hst as (_&Hkey&_). destruct Hsh as (Hn&Kl&Kr&_). apply prefix_agree; [done..|lia|].
  rewrite okeys_inner, elem_of_app in Hk. destruct Hk as [Hk|Hk]; [by apply Kl|by apply Kr].
Qed.
Definition slot_of (k : N) (leaves : list (N * order bytes)) : option N :=
  fst <$> List.find (fun x => o_id (snd x) =? k) leaves.
Lemma slot_of_none k leaves : k ∉ map o_id (map snd leaves) -> slot_of k leaves = None.
Proof.
  unfold slot_of. induction leaves as [|[h o] ls IH]; [done|]. cbn. rewrite not_elem_of_cons. intros [H1 H2].
  destruct (N.eqb_spec (o_id o) k); [congruence|]. by apply IH.
Qed.
Lemma slot_of_app k a b : slot_of k (a ++ b) = match slot_of k a with Some h => Some h | None => slot_of k b end.
Proof.
  unfold slot_of. induction a as [|[h o] a IH]; [done|]. cbn. by destruct (o_id o =? k).
Qed.
Section F.
Context (s : w_slab).
Notation data := (ws_buffer s).
Notation slot := (N.to_nat (ws_slot s)).
Notation stored := (ostored data (ws_cs s) slot).
Hypothesis Hmem : N.of_nat (length data) < p32.
Hypothesis Hroom : N.of_nat (ws_cs s) + 25 <= ws_slot s /\ 32 <= ws_slot s.
Lemma find_key_ok k t : k < p128 -> forall lo, stored t -> oshape lo t -> exists n, forall fuel, (n <= fuel)%nat ->
  w_find_key_loop fuel s (oroot t) k = Ok (slot_of k (oleaves t)).
Proof.
  intros Hk. induction t as [h o|h n key l IHl r IHr]; intros lo Hst Hsh.
  - exists 1%nat. intros [|f] Hf; [lia|]. cbn [w_find_key_loop].
    rewrite (rbind_ok _ _ _ (at_stored s Hmem Hroom _ _ Hst Hsh)). cbn [onode w_prefix_len w_key unwrap w_leaf_of wl_key oleaves oroot].
    rewrite !(rbind_ok _ _ _ eq_refl).
    destruct Hst as (_&Ho&_). unfold slot_of. cbn [List.find snd].
    destruct (N.eqb_spec (o_id o) k) as [<-|Hne].
    + by rewrite lz_self.
    + destruct (lz_diff k (o_id o) Hk Ho (not_eq_sym Hne)) as [Hlt _].
      by destruct (N.ltb_spec (lz128 (N.lxor k (o_id o))) 128); [|lia].
  - pose proof Hst as Hst0. pose proof Hsh as Hsh0. cbn [ostored] in Hst. destruct Hst as (_&Hkey&Sl&Sr).
    cbn [oshape] in Hsh. destruct Hsh as (Hn&Kl&Kr&Ol&Or).
    destruct (IHl _ Sl Ol) as (nl&Il). destruct (IHr _ Sr Or) as (nr&Ir).
    exists (S (nl + nr)). intros [|f] Hf; [lia|]. cbn [w_find_key_loop].
    rewrite (rbind_ok _ _ _ (at_stored s Hmem Hroom _ _ Hst0 Hsh0)). cbn [onode w_prefix_len w_key unwrap wi_plen wi_key].
    rewrite !(rbind_ok _ _ _ eq_refl).
    destruct (N.ltb_spec (lz128 (N.lxor k key)) n) as [Hlt|Hge].
    + rewrite slot_of_none; [done|]. intros Hin.
      assert (Hag : agree n k key) by (eapply stored_key_agree; eauto).
      apply (lz_agree k key n) in Hag; [lia|done|done|lia].
    + rewrite walk_down_bit by (cbn; lia). cbn [fst wi_c0 wi_c1 wi_plen oleaves]. rewrite slot_of_app.
      destruct (N.testbit k (127 - n)) eqn:Eb.
      * rewrite Ir by lia. rewrite (slot_of_none k (oleaves l)); [done|]. intros Hin. destruct (Kl k Hin) as [_ E]. congruence.
      * rewrite Il by lia. rewrite (slot_of_none k (oleaves r)); [by destruct (slot_of k (oleaves l))|].
        intros Hin. destruct (Kr k Hin) as [_ E]. congruence.
Qed.

(** ** The slots in order *)
Lemma seq_loop_ok depth inc t : forall lo, stored t -> oshape lo t -> exists n, forall fuel result stack,
  (length result <= N.to_nat depth)%nat ->
  w_seq_loop (n + S fuel) s depth inc result (oroot t :: stack) =
  w_seq_loop (S fuel) s depth inc
    (take (N.to_nat depth) (result ++ map fst (if inc then oleaves t else rev (oleaves t)))) stack.
Proof.
  assert (Hstop : forall fuel result stack, length result = N.to_nat depth ->
    w_seq_loop (S fuel) s depth inc result stack = Ok result).
  { intros fuel result stack E. cbn [w_seq_loop]. by rewrite (proj2 (N.eqb_eq _ _)) by lia. }
  assert (Htake : forall result l, length result = N.to_nat depth -> take (N.to_nat depth) (result ++ l) = (result : list N)).
  { intros result l E. rewrite <- E. by rewrite take_app. }
  induction t as [h o|h n key l IHl r IHr]; intros lo Hst Hsh.
  - exists 1%nat. intros fuel result stack Hres. change (1 + S fuel)%nat with (S (S fuel)).
    assert (E : map fst (if inc then oleaves (OLeaf h o) else rev (oleaves (OLeaf h o))) = [h]) by (by destruct inc).
    rewrite E. destruct (Nat.eq_dec (length result) (N.to_nat depth)) as [El|El].
    { rewrite Htake by done. by rewrite !Hstop. }
    cbn [w_seq_loop]. destruct (N.eqb_spec (N.of_nat (length result)) depth) as [?|_]; [lia|].
    pose proof (at_stored s Hmem Hroom _ _ Hst Hsh) as Ha. cbn [oroot onode] in Ha.
    cbn [oroot]. rewrite (rbind_ok _ _ _ Ha). cbn [onode].
    rewrite take_ge by (rewrite app_length; cbn [length]; lia). done.
  - pose proof Hst as Hst0. pose proof Hsh as Hsh0. cbn [ostored] in Hst. destruct Hst as (_&Hkey&Sl&Sr).
    cbn [oshape] in Hsh. destruct Hsh as (Hn&Kl&Kr&Ol&Or).
    destruct (IHl _ Sl Ol) as (nl&Il). destruct (IHr _ Sr Or) as (nr&Ir).
    exists (S (nl + nr)). intros fuel result stack Hres. change (S (nl + nr) + S fuel)%nat with (S (nl + nr + S fuel)).
    destruct (Nat.eq_dec (length result) (N.to_nat depth)) as [El|El].
    { rewrite Htake by done. by rewrite !Hstop. }
    cbn [w_seq_loop]. destruct (N.eqb_spec (N.of_nat (length result)) depth) as [?|_]; [lia|].
    pose proof (at_stored s Hmem Hroom _ _ Hst0 Hsh0) as Ha. cbn [oroot onode] in Ha.
    cbn [oroot]. rewrite (rbind_ok _ _ _ Ha). cbn [wi_c0 wi_c1].
    assert (Hlen : forall x : list N, (length (take (N.to_nat depth) x) <= N.to_nat depth)%nat) by (intros; rewrite take_length; lia).
    assert (Htt : forall a b : list N, take (N.to_nat depth) (take (N.to_nat depth) a ++ b) = take (N.to_nat depth) (a ++ b)).
    { intros a b. destruct (Nat.le_ge_cases (length a) (N.to_nat depth)) as [Hle|Hle].
      - by rewrite (take_ge a).
      - rewrite (take_app_le a b) by done. apply Htake. rewrite take_length. lia. }
    destruct inc; cbn [oleaves].
    + replace (nl + nr + S fuel)%nat with (nl + S (nr + fuel))%nat by lia. rewrite Il by done.
      replace (S (nr + fuel)) with (nr + S fuel)%nat by lia. rewrite Ir by apply Hlen.
      by rewrite Htt, map_app, app_assoc.
    + replace (nl + nr + S fuel)%nat with (nr + S (nl + fuel))%nat by lia. rewrite Ir by done.
      replace (S (nl + fuel)) with (nl + S fuel)%nat by lia. rewrite Il by apply Hlen.
      by rewrite Htt, rev_app_distr, map_app, app_assoc.
Qed.

(** ** The invariant checks *)
Lemma check_rec_ok t : forall lo last key (b : bool), stored t -> oshape lo t -> last < lo -> lo <= 128 -> key < p128 ->
  (forall k, k ∈ okeys t -> agree last k key /\ crit last k = b) ->
  exists n, forall fuel, (n <= fuel)%nat ->
  w_check_rec fuel s (oroot t) last key b = Ok (N.of_nat (length (oslots t))).
Proof.
  assert (Hpre : forall last key b k, last < 128 -> agree last k key -> crit last k = b ->
    Bool.eqb b (bit_set k (last mod 128)) = true /\
    (N.land key (prefix_mask (last mod 128)) =? N.land k (prefix_mask (last mod 128))) = true).
  { intros last key b k Hl Ha Hb. rewrite N.mod_small by done. split.
    - rewrite bit_set_crit, Hb by done. apply eqb_reflx.
    - apply N.eqb_eq. symmetry. by apply agree_mask. }
  induction t as [h o|h n key' l IHl r IHr]; intros lo last key b Hst Hsh Hlo Hlo' Hkey Hks.
  - exists 1%nat. intros [|f] Hf; [lia|]. cbn [w_check_rec].
    rewrite (rbind_ok _ _ _ (at_stored s Hmem Hroom _ _ Hst Hsh)). cbn [onode w_prefix_len w_key unwrap w_children].
    destruct (Hks (o_id o) (elem_of_list_here (o_id o) [])) as [Ha Hb].
    destruct (Hpre last key b (o_id o) ltac:(lia) Ha Hb) as [E1 E2].
    rewrite !(rbind_ok _ _ _ eq_refl). destruct (N.ltb_spec last 128) as [_|?]; [|lia].
    cbn [wl_key w_leaf_of]. by rewrite E1, E2.
  - pose proof Hst as Hst0. pose proof Hsh as Hsh0. cbn [ostored] in Hst. destruct Hst as (_&Hkey'&Sl&Sr).
    cbn [oshape] in Hsh. destruct Hsh as (Hn&Kl&Kr&Ol&Or).
    destruct (IHl (n + 1) n key' false Sl Ol) as (nl&Il); [lia|lia|done| |].
    { intros k Hk. destruct (Kl k Hk) as [A1 A2]. split.
      - apply prefix_agree; [exact (stored_ids _ _ _ _ _ Sl Hk)|done|lia|done].
      - by rewrite crit_testbit by lia. }
    destruct (IHr (n + 1) n key' true Sr Or) as (nr&Ir); [lia|lia|done| |].
    { intros k Hk. destruct (Kr k Hk) as [A1 A2]. split.
      - apply prefix_agree; [exact (stored_ids _ _ _ _ _ Sr Hk)|done|lia|done].
      - by rewrite crit_testbit by lia. }
    destruct (okeys_ne (OInner h n key' l r)) as [k0 Hk0]. destruct (Hks k0 Hk0) as [Ha Hb].
    assert (Hag : agree n k0 key') by (eapply stored_key_agree; eauto).
    assert (Ha' : agree last key' key).
    { intros i Hi Hi'. rewrite <- Hag by lia. by apply Ha. }
    assert (Hb' : crit last key' = b) by (rewrite <- (Hag last) by lia; done).
    destruct (Hpre last key b key' ltac:(lia) Ha' Hb') as [E1 E2].
    exists (S (nl + nr)). intros [|f] Hf; [lia|]. cbn [w_check_rec].
    rewrite (rbind_ok _ _ _ (at_stored s Hmem Hroom _ _ Hst0 Hsh0)). cbn [onode w_prefix_len w_key unwrap w_children wi_plen wi_key wi_c0 wi_c1].
    rewrite !(rbind_ok _ _ _ eq_refl). destruct (N.ltb_spec last n) as [_|?]; [|lia].
    rewrite E1, E2. rewrite !(rbind_ok (assert_that true) _ tt eq_refl).
    rewrite (rbind_ok _ _ _ (Il f ltac:(lia))), (rbind_ok _ _ _ (Ir f ltac:(lia))). f_equal.
    cbn [oslots length]. rewrite app_length. lia.
Qed.
Lemma check_free_ok free : forall head, ofree data slot head free -> (forall h, h ∈ free -> h < p32) ->
  w_check_free (length free) s head = Ok tt.
Proof.
  induction free as [|h free IH]; intros head Hf Hb; [done|]. cbn [length w_check_free]. destruct Hf as (<-&Hf).
  destruct free as [|h' free].
  - destruct Hf as (x&Hx). rewrite (rbind_ok _ _ (WLastFree (x mod p32))); [done|].
    unfold w_node_at. by rewrite (get_last_free_mod _ _ _ Hmem Hx).
  - destruct Hf as (Hx&Hf). rewrite (rbind_ok _ _ (WFree h')).
    + cbn [length]. apply IH; [done|]. intros ? ?. apply Hb. by right.
    + unfold w_node_at. rewrite (get_free s Hmem _ _ Hx); [done|]. apply Hb. right. left.
Qed.
End F.

(** ** Writing the header *)
Lemma header_bytes_old h : w_header_bytes h =
  old_header_bytes (wh_tag h) (wh_bump h) (wh_free_len h) (wh_free_head h) (wh_root h) (wh_leaf_count h) (wh_market h).
Proof. done. Qed.
Lemma header_bytes_length h : length (wh_market h) = 32%nat -> length (w_header_bytes h) = 65%nat.
Proof. intros H. unfold w_header_bytes. rewrite !app_length, !le_enc_length, H. done. Qed.
Lemma header_holds data hb slot h b : length hb = 65%nat -> (65 <= length data)%nat ->
  slot_holds data slot h b -> slot_holds (w_overwrite data 0 hb) slot h b.
Proof.
  intros H1 H2 (H3&H4&H5). unfold slot_holds. rewrite overwrite_length by lia. split_and!; try done.
  rewrite overwrite_out; [done|lia|right; lia].
Qed.
