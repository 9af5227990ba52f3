(** * PropsWasm.v: the WebAssembly helper (C65) *)
From Verif Require Import Machine Bytes Critbit EventQueue OrderBook Market Spec MachineProofs
  QueueProofs Layout LayoutProofs JsProofs JsQueueProofs ClientSpec PropsClient Ledger LedgerSpec LedgerExample
  EngineProofs BookProofs Wasm WasmSpec WasmProofs.
From Coq Require Import ZifyBool ZifyNat ZifyN.
From Coq Require Import Sorting.Sorted.

Lemma header_old tag bump fl fh root n market rest : tag = 3 \/ tag = 4 -> length market = 32%nat ->
  root < p32 -> n < p64 -> exists h,
  w_header_read (old_header_bytes tag bump fl fh root n market ++ rest) = Some h /\
  wh_root h = root /\ wh_leaf_count h = n.
Proof.
  intros Ht Hm Hr Hn. unfold w_header_read, old_header_bytes.
  destruct (Nat.ltb_spec (length (([tag] ++ le_enc 8 bump ++ le_enc 8 fl ++ le_enc 4 fh ++ le_enc 4 root ++
    le_enc 8 n ++ market) ++ rest)) 65) as [E|_].
  { rewrite !app_length, !le_enc_length in E. cbn [length] in E. lia. }
  rewrite <- !app_assoc.
  replace [tag] with (le_enc 1 tag) by (destruct Ht as [->| ->]; done).
  le_slices. rewrite (le_dec_enc_small 1) by (destruct Ht as [->| ->]; done).
  destruct (N.ltb_spec tag 5) as [_|E]; [|lia].
  eexists. split; [done|]. cbn [wh_root wh_leaf_count].
  by rewrite !le_dec_enc_small by (try exact Hr; exact Hn).
Qed.

Lemma cut_imap (f g : N -> N) : forall prices d, (1 <= d)%nat ->
  flat (take (d - 1) (map (fun p => (f p, p)) prices) ++ take 1 (drop (d - 1) (map (fun p => (g p, p)) prices))) =
  concat (imap (fun i p => [if (S i =? d)%nat then g p else f p; p]) (take d prices)).
Proof.
  induction prices as [|p prices IH]; intros d Hd.
  - cbn [map]. by rewrite !take_nil, drop_nil.
  - destruct d as [|[|d]]; [lia|done|]. cbn [map take Nat.sub drop app imap concat Nat.eqb].
    specialize (IH (S d) ltac:(lia)). replace (S d - 1)%nat with d in IH by lia.
    rewrite (imap_ext _ (fun i p => [if (S i =? S d)%nat then g p else f p; p])) by done. by rewrite <- IH.
Qed.

(** ** C65: js/wasm on an account of the older program *)
Section Old.
Context (data : bytes) (cs slot : nat) (os : list (N * order bytes)).
Context (Hb : old_book data cs slot os) (Hcs : N.of_nat cs < p32) (Hslot : N.of_nat slot < p32).

Lemma old_slab : exists s root, w_new data cs (N.of_nat slot) = Ok s /\
  ws_buffer s = data /\ ws_cs s = cs /\ ws_slot s = N.of_nat slot /\
  (os = [] /\ w_root s = None \/ old_tree data cs slot root os /\ w_root s = Some root).
Proof.
  destruct Hb as [(tag&bump&fl&fh&root&rest&market&Hd&Ht&Hm&Hr&Hn&Hos) _ _].
  destruct (header_old tag bump fl fh root (N.of_nat (length os)) market rest Ht Hm Hr Hn) as (h&H1&H2&H3).
  rewrite <- Hd in H1. exists (mk_w_slab h data cs (N.of_nat slot)), root.
  unfold w_new. rewrite H1. cbn [unwrap rbind]. split_and!; [done..|].
  unfold w_root. cbn [ws_header]. rewrite H2, H3.
  destruct Hos as [->|T]; [by left|]. right. split; [done|].
  pose proof (old_tree_ne _ _ _ _ _ T). destruct os; [done|]. cbn [length].
  by destruct (N.eqb_spec (N.of_nat (S (length l))) 0); [lia|].
Qed.

(** [find_min] and [find_max] return the slots of the orders with the lowest and the highest
    id, or nothing when the book is empty. *)
Theorem C65_min_max : exists n, forall fuel, (n <= fuel)%nat ->
  wasm_find_min fuel data (N.of_nat cs) (N.of_nat slot) = Ok (fst <$> head os) /\
  wasm_find_max fuel data (N.of_nat cs) (N.of_nat slot) = Ok (fst <$> last os).
Proof.
  destruct old_slab as (s&root&Hs&H1&H2&H3&H). unfold wasm_find_min, wasm_find_max, as_usize.
  rewrite !N.mod_small, Nat2N.id by done. destruct H as [[E Hr]|[T Hr]].
  - exists 0%nat. intros fuel _. rewrite !(rbind_ok _ _ _ Hs). unfold w_find_min_max. by rewrite Hr, E.
  - destruct (find_loop_ok data cs slot (ob_memory _ _ _ _ Hb) s H1 H2 H3 root os T) as (n&Hn).
    exists n. intros fuel Hf. rewrite !(rbind_ok _ _ _ Hs). unfold w_find_min_max.
    by rewrite Hr, (Hn fuel false Hf), (Hn fuel true Hf).
Qed.

Lemma tree_orders h l : old_tree data cs slot h l -> Forall (fun o => o_id o < p128) (map snd l).
Proof.
  induction 1 as [h o _ (Ho&_&_)|]; [by repeat constructor|]. rewrite map_app. by apply Forall_app.
Qed.

(** [find_l2_depth] returns sizes and prices of the first [depth] price levels, lowest
    first or highest first.  The size of a level is the total quantity of its orders,
    except for level number [depth]: there it is the quantity of one order only, the first
    that the reading meets. *)
Theorem C65_l2_depth : forall depth (increasing : bool),
  N.of_nat depth < 134217728 -> sumN o_qty (map snd os) < p64 ->
  exists prices n,
  StronglySorted (if increasing then N.lt else N.gt) prices /\
  (forall p, p ∈ prices <-> exists o, o ∈ map snd os /\ id_price (o_id o) = p) /\
  forall fuel, (n <= fuel)%nat ->
  wasm_find_l2_depth fuel data (N.of_nat cs) (N.of_nat slot) (N.of_nat depth) increasing =
  Ok (concat (imap (fun i p =>
    [if (S i =? depth)%nat then first_at (if increasing then map snd os else rev (map snd os)) p
     else at_price (map snd os) p; p]) (take depth prices))).
Proof.
  intros depth inc Hd Hsum. set (ls := dir inc os).
  assert (Hls : ls = if inc then map snd os else rev (map snd os)) by done.
  assert (Hle : forall x y : N * order bytes, o_id (snd x) < o_id (snd y) ->
    id_price (o_id (snd x)) <= id_price (o_id (snd y))).
  { intros x y Hxy. unfold id_price. apply N.div_le_mono; lia. }
  assert (Hatp : forall p : N, lsum (map level ls) p = at_price (map snd os) p).
  { intros p. rewrite lsum_level, Hls. destruct inc; [done|]. apply at_price_rev. }
  pose proof (ob_sorted _ _ _ _ Hb) as Hss.
  assert (Hso : StronglySorted (fun a b => a = b \/ (if inc then N.lt else N.gt) a b) (map snd (map level ls))).
  { rewrite map_map, Hls. destruct inc.
    - rewrite map_map. apply ss_map. eapply ss_impl; [|exact Hss]. intros x y Hxy. apply Hle in Hxy. cbn. lia.
    - rewrite <- map_rev, map_map. apply ss_map. eapply ss_impl; [|apply ss_rev, Hss].
      intros x y Hxy. apply Hle in Hxy. cbn. lia. }
  assert (R1 : forall a, ~ (if inc then N.lt else N.gt) a a) by (destruct inc; lia).
  assert (R2 : forall a b c, (if inc then N.lt else N.gt) a b -> (if inc then N.lt else N.gt) b c -> (if inc then N.lt else N.gt) a c)
    by (destruct inc; lia).
  destruct (levels_spec _ R1 R2 _ Hso) as (S1&S2&_).
  pose proof (levels_eq _ R1 R2 _ Hso) as S3. pose proof (firsts_eq _ R1 R2 _ Hso) as S4.
  assert (Hin : forall o, o ∈ ls <-> o ∈ map snd os).
  { intros o. rewrite Hls. destruct inc; [done|]. rewrite !elem_of_list_In. symmetry. apply in_rev. }
  destruct old_slab as (s&root&Hs&B1&B2&B3&H).
  assert (Hall : Forall (fun o => o_id o < p128) ls /\ exists n, forall fuel, (n <= fuel)%nat ->
    w_find_l2_depth fuel s (N.of_nat depth) inc = Ok (w_fold (2 * N.of_nat depth) [] ls)).
  { unfold w_find_l2_depth, as_usize. destruct H as [[E Hr]|[T Hr]]; rewrite Hr.
    - rewrite Hls, E. split; [by destruct inc; constructor|]. exists 0%nat. intros fuel _. by destruct inc.
    - split.
      + pose proof (tree_orders _ _ T) as Ht. rewrite Forall_forall in Ht |- *. intros o Ho. by apply Ht, Hin.
      + rewrite N.mod_small by lia. destruct (N.leb_spec 2147483648 (8 * (2 * N.of_nat depth))) as [E|_]; [lia|].
        exact (l2_loop_all data cs slot (ob_memory _ _ _ _ Hb) s B1 B2 B3 inc (2 * N.of_nat depth) root os T). }
  destruct Hall as (Hok&n&Hn).
  exists (map snd (levels (map level ls))), n. split_and!.
  - exact S1.
  - intros p. rewrite S2, map_map. split.
    + intros Hp. apply elem_of_list_fmap in Hp as (o&->&Hp). exists o. split; [by apply Hin|done].
    + intros (o&Hp&<-). apply elem_of_list_fmap. exists o. split; [done|by apply Hin].
  - intros fuel Hf. unfold wasm_find_l2_depth.
    assert (Eu : forall x, x < p32 -> as_usize x = x) by (intros; by apply N.mod_small).
    rewrite !Eu, Nat2N.id by (done || lia). rewrite (rbind_ok _ _ _ Hs), (Hn fuel Hf). f_equal.
    destruct (Nat.eq_dec depth 0) as [->|Hd0].
    { rewrite w_fold_stop by done. done. }
    assert (Hsl : sumN o_qty ls = sumN o_qty (map snd os)).
    { rewrite Hls. destruct inc; [done|]. generalize (map snd os). intros l. clear.
      induction l as [|x l IH]; [done|]. cbn [rev]. rewrite sumN_app, IH. cbn. lia. }
    rewrite w_fold_levels by (done || lia).
    assert (F4 : firsts (map level ls) = map (fun p => (first_at ls p, p)) (map snd (levels (map level ls)))).
    { rewrite S4. apply map_ext. intros p. by rewrite lfirst_level. }
    assert (F3 : levels (map level ls) = map (fun p => (at_price (map snd os) p, p)) (map snd (levels (map level ls)))).
    { rewrite S3 at 1. apply map_ext. intros p. by rewrite Hatp. }
    rewrite F4. rewrite F3 at 1.
    rewrite cut_imap by lia. by rewrite <- Hls.
Qed.
End Old.

(** ** js/wasm on an account of the present program *)
Lemma new_account_refused cs data tag s : slab_from_buffer cs data tag = Ok s -> 5 <= tag ->
  forall n sl, w_new data n sl = Panic PUnwrap.
Proof.
  intros H Ht n sl. unfold slab_from_buffer in H.
  destruct (length data <? _)%nat; [done|]. destruct (N.eqb_spec (hd 0 data) tag) as [E|]; [|done]. clear H.
  unfold w_new, w_header_read. destruct (Nat.ltb_spec (length data) 65) as [|Hl]; [done|].
  destruct data as [|b data]; [cbn in Hl; lia|]. cbn in E. subst b.
  assert (Et : le_dec (slice (tag :: data) 0 1) = tag) by (change (tag + 256 * 0 = tag); lia). rewrite Et.
  by destruct (N.ltb_spec tag 5); [lia|].
Qed.
(** It reads none: every call on a bids or asks account of a market fails. *)
Theorem C65_current_accounts_refused : forall cs pid l a m, opens cs pid l a m ->
  forall sd, let data := a_data (l (match sd with Bid => ac_bids a | Ask => ac_asks a end)) in
  forall fuel callback_info_len slot_size depth increasing,
  wasm_find_min fuel data callback_info_len slot_size = Panic PUnwrap /\
  wasm_find_max fuel data callback_info_len slot_size = Panic PUnwrap /\
  wasm_find_l2_depth fuel data callback_info_len slot_size depth increasing = Panic PUnwrap.
Proof.
  intros cs pid l a m [_ _ _ Hb Ha _] sd data fuel cil sl d inc.
  assert (H : forall n sl, w_new data n sl = Panic PUnwrap).
  { destruct sd; [by apply (new_account_refused _ _ _ _ Hb)|by apply (new_account_refused _ _ _ _ Ha)]. }
  unfold wasm_find_min, wasm_find_max, wasm_find_l2_depth. by rewrite !H.
Qed.

(** ** An account with three orders *)
Definition w_o1 : order bytes := (mk_leaf (5 * p64 + 1) 10, [7]).
Definition w_o2 : order bytes := (mk_leaf (5 * p64 + 2) 20, [8]).
Definition w_o3 : order bytes := (mk_leaf (7 * p64 + 3) 5, [9]).
Definition w_slot (b : bytes) : bytes := b ++ replicate (32 - length b) 0.
Definition w_data : bytes :=
  old_header_bytes 4 5 0 0 0 3 (replicate 32 1) ++
  w_slot (old_inner_bytes 62 (5 * p64 + 1) 1 4) ++ w_slot (old_inner_bytes 126 (5 * p64 + 1) 2 3) ++
  w_slot (old_leaf_bytes w_o1) ++ w_slot (old_leaf_bytes w_o2) ++ w_slot (old_leaf_bytes w_o3).
Definition w_os : list (N * order bytes) := [(2, w_o1); (3, w_o2); (4, w_o3)].
Ltac holds := split; [apply Nat.leb_le; by vm_compute|split; [apply Nat.leb_le; by vm_compute|by vm_compute]].
Lemma w_book : old_book w_data 1 32 w_os.
Proof.
  assert (Ho : forall o, o ∈ [w_o1; w_o2; w_o3] -> old_order_ok 1 o).
  { intros o Ho. repeat (apply elem_of_cons in Ho as [->|Ho]; [done|]). by apply elem_of_nil in Ho. }
  split.
  - eexists _, _, _, _, _, _, _. split_and!; [reflexivity|by right|done..|right].
    apply (old_tree_inner _ _ _ 0 62 (5 * p64 + 1) 1 4 [(2, w_o1); (3, w_o2)] [(4, w_o3)]); [holds|done..| |].
    + apply (old_tree_inner _ _ _ 1 126 (5 * p64 + 1) 2 3 [(2, w_o1)] [(3, w_o2)]); [holds|done..| |];
        (constructor; [holds|apply Ho; set_solver]).
    + constructor; [holds|apply Ho; set_solver].
  - repeat constructor.
  - done.
Qed.
(** The size that [find_l2_depth] gives for its last level is not the size of the level:
    two orders rest at the lowest price, 30 in total, and the answer for one level is 10. *)
Theorem C65_last_level_refuted : ~ forall data cs slot os depth (increasing : bool), old_book data cs slot os ->
  sumN o_qty (map snd os) < p64 ->
  exists prices n,
  StronglySorted (if increasing then N.lt else N.gt) prices /\
  (forall p, p ∈ prices <-> exists o, o ∈ map snd os /\ id_price (o_id o) = p) /\
  forall fuel, (n <= fuel)%nat ->
  wasm_find_l2_depth fuel data (N.of_nat cs) (N.of_nat slot) (N.of_nat depth) increasing =
  Ok (concat (map (fun p => [at_price (map snd os) p; p]) (take depth prices))).
Proof.
  intros H. destruct (H _ _ _ _ 1%nat true w_book) as (prices&n&_&_&Hr); [done|].
  specialize (Hr (5 + n)%nat ltac:(lia)).
  assert (E : wasm_find_l2_depth (5 + n) w_data (N.of_nat 1) (N.of_nat 32) (N.of_nat 1) true = Ok [10; 5])
    by (vm_compute; reflexivity).
  rewrite E in Hr. apply Ok_inj in Hr. destruct prices as [|p prices]; [done|]. cbn [take map concat app] in Hr.
  injection Hr as H1 <-. by vm_compute in H1.
Qed.
(** What the theorems say of it: the lowest id is in slot 2, the highest in slot 4; two
    levels from below are complete except for the last, and so on. *)
Example C65_example :
  old_book w_data 1 32 w_os /\
  (fst <$> head w_os, fst <$> last w_os) = (Some 2, Some 4) /\
  wasm_find_min 10 w_data 1 32 = Ok (Some 2) /\ wasm_find_max 10 w_data 1 32 = Ok (Some 4) /\
  wasm_find_l2_depth 10 w_data 1 32 2 true = Ok [30; 5; 5; 7] /\
  wasm_find_l2_depth 10 w_data 1 32 2 false = Ok [5; 7; 20; 5] /\
  wasm_find_l2_depth 10 w_data 1 32 3 false = Ok [5; 7; 30; 5] /\
  wasm_find_l2_depth 10 w_data 1 32 0 false = Ok [].
Proof. split; [exact w_book|]. by vm_compute. Qed.
(** The market of LedgerExample.v meets the hypothesis of the third theorem. *)
Example C65_current_example : opens e_cs e_pid e_l4 e_a e_ma.
Proof. exact e_opens_a. Qed.

Print Assumptions C65_min_max.
Print Assumptions C65_l2_depth.
Print Assumptions C65_current_accounts_refused.
Print Assumptions C65_last_level_refuted.
