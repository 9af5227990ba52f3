(** * PropsLayout.v: C41-C44, byte layouts and encodings *)
From Verif Require Import Machine Bytes Critbit EventQueue OrderBook MachineProofs QueueProofs
  Layout LayoutProofs Borsh BorshProofs.
From Coq Require Import ZifyBool ZifyNat ZifyN.

(** ** Specification: where things are

    [at_offset buf o b]: the bytes [b] are in [buf] from offset [o] on. *)
Definition at_offset (buf : bytes) (o : nat) (b : bytes) : Prop := slice buf o (length b) = b.

(** A slab account of capacity [n]: 8 tag bytes, 32 bytes of header, [n] leaves of 24
    bytes, [n-1] inner nodes of 32 bytes, [n] callback infos of [cs] bytes, nothing
    else. *)
Record slab_at (cs n : nat) (buf : bytes) (s : slab bytes) : Prop := {
  sa_length : length buf = (40 + 24 * n + 32 * (n - 1) + cs * n)%nat;
  sa_header : at_offset buf 8 (bytes_of_header (hdr s));
  sa_leaves : length (leaf_nodes s) = n;
  sa_leaf : forall i l, nth_error (leaf_nodes s) i = Some l ->
    at_offset buf (40 + 24 * i) (bytes_of_leaf l);
  sa_inners : length (inner_nodes s) = (n - 1)%nat;
  sa_inner : forall i l, nth_error (inner_nodes s) i = Some l ->
    at_offset buf (40 + 24 * n + 32 * i) (bytes_of_inner l);
  sa_callbacks : length (callback_infos s) = n;
  sa_callback : forall i c, nth_error (callback_infos s) i = Some c ->
    at_offset buf (40 + 24 * n + 32 * (n - 1) + cs * i) c;
}.
(** An event queue account of capacity [n]: 8 tag bytes, head, count and sequence
    number, [n] events of 40 bytes, [2n] callback infos of [cs] bytes, nothing else. *)
Record queue_at (cs n : nat) (buf : bytes) (q : queue bytes) : Prop := {
  qa_length : length buf = (32 + 40 * n + cs * (2 * n))%nat;
  qa_head : at_offset buf 8 (le_enc 8 (q_head q));
  qa_count : at_offset buf 16 (le_enc 8 (q_count q));
  qa_seq : at_offset buf 24 (le_enc 8 (q_seq q));
  qa_events : length (q_events q) = n;
  qa_event : forall i e, nth_error (q_events q) i = Some e ->
    at_offset buf (32 + 40 * i) (bytes_of_fill e);
  qa_callbacks : length (q_cbs q) = (2 * n)%nat;
  qa_callback : forall i c, nth_error (q_cbs q) i = Some c ->
    at_offset buf (32 + 40 * n + cs * i) c;
}.

(** ** Lemmas *)
Lemma slice_concat n : forall ls i x post,
  Forall (sized n) ls -> nth_error ls i = Some x -> slice (concat ls ++ post) (n * i) n = x.
Proof.
  induction ls as [|y ls IH]; intros i x post Hs Hi; [by destruct i|].
  apply Forall_cons in Hs. destruct Hs as [Hy Hs]. unfold sized in Hy.
  cbn [concat]. rewrite <- app_assoc. destruct i as [|i]; cbn in Hi.
  - injection Hi as ->. rewrite Nat.mul_0_r. by rewrite <- Hy, slice_app_l.
  - rewrite slice_app_r by lia. replace (n * S i - length y)%nat with (n * i)%nat by lia.
    by apply IH.
Qed.
Lemma at_block n (pre : bytes) ls post o i x :
  length pre = o -> Forall (sized n) ls -> nth_error ls i = Some x ->
  at_offset (pre ++ concat ls ++ post) (o + n * i) x.
Proof.
  intros Hp Hs Hi. unfold at_offset.
  assert (Hx : length x = n).
  { apply nth_error_In in Hi. by apply (proj1 (Forall_forall _ _) Hs), elem_of_list_In. }
  rewrite Hx, slice_app_r by lia. replace (o + n * i - length pre)%nat with (n * i)%nat by lia.
  by apply slice_concat.
Qed.
Lemma at_here (pre b post : bytes) o : length pre = o -> at_offset (pre ++ b ++ post) o b.
Proof.
  intros Hp. unfold at_offset. rewrite slice_app_r by lia. rewrite Hp, Nat.sub_diag.
  by rewrite slice_app_l.
Qed.
Lemma slab_inners_alloc cs n : (1 <= n)%nat ->
  slab_inners cs (40 + 24 * n + 32 * (n - 1) + cs * n) = (n - 1)%nat.
Proof.
  intros Hn. unfold slab_inners. symmetry. apply (Nat.div_unique _ _ _ 0); [lia|].
  destruct n as [|m]; [lia|]. nia.
Qed.
Lemma queue_events_alloc cs n : queue_events cs (32 + 40 * n + cs * (2 * n)) = n.
Proof. unfold queue_events. symmetry. apply (Nat.div_unique _ _ _ 0); [lia|]. nia. Qed.

Lemma slab_fits_at cs n buf s :
  (1 <= n)%nat -> cs <> 0%nat -> length buf = (40 + 24 * n + 32 * (n - 1) + cs * n)%nat ->
  slab_fits cs (length buf) s -> slab_typed cs s -> slab_at cs n (slab_to_buffer s buf) s.
Proof.
  intros Hn Hcs Hl Hf Ht. pose proof (slab_to_length cs buf s Hf Ht) as Hbl.
  destruct Hf as [H0 H1 H2 H3]. rewrite Hl, (slab_inners_alloc cs n Hn) in H1, H2, H3.
  destruct Ht as [Ht1 Ht2 Ht3 Ht4]. apply Forall_and in Ht4. destruct Ht4 as [Ht4 _].
  assert (Hc : length (callback_infos s) = n) by nia.
  pose proof (enc_all_length _ 24 bytes_of_leaf_length (leaf_nodes s)) as Hl1.
  pose proof (enc_all_length _ 32 bytes_of_inner_length (inner_nodes s)) as Hl2.
  pose proof (bytes_of_header_length (hdr s)) as Hl0.
  assert (Hl8 : length (take 8 buf) = 8%nat) by (rewrite take_length; lia).
  split; try lia.
  - unfold slab_to_buffer. by apply at_here.
  - intros i l Hi. unfold slab_to_buffer. rewrite (app_assoc (take 8 buf)).
    apply at_block; [rewrite app_length; lia|apply enc_sized, bytes_of_leaf_length|].
    by apply map_nth_error.
  - intros i l Hi. unfold slab_to_buffer.
    rewrite (app_assoc (take 8 buf)), (app_assoc (_ ++ bytes_of_header _)).
    apply at_block; [rewrite !app_length; lia|apply enc_sized, bytes_of_inner_length|].
    by apply map_nth_error.
  - intros i c Hi. unfold slab_to_buffer. rewrite <- (app_nil_r (concat (callback_infos s))).
    rewrite (app_assoc (take 8 buf)), (app_assoc (_ ++ bytes_of_header _)),
      (app_assoc (_ ++ concat (map bytes_of_leaf _))).
    apply at_block; [rewrite !app_length; lia|done|done].
Qed.
Lemma queue_fits_at cs n buf q :
  cs <> 0%nat -> length buf = (32 + 40 * n + cs * (2 * n))%nat ->
  queue_fits cs (length buf) q -> queue_typed cs q -> queue_at cs n (queue_to_buffer q buf) q.
Proof.
  intros Hcs Hl Hf Ht. pose proof (queue_to_length cs buf q Hf Ht) as Hbl.
  destruct Hf as [H0 H1 H2]. rewrite Hl, queue_events_alloc in H1, H2.
  destruct Ht as [Ht1 Ht2 Ht3 Ht4 Ht5]. apply Forall_and in Ht5. destruct Ht5 as [Ht5 _].
  assert (Hc : length (q_cbs q) = (2 * n)%nat) by nia.
  pose proof (enc_all_length _ 40 bytes_of_fill_length (q_events q)) as Hl1.
  assert (Hl8 : length (take 8 buf) = 8%nat) by (rewrite take_length; lia).
  split; try lia.
  - unfold queue_to_buffer. by apply at_here.
  - unfold queue_to_buffer. rewrite (app_assoc (take 8 buf)).
    apply at_here. rewrite app_length, le_enc_length. lia.
  - unfold queue_to_buffer. rewrite (app_assoc (take 8 buf)), (app_assoc (_ ++ le_enc 8 (q_head q))).
    apply at_here. rewrite !app_length, !le_enc_length. lia.
  - intros i e Hi. unfold queue_to_buffer.
    rewrite (app_assoc (take 8 buf)), (app_assoc (_ ++ le_enc 8 (q_head q))),
      (app_assoc (_ ++ le_enc 8 (q_count q))).
    apply at_block; [rewrite !app_length, !le_enc_length; lia|apply enc_sized, bytes_of_fill_length|].
    by apply map_nth_error.
  - intros i c Hi. unfold queue_to_buffer. rewrite <- (app_nil_r (concat (q_cbs q))).
    rewrite (app_assoc (take 8 buf)), (app_assoc (_ ++ le_enc 8 (q_head q))),
      (app_assoc (_ ++ le_enc 8 (q_count q))), (app_assoc (_ ++ le_enc 8 (q_seq q))).
    apply at_block; [rewrite !app_length, !le_enc_length; lia|done|done].
Qed.

(** ** C41: slab accounts

    [compute_allocation_size(n)] is the size of an account of capacity [n]; it panics
    for 0 and only for 0. *)
Theorem C41_allocation_size : forall cs n len,
  slab_allocation_size cs n = Ok len <->
  (1 <= n)%nat /\ len = (40 + 24 * n + 32 * (n - 1) + cs * n)%nat.
Proof.
  intros cs n len. unfold slab_allocation_size. lens. destruct n as [|n]; [split; [done|lia]|].
  split; [intros H; apply Ok_inj in H; nia|intros [_ ->]; f_equal; nia].
Qed.

(** Every such account with the right tag, whatever its content, opens as a slab of
    exactly that capacity; its elements are at the documented offsets, and together
    with the tag they are the whole account. *)
Theorem C41_open : forall cs n len buf tag,
  cs <> 0%nat -> slab_allocation_size cs n = Ok len -> length buf = len -> bytes_ok buf ->
  hd 0 buf = tag ->
  exists s, slab_from_buffer cs buf tag = Ok s /\ slab_typed cs s /\ slab_at cs n buf s.
Proof.
  intros cs n len buf tag Hcs Ha Hl Hb Ht. apply C41_allocation_size in Ha. destruct Ha as [Hn ->].
  assert (Hge : (64 + cs <= length buf)%nat) by nia.
  pose proof (slab_from_eq cs buf tag Hge Ht) as E. cbv zeta in E.
  rewrite Hl, (slab_inners_alloc cs n Hn) in E.
  assert (Hc : exists ls, cast_slice cs (drop (40 + 24 * S (n - 1) + 32 * (n - 1)) buf) = Ok ls).
  { unfold cast_slice. destruct (Nat.eqb_spec cs 0); [done|].
    assert (Hd : length (drop (40 + 24 * S (n - 1) + 32 * (n - 1)) buf) = (n * cs)%nat)
      by (rewrite drop_length; nia).
    rewrite Hd, Nat.mod_mul by done. cbn. by eexists. }
  destruct Hc as [ls Hc]. rewrite (rbind_ok _ _ ls Hc) in E. cbv beta in E.
  eexists. split; [exact E|].
  destruct (slab_from_ok cs buf tag _ Hb E) as (_ & _ & Hf & Hty & Hto).
  split; [done|]. rewrite <- Hto at 1. by apply slab_fits_at.
Qed.
(** A wrong tag is refused, whatever the rest. *)
Theorem C41_wrong_tag : forall cs buf tag s,
  slab_from_buffer cs buf tag = Ok s -> hd 0 buf = tag.
Proof.
  intros cs buf tag s. unfold slab_from_buffer. destruct (_ <? _)%nat; [done|].
  by destruct (N.eqb_spec (hd 0 buf) tag).
Qed.
(** Writing any slab value of the same capacity through the view and opening the
    account again gives that value; the tag bytes and the size are not touched, and
    writing back what was read changes nothing. *)
Theorem C41_write_read : forall cs buf tag s s',
  bytes_ok buf -> slab_from_buffer cs buf tag = Ok s -> slab_typed cs s' ->
  length (leaf_nodes s') = length (leaf_nodes s) ->
  length (inner_nodes s') = length (inner_nodes s) ->
  length (callback_infos s') = length (callback_infos s) ->
  slab_from_buffer cs (slab_to_buffer s' buf) tag = Ok s' /\
  length (slab_to_buffer s' buf) = length buf /\
  take 8 (slab_to_buffer s' buf) = take 8 buf /\
  slab_to_buffer s buf = buf.
Proof.
  intros cs buf tag s s' Hb Hs Ht H1 H2 H3.
  destruct (slab_from_ok cs buf tag s Hb Hs) as (Htag & Hcs & [F0 F1 F2 F3] & _ & Hto).
  assert (Hf : slab_fits cs (length buf) s') by (split; congruence).
  split_and!; [by apply slab_to_from|by apply (slab_to_length cs)|apply slab_to_tag; lia|done].
Qed.

(** ** C42: event queue accounts *)
Theorem C42_allocation_size : forall cs n,
  queue_allocation_size cs n = (32 + 40 * n + cs * (2 * n))%nat.
Proof. intros. unfold queue_allocation_size, event_size. lens. nia. Qed.
(** [check_buffer_size] accepts exactly the allocation sizes of capacities of at least
    five events. *)
Theorem C42_accepted_sizes : forall cs buf,
  queue_check_size cs buf = Ok tt <->
  exists n, (5 <= n)%nat /\ length buf = queue_allocation_size cs n.
Proof.
  intros cs buf. unfold queue_check_size, queue_allocation_size. set (e := event_size cs).
  assert (He : (0 < e)%nat) by (unfold e, event_size; lens; lia). clearbody e. lens.
  destruct (Nat.ltb_spec (length buf) (24 + 8 + 5 * e)).
  { split; [done|]. intros (n & Hn & Hl). nia. }
  destruct (Nat.eqb_spec ((length buf - (24 + 8)) mod e) 0) as [Hm|Hm]; cbn [negb].
  - split; [intros _|done]. exists ((length buf - 32) / e)%nat.
    change (24 + 8)%nat with 32%nat in *. apply Nat.div_exact in Hm; [|lia].
    set (d := ((length buf - 32) / e)%nat) in *. clearbody d. nia.
  - split; [done|]. intros (n & Hn & Hl). destruct Hm.
    replace (length buf - (24 + 8))%nat with (n * e)%nat by lia. apply Nat.mod_mul. lia.
Qed.
(** An account of such a size with the right tag opens as a queue of exactly that
    capacity; the elements are at the documented offsets and fill the account. *)
Theorem C42_open : forall cs n buf tag,
  cs <> 0%nat -> length buf = queue_allocation_size cs n -> bytes_ok buf ->
  read_tag buf = Ok tag ->
  exists q, queue_from_buffer cs buf tag = Ok (q, write_tag tag_event_queue buf) /\
            queue_typed cs q /\ queue_at cs n buf q.
Proof.
  intros cs n buf tag Hcs Hl Hb Ht. rewrite C42_allocation_size in Hl.
  assert (Hge : (32 <= length buf)%nat) by lia.
  pose proof (queue_from_eq cs buf tag Hge Ht) as E. cbv zeta in E.
  rewrite Hl, queue_events_alloc in E.
  assert (Hc : exists ls, cast_slice cs (drop (32 + 40 * n) buf) = Ok ls).
  { unfold cast_slice. destruct (Nat.eqb_spec cs 0); [done|].
    assert (Hd : length (drop (32 + 40 * n) buf) = ((2 * n) * cs)%nat)
      by (rewrite drop_length; nia).
    rewrite Hd, Nat.mod_mul by done. cbn. by eexists. }
  destruct Hc as [ls Hc]. rewrite (rbind_ok _ _ ls Hc) in E. cbv beta in E.
  eexists. split; [exact E|].
  destruct (queue_from_ok cs buf tag _ _ Hb E) as (_ & _ & _ & Hf & Hty & Hto).
  split; [done|]. rewrite <- Hto at 1. by apply queue_fits_at.
Qed.
Theorem C42_wrong_tag : forall cs buf tag r,
  queue_from_buffer cs buf tag = Ok r -> read_tag buf = Ok tag.
Proof.
  intros cs buf tag r. unfold queue_from_buffer. destruct (_ <? _)%nat; [done|].
  destruct (read_tag buf) as [t| | |]; [|done..]. unfold rbind at 1.
  by destruct (N.eqb_spec t tag) as [->|].
Qed.
Theorem C42_write_read : forall cs buf q buf' q',
  bytes_ok buf -> queue_from_buffer cs buf tag_event_queue = Ok (q, buf') ->
  queue_typed cs q' ->
  length (q_events q') = length (q_events q) -> length (q_cbs q') = length (q_cbs q) ->
  queue_from_buffer cs (queue_to_buffer q' buf') tag_event_queue
    = Ok (q', queue_to_buffer q' buf') /\
  length (queue_to_buffer q' buf') = length buf /\
  take 8 (queue_to_buffer q' buf') = take 8 buf /\
  queue_to_buffer q buf = buf.
Proof.
  intros cs buf q buf' q' Hb Hq Ht H1 H2.
  destruct (queue_from_ok cs buf _ q buf' Hb Hq) as (Htag & Hcs & -> & [F0 F1 F2] & _ & Hto).
  assert (Hf : queue_fits cs (length buf) q') by (split; congruence).
  rewrite (read_tag_write buf _ Hb Htag).
  split_and!; [|by apply (queue_to_length cs)|apply queue_to_tag; lia|done].
  rewrite (queue_to_from cs buf tag_event_queue) by done. do 2 f_equal.
  apply read_tag_write; [by apply (queue_to_ok cs)|]. by rewrite (queue_to_read_tag cs).
Qed.

(** ** C43: the register

    The optional summary is read back from the front of the register, whatever bytes
    follow, and nothing else can be read from it. *)
Theorem C43_round_trip : forall r rest,
  register_typed r -> rd_register (wr_register r ++ rest) = Some (r, rest).
Proof. intros r rest H. by apply (proj1 register_codec). Qed.
Theorem C43_injective : forall r r' rest rest',
  register_typed r -> register_typed r' ->
  wr_register r ++ rest = wr_register r' ++ rest' -> r = r' /\ rest = rest'.
Proof.
  intros r r' rest rest' H H' E.
  pose proof (C43_round_trip r rest H) as A. rewrite E, (C43_round_trip r' rest' H') in A.
  by injection A as -> ->.
Qed.
Theorem C43_length : forall r,
  length (wr_register r) =
  match r with
  | None => 1%nat
  | Some s => match posted_order_id s with None => 26%nat | Some _ => 42%nat end
  end.
Proof. exact register_length. Qed.
(** [ORDER_SUMMARY_SIZE] counts the summary without the outer option byte: one byte
    short exactly for a summary with a posted order. *)
Theorem C43_documented_size_short : forall r,
  (length (wr_register r) <= order_summary_size + 1)%nat /\
  ((order_summary_size < length (wr_register r))%nat <->
   exists s i, r = Some s /\ posted_order_id s = Some i).
Proof.
  intros r. rewrite register_length. unfold order_summary_size.
  split; [destruct r as [s|]; [destruct (posted_order_id s)|]; cbn; lia|].
  destruct r as [s|]; [|split; [lia|by intros (?&?&?&?)]].
  destruct (posted_order_id s) as [i|] eqn:E.
  - split; [intros _; by exists s, i|lia].
  - split; [lia|]. intros (s' & i & [= <-] & Hi). congruence.
Qed.

(** ** C44: instruction parameters

    The bytes accepted as parameters are exactly the encodings of well-typed values, so
    missing and trailing bytes, and any other malformed input, are refused. *)
Theorem C44_create : forall b p, bytes_ok b ->
  try_from_slice rd_create b = Some p <-> b = wr_create p /\ create_typed p.
Proof. intros. by apply (codec_slice _ _ _ create_codec). Qed.
Theorem C44_new_order : forall cs b p, bytes_ok b ->
  try_from_slice (rd_new_order cs) b = Some p <-> b = wr_new_order p /\ new_order_typed cs p.
Proof. intros cs b p Hb. by apply (codec_slice _ _ _ (new_order_codec cs)). Qed.
Theorem C44_consume : forall b n, bytes_ok b ->
  try_from_slice rd_consume b = Some n <-> b = wr_consume n /\ n < p64.
Proof. intros. by apply (codec_slice _ _ _ consume_codec). Qed.
Theorem C44_cancel : forall b id, bytes_ok b ->
  try_from_slice rd_cancel b = Some id <-> b = wr_cancel id /\ id < p128.
Proof. intros. by apply (codec_slice _ _ _ cancel_codec). Qed.
Theorem C44_mass_cancel : forall b ids, bytes_ok b ->
  try_from_slice rd_mass_cancel b = Some ids <->
  b = wr_mass_cancel ids /\ Forall (fun x => x < p128) ids /\ N.of_nat (length ids) < p32.
Proof. intros. by apply (codec_slice _ _ _ mass_cancel_codec). Qed.

(** ** Examples *)
(** An asks account for three orders with four-byte callback infos, all bytes 7 after
    the tag: the third leaf is read from offset 88. *)
Definition example_asks : bytes := tag_asks :: repeat 7 187.
Example C41_example :
  slab_allocation_size 4 3 = Ok 188%nat /\ length example_asks = 188%nat /\
  match slab_from_buffer 4 example_asks tag_asks with
  | Ok s => length (leaf_nodes s) = 3%nat /\ length (inner_nodes s) = 2%nat /\
            callback_infos s = [[7;7;7;7]; [7;7;7;7]; [7;7;7;7]] /\
            hd 0 (slab_to_buffer (mk_slab (hdr s) [mk_leaf 0 0; mk_leaf 0 0; mk_leaf 258 5]
                   (inner_nodes s) (callback_infos s)) example_asks) = tag_asks /\
            slice (slab_to_buffer (mk_slab (hdr s) [mk_leaf 0 0; mk_leaf 0 0; mk_leaf 258 5]
                   (inner_nodes s) (callback_infos s)) example_asks) 88 3 = [2; 1; 0]
  | _ => False
  end /\
  slab_from_buffer 4 example_asks tag_bids = Err AccountTagMismatch.
Proof. by vm_compute. Qed.
Definition example_queue : bytes := le_enc 8 tag_event_queue ++ repeat 3 264.
Example C42_example :
  queue_allocation_size 4 5 = 272%nat /\ length example_queue = 272%nat /\
  queue_check_size 4 example_queue = Ok tt /\
  queue_check_size 4 (take 271 example_queue) = Err PE_InvalidAccountData /\
  match queue_from_buffer 4 example_queue tag_event_queue with
  | Ok (q, _) => length (q_events q) = 5%nat /\ length (q_cbs q) = 10%nat
  | _ => False
  end.
Proof. by vm_compute. Qed.
Example C43_example :
  let r := Some (mk_summary (Some 5) 10 20 3) in
  register_typed r /\ length (wr_register r) = 42%nat /\
  rd_register (wr_register r ++ [9; 9]) = Some (r, [9; 9]).
Proof. by vm_compute. Qed.
Example C44_example :
  let p := mk_params 10 20 4294967296 Bid 3 [1;2;3;4] false true CancelProvide in
  new_order_typed 4 p /\ length (wr_new_order p) = 40%nat /\
  try_from_slice (rd_new_order 4) (wr_new_order p) = Some p /\
  try_from_slice (rd_new_order 4) (wr_new_order p ++ [0]) = None /\
  try_from_slice (rd_new_order 4) (take 39 (wr_new_order p)) = None /\
  try_from_slice rd_mass_cancel (wr_mass_cancel [7; 8]) = Some [7; 8].
Proof. cbv zeta. split; [unfold new_order_typed, sized; cbn; repeat split; try done; repeat constructor|]; by vm_compute. Qed.

Print Assumptions C41_allocation_size.
Print Assumptions C41_open.
Print Assumptions C41_wrong_tag.
Print Assumptions C41_write_read.
Print Assumptions C42_allocation_size.
Print Assumptions C42_accepted_sizes.
Print Assumptions C42_open.
Print Assumptions C42_wrong_tag.
Print Assumptions C42_write_read.
Print Assumptions C43_round_trip.
Print Assumptions C43_injective.
Print Assumptions C43_length.
Print Assumptions C43_documented_size_short.
Print Assumptions C44_create.
Print Assumptions C44_new_order.
Print Assumptions C44_consume.
Print Assumptions C44_cancel.
Print Assumptions C44_mass_cancel.
