(** * JsQueueProofs.v: price levels, and the client's view of the event queue *)
From Verif Require Import Machine Bytes Critbit EventQueue OrderBook Market Spec MachineProofs
  TreeProofs SlabProofs SlabProofs2 QueueProofs Layout LayoutProofs PropsLayout JsClient
  ClientSpec JsProofs.
From Coq Require Import ZifyBool ZifyNat ZifyN.
From Coq Require Import Sorting.Sorted.

(** ** Price levels of a sorted list *)
Definition lsum (os : list (N * N)) (p : N) : N :=
  sumN fst (List.filter (fun x => snd x =? p) os).
Lemma lsum_cons q p os x : lsum ((q, p) :: os) x = (if p =? x then q else 0) + lsum os x.
Proof. unfold lsum. cbn [List.filter snd]. destruct (p =? x); cbn; lia. Qed.
Lemma lsum_absent os x : x ∉ map snd os -> lsum os x = 0.
Proof.
  induction os as [|[q p] os IH]; [done|]. cbn [map snd]. intros H. rewrite lsum_cons, IH by set_solver.
  destruct (N.eqb_spec p x) as [->|]; [set_solver|lia].
Qed.
Section Levels.
Context (R : N -> N -> Prop) (Rirr : forall a, ~ R a a) (Rtr : forall a b c, R a b -> R b c -> R a c).
Lemma levels_spec os : StronglySorted (fun a b => a = b \/ R a b) (map snd os) ->
  StronglySorted R (map snd (levels os)) /\
  (forall p, p ∈ map snd (levels os) <-> p ∈ map snd os) /\
  (forall x, x ∈ levels os -> fst x = lsum os (snd x)).
Proof.
  induction os as [|[q p] os IH].
  { intros _. cbn. split_and!; [constructor|done|]. intros x Hx. by apply elem_of_nil in Hx. }
  intros Hs. cbn [map snd] in Hs.
  apply StronglySorted_inv in Hs as [Hs Hall]. rewrite Forall_forall in Hall.
  destruct (IH Hs) as (I1&I2&I3). clear IH.
  destruct os as [|[q1 p1] os].
  { cbn [levels map snd]. split_and!; [repeat constructor|done|]. intros x Hx.
    apply elem_of_list_singleton in Hx as ->. cbn [fst snd]. rewrite lsum_cons, N.eqb_refl. cbn. lia. }
  destruct (levels_head os q1 p1) as (q'&r&E).
  destruct (N.eqb_spec p p1) as [->|Hne].
  - assert (E' : levels ((q, p1) :: (q1, p1) :: os) = (q + q', p1) :: r).
    { change (levels ((q, p1) :: (q1, p1) :: os)) with
        (match levels ((q1, p1) :: os) with
         | (q2, p2) :: r => if p1 =? p2 then (q + q2, p1) :: r else (q, p1) :: (q2, p2) :: r
         | [] => [(q, p1)] end).
      by rewrite E, N.eqb_refl. }
    rewrite E' . rewrite E in I1, I2, I3. cbn [map snd] in *.
    apply StronglySorted_inv in I1 as [I1 If]. rewrite Forall_forall in If.
    split_and!.
    + constructor; [done|by rewrite Forall_forall].
    + intros x. rewrite I2. set_solver.
    + intros x Hx. apply elem_of_cons in Hx as [->|Hx]; cbn [fst snd].
      * rewrite lsum_cons, N.eqb_refl. pose proof (I3 (q', p1) ltac:(left)) as Hq. cbn [fst snd] in Hq. lia.
      * rewrite lsum_cons. destruct (N.eqb_spec p1 (snd x)) as [Heq|Hn].
        -- exfalso. apply (Rirr p1). apply If. apply elem_of_list_fmap. by exists x.
        -- rewrite I3; [lia|by right].
  - rewrite levels_new by done. rewrite E in *. cbn [map snd] in *.
    assert (Hrel : R p p1) by (destruct (Hall p1 ltac:(left)); done).
    assert (Hnot : p ∉ p1 :: map snd os).
    { intros Hin. apply elem_of_cons in Hin as [->|Hin]; [done|].
      apply StronglySorted_inv in Hs as [_ Hf]. rewrite Forall_forall in Hf.
      destruct (Hf p Hin) as [->|Hb]; [by apply Hne|]. apply (Rirr p). by eapply Rtr. }
    split_and!.
    + constructor; [done|]. apply Forall_forall. intros x Hx.
      pose proof (proj1 (I2 x) Hx) as Hin. destruct (Hall x Hin) as [->|]; [|done]. done.
    + intros x. rewrite elem_of_cons, I2. set_solver.
    + intros x Hx. apply elem_of_cons in Hx as [->|Hx].
      * cbn [fst snd]. rewrite lsum_cons, N.eqb_refl, lsum_absent; [lia|done].
      * rewrite lsum_cons. destruct (N.eqb_spec p (snd x)) as [Heq|Hn].
        -- exfalso. apply Hnot. rewrite Heq. apply I2.
           change (snd x ∈ map snd ((q', p1) :: r)). apply elem_of_list_fmap. by exists x.
        -- rewrite I3; [lia|done].
Qed.
Lemma levels_eq os : StronglySorted (fun a b => a = b \/ R a b) (map snd os) ->
  levels os = map (fun p => (lsum os p, p)) (map snd (levels os)).
Proof.
  intros Hs. destruct (levels_spec os Hs) as (_&_&H). clear Hs. revert H.
  generalize (levels os). intros ls H. rewrite map_map.
  rewrite <- (map_id ls) at 1. apply map_ext_in. intros x Hx. destruct x as [a b].
  cbn. f_equal. apply (H (a, b)). by apply elem_of_list_In.
Qed.
End Levels.

(** ** The event queue *)
Lemma idx_nth {A} (l : list A) i x : idx l i = Ok x -> nth_error l (N.to_nat i) = Some x.
Proof.
  unfold idx. destruct (getN l i) as [y|] eqn:E; [|done]. intros [= ->]. by apply getN_nth.
Qed.
Definition js_view (ev : event_ref bytes) : js_event :=
  match ev with
  | EvFill e mk tk => JsFill (fe_taker_side e) (fe_quote e) (fe_maker_id e) (fe_base e) mk tk
  | EvOut e cb => JsOut (oe_side e) (oe_id e) (oe_base e) (oe_pad e mod 256 =? 1) cb
  end.
Record shows_queue (n : nat) (jq : js_queue) (q : queue bytes) : Prop := {
  sq_head : jq_head (jq_header jq) = q_head q;
  sq_count : jq_count (jq_header jq) = q_count q;
  sq_seq : jq_seq (jq_header jq) = q_seq q;
  sq_len : length (jq_events jq) = (40 * n)%nat;
  sq_cap : q_cap q = N.of_nat n;
  sq_event : forall i ev, get_event q i = Ok ev -> js_parse_event jq i = Ok (js_view ev);
}.
Lemma queue_shown cs n buf q : queue_at cs n buf q -> queue_typed cs q ->
  N.of_nat (length buf) <= 10485760 ->
  exists jq, js_queue_parse (N.of_nat cs) buf = Ok jq /\ shows_queue n jq q /\
    jq_tag (jq_header jq) = le_dec (take 8 buf).
Proof.
  intros [Hl Hh Hc Hsq Hel He Hcl Hcb] Hty Hmax.
  unfold js_queue_parse, js_deserialize.
  destruct (Nat.ltb_spec (length buf) 32); [lia|]. cbn [rbind]. cbv zeta.
  assert (Hcap : js_is (js_div (Z.of_nat (length buf) - 32) (40 + 2 * Z.of_N (N.of_nat cs))) (Z.of_nat n)).
  { unfold js_div.
    replace (Z.of_nat (length buf) - 32)%Z with (Z.of_nat n * (40 + 2 * Z.of_N (N.of_nat cs)))%Z by nia.
    apply js_round_int; [|lia]. change (2 ^ 53)%Z with 9007199254740992%Z. nia. }
  set (cap := js_div _ _) in *. clearbody cap.
  assert (Hoff : js_is (js_add (js_int 32) (js_mul cap (js_int 40))) (32 + Z.of_nat n * 40)).
  { apply js_add_is; [apply js_int_is|apply js_mul_is; [done|apply js_int_is|]|];
      change (2 ^ 53)%Z with 9007199254740992%Z; nia. }
  rewrite (js_trunc_is _ _ Hoff). clear Hoff Hcap.
  rewrite (js_slice_in buf 32 _ 32 (32 + 40 * n)), (js_slice_from_in buf _ (32 + 40 * n)) by lia.
  replace (32 + 40 * n - 32)%nat with (40 * n)%nat by lia.
  eexists. split; [reflexivity|]. split; [|reflexivity].
  assert (Hdec : forall o v, (o + 8 <= 32)%nat -> at_offset buf o (le_enc 8 v) -> v < p64 ->
    le_dec (slice buf o 8) = v).
  { intros o v Ho Ha Hv. unfold at_offset in Ha. rewrite le_enc_length in Ha. rewrite Ha.
    by apply le_dec_enc_small. }
  destruct Hty as [T1 T2 T3 T4 T5].
  split; cbn [jq_header jq_head jq_count jq_seq js_queue_header_of jq_events].
  - by apply Hdec; [lia|..].
  - by apply Hdec; [lia|..].
  - by apply Hdec; [lia|..].
  - rewrite slice_length; lia.
  - unfold q_cap. by rewrite Hel.
  - intros i ev Hg. unfold get_event in Hg.
    unfold js_parse_event. cbn [jq_events jq_cbs jq_cs].
    destruct (idx (q_events q) i) as [g| | |] eqn:Hi; try done. unfold rbind at 1 in Hg.
    pose proof (idx_nth _ _ _ Hi) as Hnth.
    assert (Hlt : (N.to_nat i < n)%nat) by (rewrite <- Hel; apply nth_error_Some; by rewrite Hnth).
    assert (Hgt : fill_typed g).
    { apply nth_error_In, elem_of_list_In in Hnth. by apply (proj1 (Forall_forall _ _) T4). }
    rewrite (js_slice_in _ _ _ (40 * N.to_nat i) (40 * N.to_nat i + 40)); [|lia|lia|lia|rewrite slice_length; nia].
    replace (40 * N.to_nat i + 40 - 40 * N.to_nat i)%nat with 40%nat by lia.
    rewrite slice_slice by nia.
    pose proof (He _ _ Hnth) as Ha. unfold at_offset in Ha. rewrite bytes_of_fill_length in Ha. rewrite Ha.
    assert (Hcbs : forall k c, idx (q_cbs q) k = Ok c ->
      js_slice (drop (32 + 40 * n) buf) (Z.of_N k * Z.of_N (N.of_nat cs))
        (Z.of_N k * Z.of_N (N.of_nat cs) + Z.of_N (N.of_nat cs)) = c).
    { intros k c Hk. pose proof (idx_nth _ _ _ Hk) as Hkn.
      assert (Hkl : (N.to_nat k < 2 * n)%nat) by (rewrite <- Hcl; apply nth_error_Some; by rewrite Hkn).
      assert (Hlc : length c = cs).
      { pose proof Hkn as Hx. apply nth_error_In, elem_of_list_In in Hx.
        by destruct (proj1 (Forall_forall _ _) T5 _ Hx). }
      rewrite (js_slice_in _ _ _ (cs * N.to_nat k) (cs * N.to_nat k + cs)); [|nia|nia|lia|rewrite drop_length; nia].
      replace (cs * N.to_nat k + cs - cs * N.to_nat k)%nat with cs by lia.
      rewrite slice_drop. pose proof (Hcb _ _ Hkn) as Hb. unfold at_offset in Hb. by rewrite Hlc in Hb. }
    destruct (bytes_of_fill g) as [|t rest] eqn:Hbytes.
    { by pose proof (bytes_of_fill_length g) as Hx; rewrite Hbytes in Hx. }
    assert (Htag : t = fe_tag g).
    { pose proof (fill_of_bytes_of_fill g Hgt) as Hx. rewrite Hbytes in Hx.
      apply (f_equal fe_tag) in Hx. rewrite <- Hx. unfold fill_of_bytes. cbn [fe_tag].
      change (slice (t :: rest) 0 1) with [t]. change (t = t + 256 * 0). lia. }
    rewrite <- Hbytes. rewrite Htag.
    destruct (N.eqb_spec (fe_tag g) 0) as [Ht0|Ht0].
    + unfold tag_fill in Hg. rewrite Ht0 in Hg. cbn [N.eqb] in Hg.
      destruct (idx (q_cbs q) (2 * i)) as [mk| | |] eqn:Hmk; try done. unfold rbind at 1 in Hg.
      destruct (idx (q_cbs q) (2 * i + 1)) as [tk| | |] eqn:Htk; try done. unfold rbind at 1 in Hg.
      apply Ok_inj in Hg as <-. unfold js_deserialize. rewrite bytes_of_fill_length. cbn [Nat.ltb Nat.leb].
      cbn [js_view]. f_equal.
      pose proof (fill_of_bytes_of_fill g Hgt) as Hx.
      rewrite <- (Hcbs _ _ Hmk), <- (Hcbs _ _ Htk). rewrite <- Hx at 5 6 7 8.
      unfold fill_of_bytes. cbn [fe_taker_side fe_quote fe_maker_id fe_base].
      f_equal; f_equal; lia.
    + unfold tag_fill in Hg. destruct (N.eqb_spec (fe_tag g) 0); [done|].
      unfold tag_out in Hg. destruct (N.eqb_spec (fe_tag g) 1); [|done].
      destruct (idx (q_cbs q) (2 * i)) as [mk| | |] eqn:Hmk; try done. unfold rbind at 1 in Hg.
      apply Ok_inj in Hg as <-. unfold js_deserialize. rewrite bytes_of_fill_length. cbn [Nat.ltb Nat.leb].
      cbn [js_view]. f_equal. rewrite <- (Hcbs _ _ Hmk). rewrite <- ?Hbytes.
      unfold out_of_bytes. cbn [oe_side oe_id oe_base oe_pad].
      f_equal.
      * f_equal. symmetry.
        change (slice (bytes_of_fill g) 2 14) with (slice (bytes_of_fill g) 2 (1 + 13)).
        rewrite <- slice_glue. pose proof (bytes_of_fill_ok g) as Hb.
        assert (Hb2 : exists x, slice (bytes_of_fill g) 2 1 = [x] /\ x < 256).
        { pose proof (slice_len (bytes_of_fill g) 2 1 ltac:(rewrite bytes_of_fill_length; lia)) as Hs1.
          pose proof (slice_ok _ 2 1 Hb) as Hs2.
          destruct (slice (bytes_of_fill g) 2 1) as [|x [|]]; try done. exists x. split; [done|].
          by apply Forall_cons in Hs2 as [? _]. }
        destruct Hb2 as (x&->&Hx). change (le_dec ([x] ++ slice (bytes_of_fill g) (2 + 1) 13))
          with (x + 256 * le_dec (slice (bytes_of_fill g) (2 + 1) 13)).
        change (le_dec [x]) with (x + 256 * 0).
        rewrite (N.mul_comm 256), N.mod_add by lia. rewrite N.mod_small by lia. lia.
      * f_equal; lia.
Qed.
