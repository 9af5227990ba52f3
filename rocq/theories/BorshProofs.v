(** * BorshProofs.v: readers and writers are inverse to each other *)
From Verif Require Import Machine Bytes Critbit EventQueue OrderBook MachineProofs QueueProofs
  Layout LayoutProofs Borsh.
From Coq Require Import ZifyBool ZifyNat ZifyN.

(** [w] writes what [r] reads, for the values in [P]. *)
Definition reads {A} (r : reader A) (w : A -> bytes) (P : A -> Prop) : Prop :=
  forall a rest, P a -> r (w a ++ rest) = Some (a, rest).
(** [r] reads nothing but what [w] writes. *)
Definition only_reads {A} (r : reader A) (w : A -> bytes) (P : A -> Prop) : Prop :=
  forall b a rest, bytes_ok b -> r b = Some (a, rest) -> b = w a ++ rest /\ P a /\ bytes_ok rest.
Definition codec {A} (r : reader A) (w : A -> bytes) (P : A -> Prop) : Prop :=
  reads r w P /\ only_reads r w P.

Lemma codec_slice {A} (r : reader A) w P : codec r w P ->
  forall b a, bytes_ok b -> (try_from_slice r b = Some a <-> b = w a /\ P a).
Proof.
  intros [Hr Ho] b a Hb. unfold try_from_slice. split.
  - destruct (r b) as [[a' rest]|] eqn:E; [|done]. destruct rest; [|done]. intros [= ->].
    destruct (Ho _ _ _ Hb E) as (-> & ? & _). by rewrite app_nil_r.
  - intros [-> Ha]. rewrite <- (app_nil_r (w a)). by rewrite Hr.
Qed.

Lemma raw_codec n : codec (rd_raw n) (fun b => b) (fun b => sized n b /\ bytes_ok b).
Proof.
  split.
  - intros a rest [Ha _]. unfold rd_raw, sized in *. rewrite app_length.
    destruct (Nat.ltb_spec (length a + length rest) n); [lia|].
    by rewrite take_app_alt, drop_app_alt by done.
  - intros b a rest Hb. unfold rd_raw, sized. destruct (Nat.ltb_spec (length b) n); [done|].
    intros [= <- <-]. split_and!; [by rewrite take_drop|rewrite take_length; lia| |].
    + by apply bytes_ok_take.
    + by apply bytes_ok_drop.
Qed.
Lemma uint_codec n : codec (rd_uint n) (le_enc n) (fun v => v < 256 ^ N.of_nat n).
Proof.
  destruct (raw_codec n) as [Hr Ho]. split.
  - intros a rest Ha. unfold rd_uint, rd_bind. rewrite Hr.
    + unfold rd_ret. by rewrite le_dec_enc_small.
    + split; [apply le_enc_length|apply le_enc_ok].
  - intros b a rest Hb. unfold rd_uint, rd_bind. destruct (rd_raw n b) as [[v r]|] eqn:E; [|done].
    destruct (Ho _ _ _ Hb E) as (-> & [Hs Hv] & Hrest). intros [= <- <-].
    unfold sized in Hs. pose proof (le_dec_lt v Hv). rewrite Hs in *.
    split_and!; [|done|done]. f_equal. rewrite <- Hs. by rewrite le_enc_dec.
Qed.
Lemma u8_inv b v rest : bytes_ok b -> rd_uint 1 b = Some (v, rest) -> b = v :: rest /\ v < 256 /\ bytes_ok rest.
Proof.
  intros Hb E. destruct (proj2 (uint_codec 1) _ _ _ Hb E) as (-> & Hv & Hr).
  change (256 ^ N.of_nat 1) with 256 in Hv. split_and!; try done.
  unfold le_enc. cbn. by rewrite N.mod_small.
Qed.
Lemma u8_read v rest : v < 256 -> rd_uint 1 (v :: rest) = Some (v, rest).
Proof.
  intros Hv. replace (v :: rest) with (le_enc 1 v ++ rest).
  - by apply (proj1 (uint_codec 1)).
  - unfold le_enc. cbn. by rewrite N.mod_small.
Qed.

Ltac u8_cases H :=
  match type of H with
  | context [?v =? 0] => destruct (N.eqb_spec v 0) as [->|]
  | context [?v =? 1] => destruct (N.eqb_spec v 1) as [->|]
  | context [?v =? 2] => destruct (N.eqb_spec v 2) as [->|]
  end.
Lemma bool_codec : codec rd_bool wr_bool (fun _ => True).
Proof.
  split.
  - intros [] rest _; done.
  - intros b a rest Hb E. unfold rd_bool, rd_bind in E.
    destruct (rd_uint 1 b) as [[v r]|] eqn:Ev; [|done].
    destruct (u8_inv _ _ _ Hb Ev) as (-> & _ & ?).
    repeat (u8_cases E; [by injection E as <- <-|]). done.
Qed.
Lemma side_codec : codec rd_side wr_side (fun _ => True).
Proof.
  split.
  - intros [] rest _; done.
  - intros b a rest Hb E. unfold rd_side, rd_bind in E.
    destruct (rd_uint 1 b) as [[v r]|] eqn:Ev; [|done].
    destruct (u8_inv _ _ _ Hb Ev) as (-> & _ & ?).
    repeat (u8_cases E; [by injection E as <- <-|]). done.
Qed.
Lemma stb_codec : codec rd_stb wr_stb (fun _ => True).
Proof.
  split.
  - intros [] rest _; done.
  - intros b a rest Hb E. unfold rd_stb, rd_bind in E.
    destruct (rd_uint 1 b) as [[v r]|] eqn:Ev; [|done].
    destruct (u8_inv _ _ _ Hb Ev) as (-> & _ & ?).
    repeat (u8_cases E; [by injection E as <- <-|]). done.
Qed.
Lemma option_codec {A} (r : reader A) w P : codec r w P ->
  codec (rd_option r) (wr_option w) (fun o => match o with Some a => P a | None => True end).
Proof.
  intros [Hr Ho]. split.
  - intros [a|] rest HP; unfold rd_option, rd_bind; cbn [wr_option app]; rewrite u8_read by done; cbn.
    + by rewrite Hr.
    + done.
  - intros b a rest Hb E. unfold rd_option, rd_bind in E.
    destruct (rd_uint 1 b) as [[v r']|] eqn:Ev; [|done].
    destruct (u8_inv _ _ _ Hb Ev) as (-> & _ & Hb').
    u8_cases E; [by injection E as <- <-|]. u8_cases E; [|done].
    destruct (r r') as [[a' r'']|] eqn:Er; [|done]. injection E as <- <-.
    destruct (Ho _ _ _ Hb' Er) as (-> & ? & ?). done.
Qed.

Lemma u128s_read l : Forall (fun x => x < p128) l -> forall fuel rest, (length l <= fuel)%nat ->
  rd_u128s fuel (N.of_nat (length l)) (concat (map (le_enc 16) l) ++ rest) = Some (l, rest).
Proof.
  induction 1 as [|x l Hx Hl IH]; intros fuel rest Hf.
  - by destruct fuel.
  - destruct fuel as [|fuel]; [cbn in Hf; lia|]. cbn [rd_u128s length map concat].
    destruct (N.eqb_spec (N.of_nat (S (length l))) 0); [lia|]. unfold rd_bind.
    rewrite <- app_assoc. rewrite (proj1 (uint_codec 16)) by done.
    replace (N.of_nat (S (length l)) - 1) with (N.of_nat (length l)) by lia.
    cbn in Hf. by rewrite IH by lia.
Qed.
Lemma u128s_only fuel : forall n b l rest, bytes_ok b -> rd_u128s fuel n b = Some (l, rest) ->
  b = concat (map (le_enc 16) l) ++ rest /\ Forall (fun x => x < p128) l /\
  n = N.of_nat (length l) /\ bytes_ok rest.
Proof.
  induction fuel as [|fuel IH]; intros n b l rest Hb E; cbn [rd_u128s] in E;
    destruct (N.eqb_spec n 0) as [->|Hn].
  - by injection E as <- <-.
  - done.
  - by injection E as <- <-.
  - unfold rd_bind in E. destruct (rd_uint 16 b) as [[x b1]|] eqn:E1; [|done].
    destruct (rd_u128s fuel (n - 1) b1) as [[l1 b2]|] eqn:E2; [|done]. injection E as <- <-.
    destruct (proj2 (uint_codec 16) _ _ _ Hb E1) as (-> & Hx & Hb1).
    destruct (IH _ _ _ _ Hb1 E2) as (-> & ? & ? & ?).
    cbn [map concat length]. rewrite <- app_assoc. split_and!; try done; [by constructor|lia].
Qed.
Lemma vec_codec : codec rd_vec_u128 wr_vec_u128
  (fun l => Forall (fun x => x < p128) l /\ N.of_nat (length l) < p32).
Proof.
  split.
  - intros l rest [Hl Hn]. unfold rd_vec_u128, wr_vec_u128, rd_bind. rewrite <- app_assoc.
    rewrite (proj1 (uint_codec 4)) by done. apply u128s_read; [done|].
    rewrite app_length. rewrite (concat_sized 16).
    + rewrite map_length. lia.
    + induction l; constructor; [apply le_enc_length|]. apply IHl; [by inversion Hl|cbn in Hn; lia].
  - intros b l rest Hb E. unfold rd_vec_u128, rd_bind in E.
    destruct (rd_uint 4 b) as [[n b1]|] eqn:E1; [|done].
    destruct (proj2 (uint_codec 4) _ _ _ Hb E1) as (-> & Hx & Hb1).
    destruct (u128s_only _ _ _ _ _ Hb1 E) as (-> & ? & -> & ?).
    unfold wr_vec_u128. rewrite <- app_assoc. done.
Qed.

Ltac rd_read :=
  rewrite <- ?app_assoc; unfold rd_bind at 1;
  first [ rewrite (proj1 (uint_codec _)) by done
        | rewrite (proj1 side_codec) by done
        | rewrite (proj1 bool_codec) by done
        | rewrite (proj1 stb_codec) by done
        | rewrite (proj1 (raw_codec _)) by done
        | rewrite (proj1 (option_codec _ _ _ (uint_codec _))) by done ]; cbv beta iota.
Ltac rd_step E :=
  unfold rd_bind at 1 in E;
  match type of E with
  | match ?r ?b with _ => _ end = _ =>
      let E1 := fresh "E" in let a := fresh "a" in let b1 := fresh "b" in
      destruct (r b) as [[a b1]|] eqn:E1; [|discriminate E];
      match goal with
      | Hb : bytes_ok b |- _ =>
          first [ apply (proj2 (uint_codec _)) in E1; [|exact Hb]
                | apply (proj2 side_codec) in E1; [|exact Hb]
                | apply (proj2 bool_codec) in E1; [|exact Hb]
                | apply (proj2 stb_codec) in E1; [|exact Hb]
                | apply (proj2 (raw_codec _)) in E1; [|exact Hb]
                | apply (proj2 (option_codec _ _ _ (uint_codec _))) in E1; [|exact Hb] ];
          destruct E1 as (-> & ? & ?)
      end
  end; cbv beta iota in E.

Definition create_typed (p : create_params) : Prop := cp_min p < p64 /\ cp_tick p < p64.
Definition new_order_typed (cs : nat) (p : params bytes) : Prop :=
  max_base_qty p < p64 /\ max_quote_qty p < p64 /\ limit_price p < p64 /\
  match_limit p < p64 /\ sized cs (p_callback p) /\ bytes_ok (p_callback p).
Definition summary_typed (s : summary) : Prop :=
  match posted_order_id s with Some i => i < p128 | None => True end /\
  total_base_qty s < p64 /\ total_quote_qty s < p64 /\ total_base_qty_posted s < p64.
Definition register_typed (r : option summary) : Prop :=
  match r with Some s => summary_typed s | None => True end.

Lemma create_codec : codec rd_create wr_create create_typed.
Proof.
  split.
  - intros [a b] rest [Ha Hb]. unfold rd_create, wr_create. cbn in *. repeat rd_read. done.
  - intros b a rest Hb E. unfold rd_create in E. repeat rd_step E. injection E as <- <-.
    unfold wr_create, create_typed. cbn [cp_min cp_tick]. rewrite <- app_assoc. done.
Qed.
Lemma new_order_codec cs : codec (rd_new_order cs) wr_new_order (new_order_typed cs).
Proof.
  split.
  - intros [a b c s m cb po pa st] rest (?&?&?&?&?&?). unfold rd_new_order, wr_new_order.
    cbn [max_base_qty max_quote_qty limit_price p_side match_limit p_callback post_only post_allowed stb] in *.
    repeat rd_read. done.
  - intros b a rest Hb E. unfold rd_new_order in E. repeat rd_step E.
    injection E as <- <-. unfold wr_new_order, new_order_typed.
    cbn [max_base_qty max_quote_qty limit_price p_side match_limit p_callback post_only post_allowed stb].
    rewrite <- !app_assoc. destruct_and?. done.
Qed.
Lemma consume_codec : codec rd_consume wr_consume (fun n => n < p64).
Proof. apply (uint_codec 8). Qed.
Lemma cancel_codec : codec rd_cancel wr_cancel (fun n => n < p128).
Proof. apply (uint_codec 16). Qed.
Lemma mass_cancel_codec : codec rd_mass_cancel wr_mass_cancel
  (fun l => Forall (fun x => x < p128) l /\ N.of_nat (length l) < p32).
Proof. apply vec_codec. Qed.
Lemma summary_codec : codec rd_summary wr_summary summary_typed.
Proof.
  split.
  - intros [i a b c] rest (?&?&?&?). unfold rd_summary, wr_summary.
    cbn [posted_order_id total_base_qty total_quote_qty total_base_qty_posted] in *.
    repeat rd_read. done.
  - intros b a rest Hb E. unfold rd_summary in E. repeat rd_step E.
    injection E as <- <-. unfold wr_summary, summary_typed.
    cbn [posted_order_id total_base_qty total_quote_qty total_base_qty_posted].
    rewrite <- !app_assoc. done.
Qed.
Lemma register_codec : codec rd_register wr_register register_typed.
Proof. apply (option_codec _ _ _ summary_codec). Qed.
Lemma register_length r : length (wr_register r) =
  match r with
  | None => 1%nat
  | Some s => match posted_order_id s with None => 26%nat | Some _ => 42%nat end
  end.
Proof.
  destruct r as [[[i|] a b c]|]; [| |done]; unfold wr_register, wr_option, wr_summary; cbn;
    rewrite !app_length, !le_enc_length; done.
Qed.
