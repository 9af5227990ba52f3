(** * PropsCatch.v: loading a side and following it; sides loaded at different moments (C100)

    Vocabulary: Spec.v and CatchSpec.v ([follow]); [nobody_joins] is that of C96. *)
From Verif Require Import Machine Critbit EventQueue OrderBook Market Spec WaitSpec CatchSpec ExampleRuns.
From Verif Require Import InstrProps HistoryProps CatchProofs OfferProofs PropsMarket PropsOffer PropsWait.
From Coq Require Import ZifyBool ZifyNat ZifyN.

(** A side loaded at any moment, with the later entries of the log applied to it, is that
    side now. *)
Theorem C100_follow : forall (C : Type) (same_id : C -> C -> bool) c log0 m0 log m sd,
  config_ok c -> history same_id c log0 m0 -> steps same_id m0 log m -> N.of_nat (length (log0 ++ log)) < p63 ->
  forall o, o ∈ resting m sd <-> o ∈ follow (resting m0 sd) log /\ side_of_id (o_id o) = sd.
Proof. exact @follow_side. Qed.
Print Assumptions C100_follow.

(** One side loaded earlier, the other later.  If an order of one crosses an order of the
    other, then the first has left the book and the second was posted in between. *)
Theorem C100_crossed_means : forall (C : Type) (same_id : C -> C -> bool) c log0 m0 log m sd x y,
  config_ok c -> history same_id c log0 m0 -> steps same_id m0 log m -> N.of_nat (length (log0 ++ log)) < p63 ->
  x ∈ resting m0 sd -> y ∈ resting m (opposite sd) ->
  crossing sd (id_price (o_id x)) (id_price (o_id y)) -> gone m (o_id x) /\ o_id y ∈ posted_ids log.
Proof. exact @crossed_means. Qed.
Print Assumptions C100_crossed_means.
(** So the two do not cross if nobody joined the side that is loaded later. *)
Theorem C100_quiet : forall (C : Type) (same_id : C -> C -> bool) c log0 m0 log m sd x y,
  config_ok c -> history same_id c log0 m0 -> steps same_id m0 log m -> N.of_nat (length (log0 ++ log)) < p63 ->
  nobody_joins (opposite sd) log -> x ∈ resting m0 sd -> y ∈ resting m (opposite sd) ->
  ~ crossing sd (id_price (o_id x)) (id_price (o_id y)).
Proof.
  intros C same_id c log0 m0 log m sd x y Hc Hh Hs Hl Hn Hx Hy Hcr.
  destruct (C96_shrinks _ _ _ _ _ _ _ _ Hc Hh Hs Hl Hn _ Hy) as (y'&Hy'&E&_). rewrite <- E in Hcr.
  eapply (not_crossed same_id c m0 sd x y'); [|done..]. by eapply history_reachable.
Qed.
Print Assumptions C100_quiet.

(** ** Concrete cases
    Bids for 20 at 2 and for 30 at 1 are loaded.  Then the first is taken, and 20 are offered
    at 2: the asks loaded now cross the bids loaded before (prices in units of 2^31). *)
Definition ca_m0 : market N := after N.eqb ex_cfg [of_bid 20 2 4; of_bid 30 1 5].
Definition ca_run : list (entry N) * market N := run_log N.eqb [of_ask 20 2 7; of_ask 20 2 8] [] ca_m0.
Definition ca_show (os : list (order N)) : list (N * N) := map (fun o => (o_qty o, id_price (o_id o) / 2147483648)) os.
Theorem C100_torn_refuted : exists log0 m0 log m x y,
  history N.eqb ex_cfg log0 m0 /\ steps N.eqb m0 log m /\ x ∈ resting m0 Bid /\ y ∈ resting m Ask /\
  crossing Bid (id_price (o_id x)) (id_price (o_id y)).
Proof.
  exists (log_of N.eqb ex_cfg [of_bid 20 2 4; of_bid 30 1 5]), ca_m0, (fst ca_run), (snd ca_run).

  destruct (resting ca_m0 Bid !! 1%nat) as [x|] eqn:Ex; [|by vm_compute in Ex].
  destruct (resting (snd ca_run) Ask !! 0%nat) as [y|] eqn:Ey; [|by vm_compute in Ey].
  exists x, y.
  split; [apply after_history; by vm_compute|].
  split; [apply (run_log_steps N.eqb ca_m0 [of_ask 20 2 7; of_ask 20 2 8] [] ca_m0); [by vm_compute|constructor]|].
  split; [by eapply elem_of_list_lookup_2|]. split; [by eapply elem_of_list_lookup_2|].
  assert (Px : option_map (fun o => id_price (o_id o)) (resting ca_m0 Bid !! 1%nat) = Some (2 * 2147483648)) by (by vm_compute).
  assert (Py : option_map (fun o => id_price (o_id o)) (resting (snd ca_run) Ask !! 0%nat) = Some (2 * 2147483648)) by (by vm_compute).
  rewrite Ex in Px. rewrite Ey in Py. cbn [option_map] in Px, Py. injection Px as ->. injection Py as ->. cbn [crossing]. lia.
Qed.
Example C100_torn_example : ca_show (resting ca_m0 Bid) = [(30, 1); (20, 2)] /\ ca_show (resting (snd ca_run) Ask) = [(20, 2)].
Proof. split; by vm_compute. Qed.
(** The bids followed through the same log, and the bids now. *)
Example C100_follow_example :
  ca_show (follow (resting ca_m0 Bid) (fst ca_run)) = [(30, 1); (20, 2)] /\
  ca_show (List.filter (fun o => side_u8 (side_of_id (o_id o)) =? side_u8 Bid) (follow (resting ca_m0 Bid) (fst ca_run))) = [(30, 1)] /\
  ca_show (resting (snd ca_run) Bid) = [(30, 1)].
Proof. split_and!; by vm_compute. Qed.
(** An entry that the loaded side already contains must not be applied again: here the buyer
    of 30 has sold 11, and would seem to have 8 left instead of 19. *)
Theorem C100_twice_refuted : exists log e m,
  history N.eqb ex_cfg (log ++ [e]) m /\ ca_show (resting m Bid) = [(19, 1)] /\ ca_show (follow (resting m Bid) [e]) = [(8, 1)].
Proof.
  pose (ops := [of_bid 30 1 5; of_ask 11 1 7]). pose (l := log_of N.eqb ex_cfg ops).
  pose (d := mk_entry (ConsumeEvents 0) (Ok None) [] : entry N).
  exists (take 1 l), (nth 1 l d), (after N.eqb ex_cfg ops).
  assert (El : l = take 1 l ++ [nth 1 l d]) by (by vm_compute).
  split; [rewrite <- El; apply after_history; by vm_compute|]. split; by vm_compute.
Qed.
Print Assumptions C100_torn_refuted.
Print Assumptions C100_twice_refuted.
(** Only sales: the asks loaded after them do not cross the bids loaded before. *)
Definition ca_m1 : market N := after N.eqb ex_cfg [of_bid 20 2 4; of_bid 30 1 5; of_ask 40 3 6].
Definition ca_sales : list (op N) := [NewOrder (of_sell 15); NewOrder (of_sell 20); NewOrder (of_buy 12 10)].
Definition ca_quiet : list (entry N) * market N := run_log N.eqb ca_sales [] ca_m1.
Example C100_quiet_example :
  history N.eqb ex_cfg (log_of N.eqb ex_cfg [of_bid 20 2 4; of_bid 30 1 5; of_ask 40 3 6]) ca_m1 /\
  steps N.eqb ca_m1 (fst ca_quiet) (snd ca_quiet) /\ nobody_joins Ask (fst ca_quiet) /\
  map (fun e => is_ok (en_res e)) (fst ca_quiet) = [true; true; true] /\
  ca_show (resting ca_m1 Bid) = [(30, 1); (20, 2)] /\ ca_show (resting (snd ca_quiet) Ask) = [(28, 3)].
Proof.
  split; [apply after_history; by vm_compute|].
  split; [apply (run_log_steps N.eqb ca_m1 ca_sales [] ca_m1); [by vm_compute|constructor]|].
  split; [apply nobody_joinsb_ok; by vm_compute|]. split_and!; by vm_compute.
Qed.
