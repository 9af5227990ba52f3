(** * PropsWait.v: waiting gets no better price while nobody joins the other side (C96) *)
From Verif Require Import Machine Critbit EventQueue OrderBook Market Spec PartsSpec BestSpec LadderSpec OfferSpec WaitSpec
  OfferProofs WaitProofs ExampleRuns PropsMarket PropsOrder PropsBest PropsOffer.
From Coq Require Import ZifyBool ZifyNat ZifyN.

(** A side that nobody joins can only shrink. *)
Theorem C96_shrinks : forall (C : Type) (same_id : C -> C -> bool) c log m log1 m1 sd,
  config_ok c -> history same_id c log m -> steps same_id m log1 m1 -> N.of_nat (length (log ++ log1)) < p63 ->
  nobody_joins sd log1 ->
  forall o, o ∈ resting m1 sd ->
  exists o', o' ∈ resting m sd /\ o_id o' = o_id o /\ o_cb o' = o_cb o /\ o_qty o <= o_qty o'.
Proof. exact @wait_book. Qed.

(** The same order [p], sent now (in [m]) or later (in [m1]), after any instructions that
    leave no new order on the other side.  For every quantity that it trades in both cases:
    the first so many units are worth no less later when [p] buys, and no more when it
    sells. *)
Theorem C96_price : forall (C : Type) (same_id : C -> C -> bool) c log m log1 m1 p s s1 m' m1',
  config_ok c -> history same_id c log m -> steps same_id m log1 m1 -> N.of_nat (length (log ++ log1)) < p63 ->
  nobody_joins (opposite (p_side p)) log1 ->
  op_typed (NewOrder p) -> exec same_id (NewOrder p) m = (Ok (Some s), m') -> exec same_id (NewOrder p) m1 = (Ok (Some s1), m1') ->
  post_only p = false -> free_to_sell m p ->
  let now := deals (emitted m m') in let later := deals (emitted m1 m1') in
  forall base, base <= depth now -> base <= depth later ->
  match p_side p with
  | Bid => exact_value (slices base now) <= exact_value (slices base later)
  | Ask => exact_value (slices base later) <= exact_value (slices base now)
  end.
Proof.
  intros C same_id c log m log1 m1 p s s1 m' m1' Hc Hh Hs Hl Hn Hty E E1 Hpo Hf now later base B B1.
  destruct (wait_accepted _ _ _ _ _ _ _ _ _ _ _ Hc Hh Hs Hl Hty E E1) as [A A1].
  pose proof (wait_book _ _ _ _ _ _ _ Hc Hh Hs Hl Hn) as Hm.
  exact (C92_price _ _ _ _ _ _ _ _ _ _ _ A1 A Hm Hpo Hf base B1 B).
Qed.
(** In quote units waiting may gain one unit for each fill beyond the first. *)
Theorem C96_quote : forall (C : Type) (same_id : C -> C -> bool) c log m log1 m1 p s s1 m' m1',
  config_ok c -> history same_id c log m -> steps same_id m log1 m1 -> N.of_nat (length (log ++ log1)) < p63 ->
  nobody_joins (opposite (p_side p)) log1 ->
  op_typed (NewOrder p) -> exec same_id (NewOrder p) m = (Ok (Some s), m') -> exec same_id (NewOrder p) m1 = (Ok (Some s1), m1') ->
  post_only p = false -> free_to_sell m p ->
  let now := deals (emitted m m') in let later := deals (emitted m1 m1') in
  forall base, base <= depth now -> base <= depth later ->
  let rounding := N.of_nat (length (slices base now)) - 1 in
  match p_side p with
  | Bid => total Bid (slices base now) <= total Bid (slices base later) + rounding
  | Ask => total Ask (slices base later) <= total Ask (slices base now) + rounding
  end.
Proof.
  intros C same_id c log m log1 m1 p s s1 m' m1' Hc Hh Hs Hl Hn Hty E E1 Hpo Hf now later base B B1.
  destruct (wait_accepted _ _ _ _ _ _ _ _ _ _ _ Hc Hh Hs Hl Hty E E1) as [A A1].
  pose proof (wait_book _ _ _ _ _ _ _ Hc Hh Hs Hl Hn) as Hm.
  exact (C92_quote _ _ _ _ _ _ _ _ _ _ _ A1 A Hm Hpo Hf base B1 B).
Qed.
(** A buyer who may meet all the sellers and has the quote units for what is wanted buys no
    more by waiting. *)
Theorem C96_amount : forall (C : Type) (same_id : C -> C -> bool) c log m log1 m1 p s s1 m' m1',
  config_ok c -> history same_id c log m -> steps same_id m log1 m1 -> N.of_nat (length (log ++ log1)) < p63 ->
  nobody_joins (opposite (p_side p)) log1 ->
  op_typed (NewOrder p) -> exec same_id (NewOrder p) m = (Ok (Some s), m') -> exec same_id (NewOrder p) m1 = (Ok (Some s1), m1') ->
  p_side p = Bid -> post_only p = false ->
  N.of_nat (length (List.filter (within_limit p) (resting m Ask))) <= match_limit p ->
  let L := ladder same_id m p in total Bid (slices (N.min (max_base_qty p) (depth L)) L) <= max_quote_qty p ->
  sumN fill_base (emitted m1 m1') <= sumN fill_base (emitted m m').
Proof.
  intros C same_id c log m log1 m1 p s s1 m' m1' Hc Hh Hs Hl Hn Hty E E1 Hsd Hpo Hml L Hq.
  destruct (wait_accepted _ _ _ _ _ _ _ _ _ _ _ Hc Hh Hs Hl Hty E E1) as [A A1].
  pose proof (wait_book _ _ _ _ _ _ _ Hc Hh Hs Hl Hn) as Hm.
  exact (C92_amount _ _ _ _ _ _ _ _ _ _ _ A1 A Hm Hsd Hpo Hml Hq).
Qed.
(** Letting another order of the same side go first, whatever it is, is such a wait. *)
Theorem C96_going_second : forall (C : Type) (same_id : C -> C -> bool) c m q sq m1 p s s1 m' m1',
  accepted same_id c m q sq m1 -> p_side q = p_side p ->
  accepted same_id c m p s m' -> accepted same_id c m1 p s1 m1' ->
  post_only p = false -> free_to_sell m p ->
  let first := deals (emitted m m') in let second := deals (emitted m1 m1') in
  forall base, base <= depth first -> base <= depth second ->
  match p_side p with
  | Bid => exact_value (slices base first) <= exact_value (slices base second)
  | Ask => exact_value (slices base second) <= exact_value (slices base first)
  end.
Proof.
  intros C same_id c m q sq m1 p s s1 m' m1' Hq Hsd A A1 Hpo Hf now later base B B1.
  assert (Hm : more_on_offer m1 m (opposite (p_side p))).
  { intros o Ho. rewrite <- Hsd in Ho |- *. destruct (C18_no_new_opposite _ _ _ _ _ _ _ Hq o Ho) as (o'&Hi&E1&E2&E3).
    exists o'. split_and!; [done|by rewrite E1|by rewrite E2|done]. }
  exact (C92_price _ _ _ _ _ _ _ _ _ _ _ A1 A Hm Hpo Hf base B1 B).
Qed.

(** ** Concrete cases
    Sellers of 20 at 1.5, 20 at 1 and 20 at 1.  While a buyer waits, another one takes 25
    units and a bid joins the book.  Now 30 units cost 30; later they cost 38. *)
Definition wa_log : list (entry N) := log_of N.eqb ex_cfg of_many.
Definition wa_m : market N := after N.eqb ex_cfg of_many.
Definition wa_ops : list (op N) := [NewOrder (of_buy 25 10); of_bid 20 1 6; ConsumeEvents 1].
Definition wa_run : list (entry N) * market N := run_log N.eqb wa_ops [] wa_m.
Definition nobody_joinsb (sd : side) (log : list (entry N)) : bool :=
  forallb (fun e => match posted_id e with Some id => negb (match sd, side_of_id id with Bid, Bid | Ask, Ask => true | _, _ => false end) | None => true end) log.
Lemma nobody_joinsb_ok sd log : nobody_joinsb sd log = true -> nobody_joins sd log.
Proof.
  unfold nobody_joinsb. rewrite forallb_forall. intros H e id He Hp E. apply elem_of_list_In in He. specialize (H e He).
  rewrite Hp, E in H. by destruct sd.
Qed.
Example C96_example :
  let log1 := fst wa_run in let m1 := snd wa_run in let p := of_buy 30 10 in let L := ladder N.eqb wa_m p in
  history N.eqb ex_cfg wa_log wa_m /\ steps N.eqb wa_m log1 m1 /\ N.of_nat (length (wa_log ++ log1)) < p63 /\
  nobody_joins (opposite (p_side p)) log1 /\ op_typed (NewOrder p) /\ post_only p = false /\ free_to_sell wa_m p /\
  N.of_nat (length (List.filter (within_limit p) (resting wa_m Ask))) <= match_limit p /\
  total Bid (slices (N.min (max_base_qty p) (depth L)) L) <= max_quote_qty p /\
  map o_qty (resting m1 Bid) = [20] /\ map o_qty (resting m1 Ask) = [15; 20] /\
  (exists s, fst (exec N.eqb (NewOrder p) wa_m) = Ok (Some s)) /\ (exists s, fst (exec N.eqb (NewOrder p) m1) = Ok (Some s)) /\
  deals (emitted wa_m (of_next wa_m p)) = [(20, 2 * 2147483648); (10, 2 * 2147483648)] /\
  deals (emitted m1 (of_next m1 p)) = [(15, 2 * 2147483648); (15, 3 * 2147483648)] /\
  total Bid (deals (emitted wa_m (of_next wa_m p))) = 30 /\ total Bid (deals (emitted m1 (of_next m1 p))) = 38.
Proof.
  intros log1 m1 p L. split; [apply after_history; by vm_compute|].
  split; [apply (run_log_steps N.eqb wa_m wa_ops [] wa_m); [by vm_compute|constructor]|].
  split; [by vm_compute|]. split; [apply nobody_joinsb_ok; by vm_compute|]. split; [apply op_typedb_ok; by vm_compute|]. split; [reflexivity|].
  split; [intros E; discriminate E|]. split; [by vm_compute|]. split; [by vm_compute|]. split; [by vm_compute|]. split; [by vm_compute|].
  split; [eexists; vm_compute; reflexivity|]. split; [eexists; vm_compute; reflexivity|]. split_and!; by vm_compute.
Qed.
(** The other one going first, without the wait. *)
Example C96_second_example :
  let q := of_buy 25 10 in let p := of_buy 30 10 in let m1 := of_next wa_m q in
  (exists s, accepted N.eqb ex_cfg wa_m q s m1) /\ p_side q = p_side p /\
  (exists s, accepted N.eqb ex_cfg wa_m p s (of_next wa_m p)) /\ (exists s, accepted N.eqb ex_cfg m1 p s (of_next m1 p)) /\
  total Bid (deals (emitted wa_m (of_next wa_m p))) = 30 /\ total Bid (deals (emitted m1 (of_next m1 p))) = 38.
Proof.
  intros q p m1. split; [eexists; of_run|]. split; [done|]. split; [eexists; of_run|].
  assert (E : m1 = after N.eqb ex_cfg (of_many ++ [NewOrder (of_buy 25 10)])) by (by vm_compute). clearbody m1. subst m1.
  split; [eexists; of_run|]. split_and!; by vm_compute.
Qed.
(** When a seller has joined, waiting can pay: 30 units for 35 now, for 30 later. *)
Definition wa_m0 : market N := after N.eqb ex_cfg of_few.
Definition wa_run0 : list (entry N) * market N := run_log N.eqb [of_ask 20 2 5] [] wa_m0.
Example wa_new :
  let log := log_of N.eqb ex_cfg of_few in let log1 := fst wa_run0 in let m1 := snd wa_run0 in let p := of_buy 30 10 in
  history N.eqb ex_cfg log wa_m0 /\ steps N.eqb wa_m0 log1 m1 /\ N.of_nat (length (log ++ log1)) < p63 /\ op_typed (NewOrder p) /\
  (exists s, exec N.eqb (NewOrder p) wa_m0 = (Ok (Some s), of_next wa_m0 p)) /\
  (exists s, exec N.eqb (NewOrder p) m1 = (Ok (Some s), of_next m1 p)) /\
  total Bid (deals (emitted wa_m0 (of_next wa_m0 p))) = 35 /\ total Bid (deals (emitted m1 (of_next m1 p))) = 30.
Proof.
  intros log log1 m1 p. split; [apply after_history; by vm_compute|].
  split; [apply (run_log_steps N.eqb wa_m0 [of_ask 20 2 5] [] wa_m0); [by vm_compute|constructor]|].
  split; [by vm_compute|]. split; [apply op_typedb_ok; by vm_compute|].
  split; [eexists; vm_compute; reflexivity|]. split; [eexists; vm_compute; reflexivity|]. split_and!; by vm_compute.
Qed.
Theorem C96_newcomer_refuted : ~ forall (C : Type) (same_id : C -> C -> bool) c log m log1 m1 p s s1 m' m1',
  config_ok c -> history same_id c log m -> steps same_id m log1 m1 -> N.of_nat (length (log ++ log1)) < p63 ->
  op_typed (NewOrder p) -> exec same_id (NewOrder p) m = (Ok (Some s), m') -> exec same_id (NewOrder p) m1 = (Ok (Some s1), m1') ->
  post_only p = false -> p_side p = Bid ->
  let now := deals (emitted m m') in let later := deals (emitted m1 m1') in
  forall base, base <= depth now -> base <= depth later -> exact_value (slices base now) <= exact_value (slices base later).
Proof.
  intros H. destruct wa_new as (Hh&Hs&Hl&Hty&(s&E)&(s1&E1)&_).
  specialize (H N N.eqb ex_cfg _ _ _ _ _ _ _ _ _ ex_cfg_ok Hh Hs Hl Hty E E1 eq_refl eq_refl 30 ltac:(by vm_compute) ltac:(by vm_compute)).
  apply N.leb_le in H. vm_compute in H. discriminate H.
Qed.

Print Assumptions C96_shrinks.
Print Assumptions C96_price.
Print Assumptions C96_quote.
Print Assumptions C96_amount.
Print Assumptions C96_going_second.
Print Assumptions C96_newcomer_refuted.
