(** * PropsUtils.v: property C37, price rounding *)
From Verif Require Import Machine EventQueue OrderBook.
From Coq Require Import ZifyBool ZifyNat ZifyN.

(** ** Specification: the nearest multiple of the tick on each side *)

(** [q] is a multiple of the tick. *)
Definition on_tick (tick q : N) : Prop := exists k, q = k * tick.
(** The largest multiple of the tick that is not above the price. *)
Definition tick_below (tick price q : N) : Prop :=
  on_tick tick q /\ q <= price /\ forall q', on_tick tick q' -> q' <= price -> q' <= q.
(** The smallest multiple of the tick that is not below the price. *)
Definition tick_above (tick price q : N) : Prop :=
  on_tick tick q /\ price <= q /\ forall q', on_tick tick q' -> price <= q' -> q <= q'.

Lemma below_div tick price :
  0 < tick -> tick_below tick price (tick * (price / tick)).
Proof.
  intros Ht. split; [exists (price / tick); lia|]. split; [apply N.mul_div_le; lia|].
  intros q' [k ->] Hle. rewrite (N.mul_comm tick). apply N.mul_le_mono_r.
  apply N.div_le_lower_bound; lia.
Qed.

Lemma above_div tick price :
  0 < tick -> tick_above tick price (tick * ((price + tick - 1) / tick)).
Proof.
  intros Ht. pose proof (N.div_mod (price + tick - 1) tick ltac:(lia)) as Hd.
  pose proof (N.mod_lt (price + tick - 1) tick ltac:(lia)) as Hm.
  split; [exists ((price + tick - 1) / tick); lia|]. split; [lia|].
  intros q' [k ->] Hle. rewrite (N.mul_comm tick). apply N.mul_le_mono_r.
  apply N.lt_succ_r, N.div_lt_upper_bound; [lia|]. lia.
Qed.

Lemma bid_total tick price :
  0 < tick -> price < p64 -> round_price tick price Bid = Ok (tick * (price / tick)).
Proof.
  intros Ht Hp. unfold round_price. destruct (N.eqb_spec tick 0); [lia|].
  unfold mul_w. pose proof (N.mul_div_le price tick ltac:(lia)).
  destruct (N.ltb_spec (tick * (price / tick)) p64); [done|lia].
Qed.

Lemma ask_total tick price :
  0 < tick -> price + tick <= u64_max ->
  round_price tick price Ask = Ok (tick * ((price + tick - 1) / tick)).
Proof.
  intros Ht Hp. unfold round_price, add_w, sub_w, mul_w.
  destruct (N.ltb_spec (price + tick) p64); [|lia]. cbn [rbind].
  destruct (N.leb_spec 1 (price + tick)); [|lia]. cbn [rbind].
  destruct (N.eqb_spec tick 0); [lia|].
  pose proof (N.mul_div_le (price + tick - 1) tick ltac:(lia)).
  destruct (N.ltb_spec (tick * ((price + tick - 1) / tick)) p64); [done|lia].
Qed.

(** ** Theorems *)

(** C37, bids: rounding down, for every price and tick of type u64. *)
Theorem C37_round_bid tick price :
  0 < tick < p64 -> price < p64 ->
  exists q, round_price tick price Bid = Ok q /\
            round_price_release tick price Bid = q /\
            tick_below tick price q.
Proof.
  intros Ht Hp. exists (tick * (price / tick)). split; [by apply bid_total; lia|].
  split; [|apply below_div; lia].
  unfold round_price_release. apply N.mod_small.
  pose proof (N.mul_div_le price tick ltac:(lia)). lia.
Qed.

(** C37, asks: rounding up, whenever [price + tick] fits 64 bits; then both build
    profiles agree. *)
Theorem C37_round_ask tick price :
  0 < tick < p64 -> price + tick <= u64_max ->
  exists q, round_price tick price Ask = Ok q /\
            round_price_release tick price Ask = q /\
            tick_above tick price q.
Proof.
  intros Ht Hp. exists (tick * ((price + tick - 1) / tick)). split; [apply ask_total; lia|].
  split; [|apply above_div; lia].
  unfold round_price_release.
  replace ((price + tick + (p64 - 1)) mod p64) with (price + tick - 1).
  2:{ replace (price + tick + (p64 - 1)) with (price + tick - 1 + 1 * p64) by lia.
      rewrite N.mod_add by lia. rewrite N.mod_small by lia. done. }
  apply N.mod_small.
  pose proof (N.mul_div_le (price + tick - 1) tick ltac:(lia)). lia.
Qed.

(** C37, the exact set of inputs on which the debug profile fails. *)
Theorem C37_round_fails tick price sd :
  tick < p64 -> price < p64 ->
  (is_ok (round_price tick price sd) = false <->
   tick = 0 \/ (sd = Ask /\ u64_max < price + tick)).
Proof.
  intros Ht Hp. destruct (N.eq_dec tick 0) as [->|Hz].
  { split; [by left|]. intros _. destruct sd; [done|].
    unfold round_price, add_w, sub_w. rewrite N.add_0_r.
    destruct (price <? p64); [|done]. cbn [rbind]. by destruct (1 <=? price). }
  destruct sd.
  { rewrite bid_total by lia. cbn. split; [done|]. intros [?|[? _]]; [lia|done]. }
  destruct (N.le_gt_cases (price + tick) u64_max).
  - rewrite ask_total by lia. cbn. split; [done|]. intros [?|[_ ?]]; lia.
  - split; [intros _; right; split; [done|lia]|]. intros _.
    unfold round_price, add_w. destruct (N.ltb_spec (price + tick) p64); [lia|done].
Qed.

(** C37, release profile on the failing asks: the result is far below the price (it is
    a multiple of the tick below [tick]'s own value plus the overflow), so an ask
    rounded this way would be offered below its limit. *)
Theorem C37_round_ask_wraps tick price :
  0 < tick < p64 -> price < p64 -> u64_max < price + tick ->
  round_price_release tick price Ask < price \/
  exists q, tick_above tick price q /\ q < p64 /\ round_price_release tick price Ask = q.
Proof.
  intros Ht Hp Ho. unfold round_price_release.
  destruct (N.eq_dec (price + tick) p64) as [He|He].
  - right. exists (tick * ((price + tick - 1) / tick)).
    pose proof (N.mul_div_le (price + tick - 1) tick ltac:(lia)).
    split; [apply above_div; lia|]. split; [lia|].
    replace ((price + tick + (p64 - 1)) mod p64) with (price + tick - 1).
    2:{ replace (price + tick + (p64 - 1)) with (price + tick - 1 + 1 * p64) by lia.
        rewrite N.mod_add by lia. rewrite N.mod_small by lia. done. }
    apply N.mod_small. lia.
  - left.
    replace ((price + tick + (p64 - 1)) mod p64) with (price + tick - 1 - p64).
    2:{ replace (price + tick + (p64 - 1)) with (price + tick - 1 - p64 + 2 * p64) by lia.
        rewrite N.mod_add by lia. rewrite N.mod_small by lia. done. }
    pose proof (N.mul_div_le (price + tick - 1 - p64) tick ltac:(lia)).
    rewrite N.mod_small by lia. lia.
Qed.

(** C37: rounding a rounded price changes nothing. *)
Theorem C37_round_idempotent tick price sd q :
  0 < tick < p64 -> price < p64 -> round_price tick price sd = Ok q ->
  on_tick tick q /\
  forall sd', is_ok (round_price tick q sd') = true -> round_price tick q sd' = Ok q.
Proof.
  intros Ht Hp Hr.
  assert (Hq : on_tick tick q /\ q < p64).
  { destruct sd.
    - rewrite bid_total in Hr by lia. injection Hr as <-.
      pose proof (N.mul_div_le price tick ltac:(lia)).
      split; [exists (price / tick); lia|lia].
    - destruct (N.le_gt_cases (price + tick) u64_max) as [Hle|Hgt].
      + rewrite ask_total in Hr by lia. injection Hr as <-.
        pose proof (N.mul_div_le (price + tick - 1) tick ltac:(lia)).
        split; [exists ((price + tick - 1) / tick); lia|lia].
      + exfalso. unfold round_price, add_w in Hr.
        destruct (N.ltb_spec (price + tick) p64); [lia|done]. }
  destruct Hq as [Hq Hq64]. split; [done|]. intros sd' Hok. destruct Hq as [k ->].
  destruct sd'.
  - rewrite bid_total by lia. f_equal. rewrite N.div_mul by lia. lia.
  - destruct (N.le_gt_cases (k * tick + tick) u64_max) as [Hle|Hgt].
    + rewrite ask_total by lia. f_equal.
      replace (k * tick + tick - 1) with (tick - 1 + k * tick) by lia.
      rewrite N.div_add by lia. rewrite (N.div_small (tick - 1)) by lia. lia.
    + exfalso. unfold round_price, add_w in Hok.
      destruct (N.ltb_spec (k * tick + tick) p64); [lia|done].
Qed.

(** C37 refuted for asks near the top of the price range: with tick 2^32 (one quote
    unit per base unit) and the price 2^64 - 2^32 + 1, no multiple of the tick is
    available above; the debug build panics and the release build answers 0. *)
Theorem C37_round_ask_refuted :
  exists tick price,
    0 < tick < p64 /\ price < p64 /\
    round_price tick price Ask = Panic POverflow /\
    round_price_release tick price Ask = 0.
Proof. exists p32, (p64 - p32 + 1). by vm_compute. Qed.

(** ** Concrete cases: 5.01 with tick 0.5, as in the unit test of utils.rs:67-76 *)
Example C37_example :
  round_price (p32 / 2) 21517786152 Bid = Ok (5 * p32) /\
  round_price (p32 / 2) 21517786152 Ask = Ok (11 * (p32 / 2)) /\
  tick_below (p32 / 2) 21517786152 (5 * p32) /\
  tick_above (p32 / 2) 21517786152 (11 * (p32 / 2)).
Proof.
  split; [by vm_compute|]. split; [by vm_compute|].
  change (p32 / 2) with p31. split; (split; [|split]).
  - exists 10. done.
  - done.
  - intros q' [k ->] Hle. lia.
  - exists 11. done.
  - done.
  - intros q' [k ->] Hle. lia.
Qed.

Print Assumptions C37_round_bid.
Print Assumptions C37_round_ask.
Print Assumptions C37_round_fails.
Print Assumptions C37_round_ask_wraps.
Print Assumptions C37_round_idempotent.
Print Assumptions C37_round_ask_refuted.
