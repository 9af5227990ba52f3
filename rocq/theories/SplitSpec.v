(** * SplitSpec.v: continuing an order that its match limit cut short (used by C76) *)
From Verif Require Import Machine Critbit EventQueue OrderBook Market Spec ExchangeSpec.

Section Split.
Context {C : Type} (same_id : C -> C -> bool).

(** The same order with another match limit. *)
Definition with_limit (p : params C) (k : N) : params C :=
  mk_params (max_base_qty p) (max_quote_qty p) (limit_price p) (p_side p) k
            (p_callback p) (post_only p) (post_allowed p) (stb p).
(** What is left of it after an answer, to be sent with match limit [k]. *)
Definition rest_of (p : params C) (s : summary) (k : N) : params C :=
  mk_params (max_base_qty p - total_base_qty s) (max_quote_qty p - total_quote_qty s)
            (limit_price p) (p_side p) k (p_callback p) (post_only p) (post_allowed p) (stb p).

(** The orders of the other side that an order dealt with: it traded with them, or removed
    them because they had the same owner. *)
Definition deals (p : params C) (n : notice C) : bool :=
  match n with
  | Traded _ _ _ _ _ _ => true
  | Removed sd _ _ owner =>
      match stb p with CancelProvide => true | _ => false end && same_id (p_callback p) owner &&
      match sd, p_side p with Bid, Ask | Ask, Bid => true | _, _ => false end
  end.
Definition dealt (p : params C) (ns : list (notice C)) : N := N.of_nat (length (List.filter (deals p) ns)).

(** Between [m] and [m1] an order [p] was executed with match limit [k], and may have been
    cut short: it dealt with [k] orders, or an order within its price limit is left. *)
Definition cut_short (p : params C) (k : N) (m m1 : market C) : Prop :=
  dealt p (map notice_of (emitted m m1)) = k \/
  exists o, o ∈ resting m1 (opposite (p_side p)) /\ crossing (p_side p) (limit_price p) (id_price (o_id o)).
End Split.
