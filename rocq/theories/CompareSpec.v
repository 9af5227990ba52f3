(** * CompareSpec.v: comparing two requests on the same market (vocabulary of C61-C63) *)
From Verif Require Import Machine Critbit EventQueue OrderBook Market Spec.

Section CompareSpec.
Context {C : Type}.

(** The emitted events that concern orders of the other side, i.e. the trades of an
    incoming order of side [sd] and what they did to the orders it met. *)
Definition matched (sd : side) (m m' : market C) : list (event_ref C) :=
  List.filter (fun ev => existsb (N.eqb (event_id ev)) (map o_id (resting m (opposite sd)))) (emitted m m').

(** Requests of the same trader, of the same kind. *)
Definition alike (p q : params C) : Prop :=
  p_side p = p_side q /\ p_callback p = p_callback q /\ stb p = stb q /\ post_only p = post_only q.
(** The limit of [p] is at most as generous as that of [q]. *)
Definition stricter_limit (sd : side) (p q : N) : Prop := match sd with Bid => p <= q | Ask => q <= p end.
(** [p] asks for the same amounts, at a stricter limit price and with fewer matches. *)
Definition tighter (p q : params C) : Prop :=
  alike p q /\ stricter_limit (p_side p) (limit_price p) (limit_price q) /\ match_limit p <= match_limit q /\
  max_base_qty p = max_base_qty q /\ max_quote_qty p = max_quote_qty q.
(** [p] asks for less base, everything else being equal. *)
Definition less_base (p q : params C) : Prop :=
  alike p q /\ limit_price p = limit_price q /\ match_limit p = match_limit q /\
  max_base_qty p <= max_base_qty q /\ max_quote_qty p = max_quote_qty q.
(** [p] asks for less base and offers less quote. *)
Definition less_funds (p q : params C) : Prop :=
  alike p q /\ limit_price p = limit_price q /\ match_limit p = match_limit q /\
  max_base_qty p <= max_base_qty q /\ max_quote_qty p <= max_quote_qty q.
(** [p] asks for at most as much of everything: base, quote, price and matches. *)
Definition less_of_all (p q : params C) : Prop :=
  alike p q /\ stricter_limit (p_side p) (limit_price p) (limit_price q) /\ match_limit p <= match_limit q /\
  max_base_qty p <= max_base_qty q /\ max_quote_qty p <= max_quote_qty q.
End CompareSpec.
