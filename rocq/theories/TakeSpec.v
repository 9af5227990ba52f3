(** * TakeSpec.v: taking first, posting the rest afterwards (used by C94) *)
From Verif Require Import Machine Critbit EventQueue OrderBook Market Spec.

Section Take.
Context {C : Type}.
(** The same order, but not allowed to join the book. *)
Definition take_part (p : params C) : params C :=
  mk_params (max_base_qty p) (max_quote_qty p) (limit_price p) (p_side p) (match_limit p)
            (p_callback p) (post_only p) false (stb p).
(** What is left of it after an answer, as an order that only joins the book. *)
Definition post_part (p : params C) (s : summary) (k : N) : params C :=
  mk_params (max_base_qty p - total_base_qty s) (max_quote_qty p - total_quote_qty s)
            (limit_price p) (p_side p) k (p_callback p) true true (stb p).
End Take.
