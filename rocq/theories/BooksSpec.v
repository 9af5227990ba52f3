(** * BooksSpec.v: which books can arise (used by C83) *)
From Coq Require Import Sorting.Sorted.
From stdpp Require Import list.
From Verif Require Import Machine Critbit EventQueue Market Spec ExchangeSpec.

Section Books.
Context {C : Type}.

(** Of two orders of a side, [a] stands before [b]: it has the better price, or the same
    price and came earlier. *)
Definition stands_before (sd : side) (a b : xorder C) : Prop :=
  match sd with Bid => x_price b < x_price a | Ask => x_price a < x_price b end \/
  x_price a = x_price b /\ x_time a < x_time b.
(** An order that may rest in the book of a market: a multiple of the tick as its price, at
    least the minimum size, 64-bit numbers, and a value (size times price) that the largest
    quote amount, [2^64 - 1], covers. *)
Definition may_rest (c : config C) (o : xorder C) : Prop :=
  0 < x_price o < 2 ^ 64 /\ (c_tick c | x_price o) /\ c_min c <= x_size o < 2 ^ 64 /\
  x_size o * x_price o <= (2 ^ 64 - 1) * 2 ^ 32.
(** A book: no side is larger than its room, all orders may rest, each side is in order,
    no two orders arrived at the same time, and every bid is below every ask. *)
Definition fits (c : config C) (bids asks : list (xorder C)) : Prop :=
  (length bids <= c_bids c)%nat /\ (length asks <= c_asks c)%nat /\
  Forall (may_rest c) bids /\ Forall (may_rest c) asks /\
  StronglySorted (stands_before Bid) bids /\ StronglySorted (stands_before Ask) asks /\
  NoDup (map x_time bids ++ map x_time asks) /\
  forall b a, b ∈ bids -> a ∈ asks -> x_price b < x_price a.
End Books.
