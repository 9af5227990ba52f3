(** * PlaceSpec.v: the line of orders waiting at one price (used by C71) *)
From Verif Require Import Machine Critbit EventQueue OrderBook Market Spec.

Section PlaceSpec.
Context {C : Type}.

(** Order [z] waits at the same price as order [id] of side [sd] and came earlier. *)
Definition in_line (sd : side) (id : N) (z : order C) : bool :=
  (id_price (o_id z) =? id_price id) && (id_seq sd (o_id z) <? id_seq sd id).
(** The base quantity waiting in front of order [id] at its price. *)
Definition line (m : market C) (sd : side) (id : N) : N :=
  sumN o_qty (List.filter (in_line sd id) (resting m sd)).

(** A trade against an order of side [sd] resting at [price]. *)
Definition trade_at (sd : side) (price : N) (ev : event_ref C) : bool :=
  is_fill ev && (side_u8 (side_of_id (event_id ev)) =? side_u8 sd) && (id_price (event_id ev) =? price).
(** The base quantity traded against orders of side [sd] resting at [price]. *)
Definition traded_at (sd : side) (price : N) (log : list (entry C)) : N :=
  sumN fill_base (List.filter (trade_at sd price) (flat_map en_events log)).
End PlaceSpec.
