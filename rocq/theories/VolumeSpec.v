(** * VolumeSpec.v: adding up what the instructions of a log did (used by C99)

    An entry of a log has the instruction, its answer and the events that it emitted. *)
From Verif Require Import Machine Critbit EventQueue OrderBook Market Spec.

Section Volume.
Context {C : Type}.
(** Base units that an instruction posted, that it posted or traded, that it cancelled:
    what its answer says. *)
Definition posted_base (e : entry C) : N :=
  match en_op e, en_res e with NewOrder _, Ok (Some s) => total_base_qty_posted s | _, _ => 0 end.
Definition ordered_base (e : entry C) : N :=
  match en_op e, en_res e with NewOrder _, Ok (Some s) => total_base_qty s | _, _ => 0 end.
Definition cancelled_base (e : entry C) : N :=
  match en_op e, en_res e with
  | CancelOrder _, Ok (Some s) | MassCancelOrders _, Ok (Some s) => total_base_qty s
  | _, _ => 0
  end.
(** Base units traded, and given back with an Out: what its events say. *)
Definition traded_base (e : entry C) : N := sumN fill_base (en_events e).
Definition returned_base (e : entry C) : N := sumN out_base (en_events e).
(** Base units in the book. *)
Definition resting_base (m : market C) : N := sumN o_qty (resting m Bid ++ resting m Ask).

(** The same on one side at one price. *)
Definition same_side (sd sd' : side) : bool :=
  match sd, sd' with Bid, Bid | Ask, Ask => true | _, _ => false end.
Definition at_level (sd : side) (price id : N) : bool :=
  same_side (side_of_id id) sd && (id_price id =? price).
Definition posted_at (sd : side) (price : N) (e : entry C) : N :=
  match en_op e with
  | NewOrder p => if same_side (p_side p) sd && (limit_price p =? price) then posted_base e else 0
  | _ => 0
  end.
Definition traded_at (sd : side) (price : N) (e : entry C) : N :=
  sumN fill_base (List.filter (fun ev => at_level sd price (event_id ev)) (en_events e)).
Definition returned_at (sd : side) (price : N) (e : entry C) : N :=
  sumN out_base (List.filter (fun ev => at_level sd price (event_id ev)) (en_events e)).
Definition resting_at (sd : side) (price : N) (m : market C) : N :=
  sumN o_qty (List.filter (fun o => at_level sd price (o_id o)) (resting m sd)).
(** Quote units exchanged there, and the number of trades. *)
Definition turnover_at (sd : side) (price : N) (e : entry C) : N :=
  sumN fill_quote (List.filter (fun ev => at_level sd price (event_id ev)) (en_events e)).
Definition trades_at (sd : side) (price : N) (e : entry C) : N :=
  N.of_nat (length (List.filter (fun ev => is_fill ev && at_level sd price (event_id ev)) (en_events e))).

(** The ids of the orders that an Out removed. *)
Definition out_ids (log : list (entry C)) : list N :=
  map event_id (List.filter (fun ev => negb (is_fill ev)) (flat_map en_events log)).
(** The ids of the orders in the book. *)
Definition resting_ids (m : market C) : list N := map o_id (resting m Bid ++ resting m Ask).
End Volume.
