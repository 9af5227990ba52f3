(** * LadderSpec.v: working out a trade from the orders of the other side (used by C89)

    What a trader does with pencil and paper: write down the orders of the other side, best
    first, those within the limit; go down the list until the quantity is reached; multiply
    each slice by its price. *)
From Verif Require Import Machine Critbit EventQueue OrderBook Market Spec.

(** A ladder is a list of quantities and prices.  The first [base] units of it, slice by
    slice. *)
Fixpoint slices (base : N) (l : list (N * N)) : list (N * N) :=
  match l with
  | [] => []
  | (size, price) :: l =>
      if base =? 0 then [] else (N.min size base, price) :: slices (base - N.min size base) l
  end.
Definition depth (l : list (N * N)) : N := sumN fst l.
(** Their value for a buyer (each slice rounded up) or a seller (rounded down). *)
Definition slice_value (sd : side) (s : N * N) : N := quote_amount sd (fst s) (snd s).
Definition total (sd : side) (l : list (N * N)) : N := sumN (slice_value sd) l.
(** The slices before the first one that is worth nothing to a seller. *)
Fixpoint worth_selling (l : list (N * N)) : list (N * N) :=
  match l with
  | [] => []
  | s :: l => if slice_value Ask s =? 0 then [] else s :: worth_selling l
  end.

(** What a seller of [base] units sells to a list of orders, where a mark says that an order
    is withdrawn instead: from each as much as is left of [base], up to the first order for
    which that is worth less than one quote unit. *)
Fixpoint selling (base : N) (l : list (N * N * bool)) : list (N * N) :=
  match l with
  | [] => []
  | (size, price, withdrawn) :: l =>
      let part := N.min size base in
      if slice_value Ask (part, price) =? 0 then []
      else if withdrawn then selling base l
      else (part, price) :: selling (base - part) l
  end.

Section Ladder.
Context {C : Type} (same_id : C -> C -> bool).
(** The orders that a new order of side [sd] meets, best first: sellers from the lowest
    price, buyers from the highest. *)
Definition facing (m : market C) (sd : side) : list (order C) :=
  match sd with Bid => resting m Ask | Ask => rev (resting m Bid) end.
Definition within_limit (p : params C) (o : order C) : bool :=
  match p_side p with
  | Bid => id_price (o_id o) <=? limit_price p
  | Ask => limit_price p <=? id_price (o_id o)
  end.
(** An own order, which the new order withdraws instead of trading with it. *)
Definition withdraws (p : params C) (o : order C) : bool :=
  match stb p with CancelProvide => same_id (p_callback p) (o_cb o) | _ => false end.
Definition step_of (o : order C) : N * N := (o_qty o, id_price (o_id o)).
(** The ladder of a new order [p]: the orders within its limit, as many as it may meet,
    without those that it withdraws. *)
Definition ladder (m : market C) (p : params C) : list (N * N) :=
  map step_of (List.filter (fun o => negb (withdraws p o))
    (take (N.to_nat (match_limit p)) (List.filter (within_limit p) (facing m (p_side p))))).
(** The same with the withdrawn orders, marked. *)
Definition marked_ladder (m : market C) (p : params C) : list (N * N * bool) :=
  map (fun o => (o_qty o, id_price (o_id o), withdraws p o))
    (take (N.to_nat (match_limit p)) (List.filter (within_limit p) (facing m (p_side p)))).
(** The trades among [E]: base units and price. *)
Definition deals (E : list (event_ref C)) : list (N * N) :=
  map (fun ev => (fill_base ev, id_price (event_id ev))) (List.filter is_fill E).
End Ladder.
