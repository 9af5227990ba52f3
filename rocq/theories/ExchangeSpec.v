(** * ExchangeSpec.v: an exchange, written down as its rules

    A reference for the whole order book: two lists of orders, a list of notices and a
    clock, with exact arithmetic.  Nothing of the program's data structures appears here;
    of the model only the types of the requests are used ([params], [op], [side],
    [self_trade]).  Prices are 32.32 fixed point numbers: quote units per base unit, times
    [2^32].  The last section says how a market is read as such an exchange. *)
From Verif Require Import Machine Critbit EventQueue OrderBook Market Spec.

Section Exchange.
Context {C : Type} (same_id : C -> C -> bool).

(** An order in the book: [x_time] is its place in the order of arrival. *)
Record xorder := mk_xorder { x_price : N; x_time : N; x_size : N; x_owner : C }.
(** What participants are told. *)
Inductive notice :=
| Traded (taker : side) (maker : N) (base quote : N) (maker_owner taker_owner : C)
| Removed (sd : side) (id : N) (left : N) (owner : C).
Record exchange := mk_exchange {
  x_bids : list xorder;      (* best first *)
  x_asks : list xorder;      (* best first *)
  x_notices : list notice;   (* waiting, oldest first *)
  x_clock : N;
}.
(** The parameters of a market: smallest size, tick, room for bids, asks and notices. *)
Record rules := mk_rules { r_min : N; r_tick : N; r_bids : nat; r_asks : nat; r_room : nat }.
Inductive answer :=
| Accepted (posted : option N) (base quote posted_base : N)
| Consumed
| BadPrice | SelfTrade | NoRoom | NoSuchOrder | TooLarge.

Definition x_side (x : exchange) (sd : side) : list xorder :=
  match sd with Bid => x_bids x | Ask => x_asks x end.
Definition with_sides (sd : side) (own opp : list xorder) (notices : list notice) (clock : N) : exchange :=
  match sd with
  | Bid => mk_exchange own opp notices clock
  | Ask => mk_exchange opp own notices clock
  end.
(** Ids: the price in the upper 64 bits, the time (for bids, complemented) in the lower. *)
Definition x_id (sd : side) (o : xorder) : N :=
  x_price o * 2 ^ 64 + match sd with Bid => 2 ^ 64 - 1 - x_time o | Ask => x_time o end.
(** The price of [base] units: rounded up for a buyer, down for a seller. *)
Definition cost (sd : side) (base price : N) : N :=
  match sd with
  | Bid => (base * price + (2 ^ 32 - 1)) / 2 ^ 32
  | Ask => base * price / 2 ^ 32
  end.
(** The most units that [quote] pays for. *)
Definition pays_for (quote price : N) : N := quote * 2 ^ 32 / price.

(** ** A new order *)
Section Order.
Context (r : rules) (p : params C).
Let sd := p_side p.

Definition acceptable (o : xorder) : bool :=
  match sd with Bid => x_price o <=? limit_price p | Ask => limit_price p <=? x_price o end.
Definition own_order (o : xorder) : bool := same_id (p_callback p) (x_owner o).

(** [trade n base quote makers]: what remains of the order is [base] and [quote]; it may
    deal with [n] more orders of the other side, [makers].  The notices, and what is left
    of the order, of the other side, and whether it is free to join the book: that is so
    when the other side has nothing acceptable.  [None] when the order met an order of the
    same owner that aborts it. *)
Fixpoint trade (n : nat) (base quote : N) (makers : list xorder)
    : list notice * option (N * N * list xorder * bool) :=
  let stop free := ([], Some (base, quote, makers, free)) in
  match n, makers with
  | O, _ => stop false
  | S n, [] => stop true
  | S n, o :: others =>
      let b := N.min (N.min (x_size o) base) (pays_for quote (x_price o)) in
      let q := cost sd b (x_price o) in
      if negb (acceptable o) then stop true
      else if post_only p || (b =? 0) || (q =? 0) then stop false
      else
        let removed left := Removed (opposite sd) (x_id (opposite sd) o) left (x_owner o) in
        let more notices r := (notices ++ fst r, snd r) in
        match stb p, own_order o with
        | AbortTransaction, true => ([], None)
        | CancelProvide, true => more [removed (x_size o)] (trade n base quote others)
        | _, _ =>
            let left := x_size o - b in
            let traded := Traded sd (x_id (opposite sd) o) b q (x_owner o) (p_callback p) in
            if left <? r_min r
            then more [traded; removed left] (trade n (base - b) (quote - q) others)
            else more [traded] (trade n (base - b) (quote - q)
                                  (mk_xorder (x_price o) (x_time o) left (x_owner o) :: others))
        end
  end.

(** Joining the book: behind all orders of the same or a better price. *)
Definition not_worse (price : N) (o : xorder) : bool :=
  match sd with Bid => price <=? x_price o | Ask => x_price o <=? price end.
Fixpoint join (o : xorder) (os : list xorder) : list xorder :=
  match os with
  | [] => [o]
  | x :: os => if not_worse (x_price o) x then x :: join o os else o :: x :: os
  end.
Definition side_room : nat := match sd with Bid => r_bids r | Ask => r_asks r end.

(** Posting what is left: when the side is full, its last order has to be worse, and goes. *)
Definition post_rest (clock base quote : N) (own : list xorder) : list notice * option (N * xorder) * list xorder * N :=
  let size := N.min base (pays_for quote (limit_price p)) in
  if negb (post_allowed p) || (size <? r_min r) then ([], None, own, clock)
  else
    let o := mk_xorder (limit_price p) clock size (p_callback p) in
    if (length own <? side_room)%nat then ([], Some (x_id sd o, o), join o own, clock + 1)
    else
      match last own with
      | Some w =>
          if not_worse (limit_price p) w then ([], None, own, clock + 1)
          else ([Removed sd (x_id sd w) (x_size w) (x_owner w)], Some (x_id sd o, o), join o (removelast own), clock + 1)
      | None => ([], None, own, clock + 1)
      end.

Definition new_order_rule (x : exchange) : answer * exchange :=
  if negb (limit_price p mod r_tick r =? 0) || (post_allowed p && (limit_price p <? r_tick r)) then (BadPrice, x)
  else
    let room n := (length (x_notices x) + length n <=? r_room r)%nat in
    match trade (N.to_nat (match_limit p)) (max_base_qty p) (max_quote_qty p) (x_side x (opposite sd)) with
    | (n, None) => (if room n then SelfTrade else NoRoom, x)
    | (n1, Some (base, quote, makers, free)) =>
        let '(n2, posted, own, clock) :=
          if free then post_rest (x_clock x) base quote (x_side x sd) else ([], None, x_side x sd, x_clock x) in
        let size := match posted with Some (_, o) => x_size o | None => 0 end in
        if room (n1 ++ n2) then
          (Accepted (option_map fst posted) (max_base_qty p - base + size)
             (max_quote_qty p - quote + cost sd size (limit_price p)) size,
           with_sides sd own makers (x_notices x ++ n1 ++ n2) clock)
        else (NoRoom, x)
    end.
End Order.

(** ** Cancelling *)
Definition x_find (id : N) (sd : side) (x : exchange) : option xorder :=
  List.find (fun o => x_id sd o =? id) (x_side x sd).
Definition x_remove (id : N) (x : exchange) : exchange :=
  let keep sd := List.filter (fun o => negb (x_id sd o =? id)) (x_side x sd) in
  mk_exchange (keep Bid) (keep Ask) (x_notices x) (x_clock x).
Definition x_lookup (id : N) (x : exchange) : option xorder :=
  match x_find id Bid x with Some o => Some o | None => x_find id Ask x end.
(** Several orders, in sequence; the totals must fit in 64 bits. *)
Fixpoint cancel_rule (ids : list N) (base quote : N) (x : exchange) : answer * exchange :=
  match ids with
  | [] => (Accepted None base quote 0, x)
  | id :: ids =>
      match x_lookup id x with
      | None => (NoSuchOrder, x)
      | Some o =>
          let base := base + x_size o in
          let quote := quote + x_size o * x_price o / 2 ^ 32 in
          if (base <? 2 ^ 64) && (quote <? 2 ^ 64) then cancel_rule ids base quote (x_remove id x)
          else (TooLarge, x)
      end
  end.

(** ** The exchange *)
(** A refused request has no effect. *)
Definition all_or_nothing (x : exchange) (r : answer * exchange) : answer * exchange :=
  match fst r with Accepted _ _ _ _ => r | _ => (fst r, x) end.
Definition rule (r : rules) (o : op C) (x : exchange) : answer * exchange :=
  match o with
  | NewOrder p => new_order_rule r p x
  | CancelOrder id => all_or_nothing x (cancel_rule [id] 0 0 x)
  | MassCancelOrders ids => all_or_nothing x (cancel_rule ids 0 0 x)
  | ConsumeEvents n => (Consumed, mk_exchange (x_bids x) (x_asks x) (drop (N.to_nat n) (x_notices x)) (x_clock x))
  end.
Fixpoint rule_run (r : rules) (os : list (op C)) (x : exchange) : list answer * exchange :=
  match os with
  | [] => ([], x)
  | o :: os => let '(a, x1) := rule r o x in let '(l, x2) := rule_run r os x1 in (a :: l, x2)
  end.
Definition opening : exchange := mk_exchange [] [] [] 0.
End Exchange.
Global Arguments xorder : clear implicits.
Global Arguments exchange : clear implicits.
Global Arguments notice : clear implicits.

(** ** Reading a market as an exchange *)
Section View.
Context {C : Type}.
Definition rules_of (c : config C) : rules :=
  mk_rules (c_min c) (c_tick c) (c_bids c) (c_asks c) (c_events c).
Definition xorder_of (sd : side) (o : order C) : xorder C :=
  mk_xorder (id_price (o_id o)) (id_seq sd (o_id o)) (o_qty o) (o_cb o).
Definition side_of_u8 (b : N) : side := if b =? 0 then Bid else Ask.
Definition notice_of (ev : event_ref C) : notice C :=
  match ev with
  | EvFill e mk tk => Traded (side_of_u8 (fe_taker_side e)) (fe_maker_id e) (fe_base e) (fe_quote e) mk tk
  | EvOut e cb => Removed (side_of_u8 (oe_side e)) (oe_id e) (oe_base e) cb
  end.
(** The orders are stored by increasing id; the clock is the queue's counter. *)
Definition view (m : market C) : exchange C :=
  mk_exchange (rev (map (xorder_of Bid) (resting m Bid))) (map (xorder_of Ask) (resting m Ask))
    (map notice_of (pending m)) (q_seq (evq (m_book m))).
(** An unknown id is answered with an error, or, rarely, with an index out of range (C05);
    totals that are too large, with a failed [unwrap].  Nothing else happens. *)
Definition answer_of (r : res (option summary)) : option answer :=
  match r with
  | Ok (Some sm) => Some (Accepted (posted_order_id sm) (total_base_qty sm) (total_quote_qty sm) (total_base_qty_posted sm))
  | Ok None => Some Consumed
  | Err InvalidLimitPrice => Some BadPrice
  | Err WouldSelfTrade => Some SelfTrade
  | Err EventQueueFull => Some NoRoom
  | Err OrderNotFound | Panic PIndex => Some NoSuchOrder
  | Panic PUnwrap => Some TooLarge
  | _ => None
  end.
End View.
