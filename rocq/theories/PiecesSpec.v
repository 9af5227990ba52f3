(** * PiecesSpec.v: an order sent in pieces (used by C82) *)
From Verif Require Import Machine Critbit EventQueue OrderBook Market Spec ExchangeSpec SplitSpec.

Section Pieces.
Context {C : Type} (same_id : C -> C -> bool).

(** What became of an order: the events about it, what it exchanged and posted in total,
    the id and the size of what it posted. *)
Record outcome := mk_outcome {
  oc_events : list (event_ref C); oc_base : N; oc_quote : N; oc_posted : option N; oc_posted_base : N }.

(** A client that sends an order in pieces, with the match limits [ks].  Before each piece
    it consumes all events that wait, so that the events it finds afterwards are those of
    the piece.  A piece that dealt with fewer orders than its match limit is the last one;
    otherwise what is left, by the summary, is sent next.  [None] when a piece is refused. *)
Fixpoint send (ks : list N) (p : params C) (m : market C) : option outcome * market C :=
  match ks with
  | [] => (Some (mk_outcome [] 0 0 None 0), m)
  | k :: ks =>
      let m0 := snd (exec same_id (ConsumeEvents (N.of_nat (length (pending m)))) m) in
      match exec same_id (NewOrder (with_limit p k)) m0 with
      | (Ok (Some s), m1) =>
          if dealt same_id p (map notice_of (pending m1)) <? k then
            (Some (mk_outcome (pending m1) (total_base_qty s) (total_quote_qty s) (posted_order_id s) (total_base_qty_posted s)), m1)
          else
            match send ks (rest_of p s k) m1 with
            | (Some o, m2) =>
                (Some (mk_outcome (pending m1 ++ oc_events o) (total_base_qty s + oc_base o) (total_quote_qty s + oc_quote o)
                         (oc_posted o) (oc_posted_base o)), m2)
            | (None, m2) => (None, m2)
            end
      | (_, m1) => (None, m1)
      end
  end.
Definition sum (ks : list N) : N := fold_right N.add 0 ks.

(** The same exchange with room for [room] notices. *)
Definition with_room (room : nat) (r : rules) : rules := mk_rules (r_min r) (r_tick r) (r_bids r) (r_asks r) room.
End Pieces.
Global Arguments outcome : clear implicits.
