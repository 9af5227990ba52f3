(** * Engine.v: the order book as priority lists (proof device)

    The functions of this file restate [new_order] on lists of orders.  They are
    used to organise the proofs: BookProofs.v shows that the array code of
    OrderBook.v computes the same thing, and later files prove properties of these
    list functions.  No property of Properties*.v mentions them. *)
From Verif Require Import Machine Bytes Critbit EventQueue OrderBook Market Spec MachineProofs
  TreeProofs SlabProofs SlabProofs2 QueueProofs IdProofs.
From Coq Require Import ZifyBool ZifyNat ZifyN.
From Coq Require Import Sorting.Sorted.

Section Engine.
Context {C : Type} (same_id : C -> C -> bool).

Notation order := (order C).
Definition o_price (o : order) : N := price_from_key (o_id o).

(** Orders of one side, best first. *)
Definition prio {A} (sd : side) (l : list A) : list A :=
  match sd with Bid => rev l | Ask => l end.

Definition crosses (taker : side) (limit price : N) : bool :=
  match taker with Bid => price <=? limit | Ask => limit <=? price end.

Definition ev_out (sd : side) (o : order) (q : N) : event_ref C :=
  EvOut (mk_out_event tag_out (side_u8 sd) 0 (o_id o) q) (o_cb o).
Definition ev_fill (p : params C) (o : order) (base quote : N) : event_ref C :=
  EvFill (mk_fill_event tag_fill (side_u8 (p_side p)) 0 quote (o_id o) base)
         (o_cb o) (p_callback p).

Inductive estep_res :=
| EBreak (l : locals)
| EAbort
| ENext (l : locals) (os : list order) (E : list (event_ref C)).

Definition is_self (p : params C) (o : order) : bool :=
  match stb p with
  | DecrementTake => false
  | _ => same_id (p_callback p) (o_cb o)
  end.

Definition trade_base (l : locals) (o : order) : N :=
  N.min (N.min (o_qty o) (l_base l)) (afford (l_quote l) (o_price o)).

Definition estep (p : params C) (min_size : N) (l : locals) (os : list order) : estep_res :=
  if l_limit l =? 0 then EBreak l
  else
    match os with
    | [] => EBreak (mk_locals (l_limit l) (l_base l) (l_quote l) false)
    | o :: rest =>
        let crossed := crosses (p_side p) (limit_price p) (o_price o) in
        let l1 := mk_locals (l_limit l) (l_base l) (l_quote l) crossed in
        if post_only p || negb crossed then EBreak l1
        else
          let base := trade_base l o in
          if base =? 0 then EBreak l1
          else
            let quote := quote_of (p_side p) base (o_price o) in
            if quote =? 0 then EBreak l1
            else if is_self p o then
              match stb p with
              | AbortTransaction => EAbort
              | _ => ENext (mk_locals (l_limit l - 1) (l_base l) (l_quote l) crossed) rest
                           [ev_out (opposite (p_side p)) o (o_qty o)]
              end
            else
              let q' := o_qty o - base in
              let l' := mk_locals (l_limit l - 1) (l_base l - base) (l_quote l - quote) crossed in
              if q' <? min_size then
                ENext l' rest [ev_fill p o base quote; ev_out (opposite (p_side p)) o q']
              else
                ENext l' ((mk_leaf (o_id o) q', o_cb o) :: rest) [ev_fill p o base quote]
    end.

(** Outcome of the loop: the events, and either the final state or an abort. *)
Inductive eres := Fin (l : locals) (os : list order) | Abort.
Fixpoint eloop (fuel : nat) (p : params C) (min_size : N) (l : locals) (os : list order)
    : list (event_ref C) * eres :=
  match fuel with
  | O => ([], Abort)
  | S fuel =>
      match estep p min_size l os with
      | EBreak l' => ([], Fin l' os)
      | EAbort => ([], Abort)
      | ENext l' os' E => let r := eloop fuel p min_size l' os' in (E ++ fst r, snd r)
      end
  end.
Definition l_init (p : params C) : locals :=
  mk_locals (match_limit p) (max_base_qty p) (max_quote_qty p) true.
Definition ematch (p : params C) (min_size : N) (os : list order) :=
  eloop (S (N.to_nat (match_limit p))) p min_size (l_init p) os.

(** Insertion by priority. *)
Definition before (sd : side) (a b : N) : bool :=
  match sd with Bid => b <? a | Ask => a <? b end.
Fixpoint ins (sd : side) (o : order) (os : list order) : list order :=
  match os with
  | [] => [o]
  | x :: os => if before sd (o_id o) (o_id x) then o :: x :: os else x :: ins sd o os
  end.

Definition to_post (p : params C) (l : locals) : N :=
  N.min (afford (l_quote l) (limit_price p)) (l_base l).

(** Result of the posting stage: own side, events, summary, new sequence number. *)
Definition epost (p : params C) (min_size : N) (l : locals) (own : list order) (cap : nat) (seq : N)
    : list order * list (event_ref C) * summary * N :=
  let np := mk_summary None (max_base_qty p - l_base l) (max_quote_qty p - l_quote l) 0 in
  let tp := to_post p l in
  if l_crossed l || negb (post_allowed p) || (tp <? min_size) then (own, [], np, seq)
  else
    let id := order_id_of (limit_price p) seq (p_side p) in
    let o : order := (mk_leaf id tp, p_callback p) in
    let sm := mk_summary (Some id) (max_base_qty p - (l_base l - tp))
                (max_quote_qty p - (l_quote l - quote_of (p_side p) tp (limit_price p))) tp in
    if (length own <? cap)%nat then (ins (p_side p) o own, [], sm, seq + 1)
    else
      match last own with
      | None => (own, [], np, seq + 1)
      | Some w =>
          if (match p_side p with
              | Bid => o_price w <? limit_price p
              | Ask => limit_price p <? o_price w
              end)
          then (ins (p_side p) o (removelast own), [ev_out (p_side p) w (o_qty w)], sm, seq + 1)
          else (own, [], np, seq + 1)
      end.
End Engine.
