(** * OrderBook.v: model of program/src/state/orderbook.rs, program/src/utils.rs
    and of the pure helpers of program/src/state.rs *)
From Verif Require Import Machine Critbit EventQueue.

(** program/src/state.rs:59-69 [SelfTradeBehavior]. *)
Inductive self_trade := DecrementTake | CancelProvide | AbortTransaction.

(** program/src/state.rs:71-81 [get_side_from_order_id]: bit 63. *)
Definition side_of_id (id : N) : side := if N.testbit id 63 then Bid else Ask.

(** orderbook.rs:27-36 [OrderSummary]. *)
Record summary := mk_summary {
  posted_order_id : option N;
  total_base_qty : N;
  total_quote_qty : N;
  total_base_qty_posted : N;
}.

(** utils.rs:54-61 [round_price], debug profile: overflow panics. *)
Definition round_price (tick price : N) (sd : side) : res N :=
  match sd with
  | Bid =>
      if tick =? 0 then Panic PDivZero else mul_w p64 tick (price / tick)
  | Ask =>
      let? a := add_w p64 price tick in
      let? b := sub_w a 1 in
      if tick =? 0 then Panic PDivZero else mul_w p64 tick (b / tick)
  end.
(** utils.rs:54-61 [round_price], release profile: arithmetic wraps modulo 2^64.
    (For [tick = 0] both profiles panic; this function is only used for [tick > 0].) *)
Definition round_price_release (tick price : N) (sd : side) : N :=
  match sd with
  | Bid => (tick * (price / tick)) mod p64
  | Ask => (tick * (((price + tick + (p64 - 1)) mod p64) / tick)) mod p64
  end.

Section Book.
Context {C : Type}.
(** [c1.as_callback_id() == c2.as_callback_id()] of the trait [CallbackInfo]
    (orderbook.rs:40-46): an arbitrary boolean relation. *)
Context (same_id : C -> C -> bool).

(** program/src/processor/new_order.rs:29-56 [Params]. *)
Record params := mk_params {
  max_base_qty : N;
  max_quote_qty : N;
  limit_price : N;
  p_side : side;
  match_limit : N;
  p_callback : C;
  post_only : bool;
  post_allowed : bool;
  stb : self_trade;
}.

(** orderbook.rs:60-63 [OrderBookState] together with the event queue it works on. *)
Record book := mk_book { bids : slab C; asks : slab C; evq : queue C }.

(** orderbook.rs:98-103 [get_tree]. *)
Definition tree (b : book) (sd : side) : slab C :=
  match sd with Bid => bids b | Ask => asks b end.
Definition set_tree (sd : side) (t : slab C) (b : book) : book :=
  match sd with
  | Bid => mk_book t (asks b) (evq b)
  | Ask => mk_book (bids b) t (evq b)
  end.
Definition set_evq (q : queue C) (b : book) : book := mk_book (bids b) (asks b) q.
Definition on_tree {A} (sd : side) (m : M (slab C) A) : M book A :=
  zoom (fun b => tree b sd) (set_tree sd) m.
Definition on_evq {A} (m : M (queue C) A) : M book A := zoom evq set_evq m.

(** orderbook.rs:79-84 [find_bbo]. *)
Definition find_bbo (b : book) (sd : side) : res (option N) :=
  match sd with
  | Bid => find_max (bids b)
  | Ask => find_min (asks b)
  end.

(** orderbook.rs:86-96 [get_spread]. *)
Definition leaf_price_at (s : slab C) (o : option N) : res (option N) :=
  match o with
  | None => Ok None
  | Some h => let? l := idx (leaf_nodes s) h in Ok (Some (price_from_key (lf_key l)))
  end.
Definition get_spread (b : book) : res (option N * option N) :=
  let? hb := find_max (bids b) in
  let? pb := leaf_price_at (bids b) hb in
  let? ha := find_min (asks b) in
  let? pa := leaf_price_at (asks b) ha in
  Ok (pb, pa).

(** orderbook.rs:105-107 [is_empty].  [OrderBookState] holds the two slabs; a [book] holds
    the event queue as well, which [is_empty] does not look at. *)
Definition sides_empty (bids asks : slab C) : bool :=
  (leaf_count (hdr asks) =? 0) && (leaf_count (hdr bids) =? 0).
Definition book_is_empty (b : book) : bool := sides_empty (bids b) (asks b).

(** Local variables of [new_order] that change in its loop (orderbook.rs:119-136). *)
Record locals := mk_locals {
  l_limit : N;      (* match_limit *)
  l_base : N;       (* base_qty_remaining *)
  l_quote : N;      (* quote_qty_remaining *)
  l_crossed : bool; (* crossed *)
}.

Definition push_out (sd : side) (id base : N) (cb : C) : M book unit :=
  on_evq (push_back (out_to_generic (mk_out_event tag_out (side_u8 sd) 0 id base))
                    (Some cb) None).

(** What an iteration of the loop decides. *)
Inductive iter_result := ItBreak (l : locals) | ItNext (l : locals).

(** orderbook.rs:137-273: one iteration of the matching loop. *)
Definition match_step (p : params) (min_size : N) (l : locals) : M book iter_result :=
  let opp := opposite (p_side p) in
  (* 138-140 *)
  if l_limit l =? 0 then ret (ItBreak l)
  else
    let! b := get in
    (* 141-147 *)
    let! bbo := lift (find_bbo b opp) in
    match bbo with
    | None => ret (ItBreak (mk_locals (l_limit l) (l_base l) (l_quote l) false))
    | Some h =>
        (* 149-153 *)
        let! best := lift (idx (leaf_nodes (tree b opp)) h) in
        let price := price_from_key (lf_key best) in
        (* 154-157 *)
        let crossed :=
          match p_side p with
          | Bid => price <=? limit_price p
          | Ask => limit_price p <=? price
          end in
        let l1 := mk_locals (l_limit l) (l_base l) (l_quote l) crossed in
        (* 159-161 *)
        if post_only p || negb crossed then ret (ItBreak l1)
        else
          (* 163-170 *)
          let base_trade :=
            N.min (N.min (lf_qty best) (l_base l))
                  (unwrap_or (fp32_div (l_quote l) price) u64_max) in
          if base_trade =? 0 then ret (ItBreak l1)
          else
            (* 172-177 *)
            let! quote_raw := lift
              (ok_or (match p_side p with
                      | Bid => fp32_mul_ceil base_trade price
                      | Ask => fp32_mul_floor base_trade price
                      end) NumericalOverflow) in
            let quote := N.min quote_raw (l_quote l) in
            (* 179-181 *)
            if quote =? 0 then ret (ItBreak l1)
            else
              let! cb := lift (idx (callback_infos (tree b opp)) h) in
              (* 183-218: self trade.  The callback info is read under the test
                 of line 185 or at line 220; either way it is read. *)
              let self :=
                match stb p with
                | DecrementTake => false
                | _ => same_id (p_callback p) cb
                end in
              if self then
                match stb p with
                | AbortTransaction => fail WouldSelfTrade
                | DecrementTake => panic_with PAssert
                | CancelProvide =>
                    do! push_out opp (lf_key best) (lf_qty best) cb in
                    let! r := on_tree opp (remove_by_key (lf_key best)) in
                    let! _ := lift (unwrap r) in
                    let! lim := lift (sub_w (l_limit l) 1) in
                    ret (ItNext (mk_locals lim (l_base l) (l_quote l) crossed))
                end
              else
                (* 220-241 *)
                do! on_evq (push_back
                      (fill_to_generic
                         (mk_fill_event tag_fill (side_u8 (p_side p)) 0 quote
                                        (lf_key best) base_trade))
                      (Some cb) (Some (p_callback p))) in
                (* 243-245 *)
                let! q' := lift (sub_w (lf_qty best) base_trade) in
                do! on_tree opp (write_leaf h (mk_leaf (lf_key best) q')) in
                let! base' := lift (sub_w (l_base l) base_trade) in
                let! quote' := lift (sub_w (l_quote l) quote) in
                (* 247-270 *)
                do! (if q' <? min_size then
                       let! r := on_tree opp (remove_by_key (lf_key best)) in
                       let! lc := lift (unwrap r) in
                       push_out opp (lf_key best) q' (snd lc)
                     else ret tt) in
                (* 272 *)
                let! lim := lift (sub_w (l_limit l) 1) in
                ret (ItNext (mk_locals lim base' quote' crossed))
    end.

(** orderbook.rs:137: [loop]. Fuel [match_limit + 1] suffices since every
    iteration that continues decrements [match_limit]. *)
Definition match_loop (p : params) (min_size : N) : M book locals :=
  fun b =>
    match
      loop (N.succ (match_limit p))
        (fun lb : locals * book =>
           match match_step p min_size (fst lb) (snd lb) with
           | (Ok (ItNext l), b') => Continue (l, b')
           | (Ok (ItBreak l), b') => Done (Ok l, b')
           | (Err e, b') => Done (Err e, b')
           | (Panic x, b') => Done (Panic x, b')
           | (Diverge, b') => Done (Diverge, b')
           end)
        (mk_locals (match_limit p) (max_base_qty p) (max_quote_qty p) true, b)
    with
    | Done r => r
    | Continue (_, b') => (Diverge, b')
    end.

(** [insert_leaf] with its error made visible (orderbook.rs:300-301). *)
Definition try_insert (sd : side) (lf : leaf) : M book (option N) :=
  fun b =>
    match on_tree sd (insert_leaf lf) b with
    | (Ok (h, _), b') => (Ok (Some h), b')
    | (Err SlabOutOfSpace, b') => (Ok None, b')
    | (Err _, b') => (Panic PUnwrap, b')
    | (Panic x, b') => (Panic x, b')
    | (Diverge, b') => (Diverge, b')
    end.

Definition no_post (p : params) (base quote : N) : M book summary :=
  let! tb := lift (sub_w (max_base_qty p) base) in
  let! tq := lift (sub_w (max_quote_qty p) quote) in
  ret (mk_summary None tb tq 0).

(** orderbook.rs:300-346: insertion of the new leaf, evicting the least aggressive
    order when the side is full.  [None]: nothing was posted. *)
Definition post_leaf (p : params) (lf : leaf) : M book (option N) :=
  let sd := p_side p in
  let! r := try_insert sd lf in
  match r with
  | Some h => ret (Some h)
  | None =>
      let! b := get in
      let s := tree b sd in
      (* 305-316 *)
      let! cand := lift (match sd with Bid => find_min s | Ask => find_max s end) in
      let! ch := lift (unwrap cand) in
      let! cl := lift (idx (leaf_nodes s) ch) in
      let bp := price_from_key (lf_key cl) in
      let should_boot :=
        match sd with
        | Bid => bp <? limit_price p
        | Ask => limit_price p <? bp
        end in
      if should_boot then
        (* 317-334 *)
        let! r := on_tree sd (remove_by_key (lf_key cl)) in
        let! lc := lift (unwrap r) in
        do! push_out sd (lf_key (fst lc)) (lf_qty (fst lc)) (snd lc) in
        let! r := try_insert sd lf in
        let! h := lift (unwrap r) in
        ret (Some h)
      else ret None
  end.

(** orderbook.rs:114-359 [new_order]. *)
Definition new_order (p : params) (min_size : N) : M book summary :=
  let! l := match_loop p min_size in
  (* 275-278 *)
  let to_post := N.min (unwrap_or (fp32_div (l_quote l) (limit_price p)) u64_max) (l_base l) in
  (* 280-287 *)
  if l_crossed l || negb (post_allowed p) || (to_post <? min_size) then
    no_post p (l_base l) (l_quote l)
  else
    (* 289-299 *)
    let! id := on_evq (gen_order_id (limit_price p) (p_side p)) in
    let! r := post_leaf p (mk_leaf id to_post) in
    match r with
    | None => no_post p (l_base l) (l_quote l)
    | Some h =>
        (* 346-358 *)
        do! on_tree (p_side p) (set_callback_info h (p_callback p)) in
        let! base' := lift (sub_w (l_base l) to_post) in
        let! q := lift
          (ok_or (match p_side p with
                  | Bid => fp32_mul_ceil to_post (limit_price p)
                  | Ask => fp32_mul_floor to_post (limit_price p)
                  end) NumericalOverflow) in
        let! quote' := lift (sub_w (l_quote l) q) in
        let! tb := lift (sub_w (max_base_qty p) base') in
        let! tq := lift (sub_w (max_quote_qty p) quote') in
        ret (mk_summary (Some id) tb tq to_post)
    end.

End Book.
Global Arguments params : clear implicits.
Global Arguments book : clear implicits.
