(** * Release.v: the program as a release build runs it

    Solana programs are built with the release profile and Cargo.toml sets no
    [overflow-checks]: there unchecked [+ - *] on u32, u64 and usize wrap around, and a
    shift uses its amount modulo the width.  The rest of the model (Critbit.v, EventQueue.v,
    OrderBook.v, Market.v, Layout.v, Ledger.v) describes the debug profile, where these
    panic.  This file repeats every function that computes with such operations, or calls
    one that does, with wrapping arithmetic; all other functions are shared.  The name of
    the function of the other files is the one here without [_r].  ([round_price] has its
    release version in OrderBook.v.) *)
From Verif Require Import Machine Bytes Critbit EventQueue OrderBook Market Layout Borsh Ledger.

(** Unchecked [+] and [-] in the release profile, on integers below [w]. *)
Definition add_r (w : N) (a b : N) : res N := Ok (if a + b <? w then a + b else a + b - w).
Definition sub_r (w : N) (a b : N) : res N := Ok (if b <=? a then a - b else a + w - b).

(** ** program/src/state/critbit.rs *)
Section Slab.
Context {C : Type}.
Notation slab := (slab C).

(** [(1u128 << 127) >> n] used as a mask on [k] (critbit.rs:95-96, 285-289): the release
    profile uses the shift amount modulo 128. *)
Definition crit_r (n k : N) : bool := N.testbit k (127 - n mod 128).

(** critbit.rs:94-98 [InnerNode::walk_down]. *)
Definition walk_down_r (n : inner) (k : N) : N * bool :=
  let b := crit_r (in_plen n) k in (child n b, b).

(** critbit.rs:169-186 [Slab::allocate_leaf].  The io error is reported as
    SlabOutOfSpace, which is what both callers map it to (lines 233, 286). *)
Definition allocate_leaf_r : M slab N :=
  let! s := get in
  let h := hdr s in
  if leaf_free_list_len h =? 0 then
    if N.of_nat (length (leaf_nodes s)) <=? leaf_bump_index h then
      fail SlabOutOfSpace
    else
      let key := leaf_bump_index h in
      let! b := lift (add_r p32 (leaf_bump_index h) 1) in
      do! put_hdr (set_leaf_alloc h (leaf_free_list_len h) (leaf_free_list_head h) b) in
      ret key
  else
    let key := leaf_free_list_head h in
    let! free := lift (idx (leaf_nodes s) key) in
    let next := as_u32 (lf_qty free) in
    let! len := lift (sub_r p32 (leaf_free_list_len h) 1) in
    do! put_hdr (set_leaf_alloc h len next (leaf_bump_index h)) in
    ret key.

(** critbit.rs:188-196 [Slab::free_leaf]. *)
Definition free_leaf_r (handle : N) : M slab unit :=
  let! s := get in
  let h := hdr s in
  do! (if leaf_free_list_len h =? 0 then ret tt
       else
         let! l := lift (idx (leaf_nodes s) handle) in
         write_leaf handle (mk_leaf (lf_key l) (leaf_free_list_head h))) in
  let! len := lift (add_r p32 (leaf_free_list_len h) 1) in
  put_hdr (set_leaf_alloc h len handle (leaf_bump_index h)).

(** critbit.rs:198-215 [Slab::allocate_inner_node].  Its only caller unwraps the
    result (line 289): the io error is a panic here. *)
Definition allocate_inner_node_r : M slab N :=
  let! s := get in
  let h := hdr s in
  if inner_node_free_list_len h =? 0 then
    if N.of_nat (length (inner_nodes s)) <=? inner_node_bump_index h then
      panic_with PUnwrap
    else
      let key := inner_node_bump_index h in
      let! b := lift (add_r p32 (inner_node_bump_index h) 1) in
      do! put_hdr (set_inner_alloc h (inner_node_free_list_len h)
                                     (inner_node_free_list_head h) b) in
      ret (not32 key)
  else
    let key := inner_node_free_list_head h in
    let! free := lift (idx (inner_nodes s) key) in
    let next := as_u32 (in_plen free) in
    let! len := lift (sub_r p32 (inner_node_free_list_len h) 1) in
    do! put_hdr (set_inner_alloc h len next (inner_node_bump_index h)) in
    ret (not32 key).

(** critbit.rs:217-225 [Slab::free_inner_node]. *)
Definition free_inner_node_r (handle : N) : M slab unit :=
  let! s := get in
  let h := hdr s in
  do! (if inner_node_free_list_len h =? 0 then ret tt
       else
         let! n := lift (idx (inner_nodes s) (not32 handle)) in
         write_inner (not32 handle)
           (mk_inner (in_key n) (inner_node_free_list_head h) (in_c0 n) (in_c1 n))) in
  let! len := lift (add_r p32 (inner_node_free_list_len h) 1) in
  put_hdr (set_inner_alloc h len (not32 handle) (inner_node_bump_index h)).

(** critbit.rs:244-279: the loop of [insert_leaf] up to its exit.  [parent]
    stands for the pair [parent_node], [previous_critbit], which are always set
    together (lines 253, 259).  Off-chain, line 269 compares the two-word keys,
    which is equality of the u128 values. *)
Fixpoint insert_walk_r (fuel : nat) (s : slab) (h : N) (parent : option (N * bool))
    (key : N) : res insert_pos :=
  match fuel with
  | O => Diverge
  | S fuel =>
      if is_inner h then
        let? n := idx (inner_nodes s) (not32 h) in
        let shared := lz128 (N.lxor (in_key n) key) in
        if as_u32 (in_plen n) <=? shared then
          let w := walk_down_r n key in
          insert_walk_r fuel s (fst w) (Some (h, snd w)) key
        else Ok (Split h shared parent)
      else
        let? l := idx (leaf_nodes s) h in
        if lf_key l =? key then Ok (Clobber h l)
        else Ok (Split h (lz128 (N.lxor (lf_key l) key)) parent)
  end.

(** critbit.rs:227-318 [Slab::insert_leaf].  Returns the handle of the leaf and
    the replaced leaf, if any. *)
Definition insert_leaf_r (new_leaf : leaf) : M slab (N * option leaf) :=
  let! s := get in
  if leaf_count (hdr s) =? 0 then
    (* lines 231-239 *)
    let! h := allocate_leaf_r in
    do! write_leaf h new_leaf in
    let! s := get in
    let! c := lift (add_r p32 (leaf_count (hdr s)) 1) in
    do! put_hdr (set_count (set_root (hdr s) h) c) in
    ret (h, None)
  else
    let! pos := lift (insert_walk_r walk_fuel s (root_node (hdr s)) None (lf_key new_leaf)) in
    match pos with
    | Clobber h old =>
        (* lines 265-268 *)
        do! write_leaf h new_leaf in
        ret (h, Some old)
    | Split r plen parent =>
        (* lines 280-316 *)
        let new_bit := crit_r plen (lf_key new_leaf) in
        let! lh := allocate_leaf_r in
        do! write_leaf lh new_leaf in
        let! ih := allocate_inner_node_r in
        do! write_inner (not32 ih)
              (mk_inner (lf_key new_leaf) plen
                 (if new_bit then r else lh) (if new_bit then lh else r)) in
        do! (match parent with
             | Some (ph, b) =>
                 let! s := get in
                 let! n := lift (idx (inner_nodes s) (not32 ph)) in
                 write_inner (not32 ph) (set_child n b ih)
             | None =>
                 let! s := get in
                 put_hdr (set_root (hdr s) ih)
             end) in
        let! s := get in
        let! c := lift (add_r p32 (leaf_count (hdr s)) 1) in
        do! put_hdr (set_count (hdr s) c) in
        ret (lh, None)
    end.

(** critbit.rs:368-395: the loop of [remove_by_key] (read-only). *)
Fixpoint remove_walk_r (fuel : nat) (s : slab) (gp : option (N * bool)) (parent child : N)
    (bit : bool) (key : N) : res (option remove_pos) :=
  match fuel with
  | O => Diverge
  | S fuel =>
      if is_inner child then
        let? n := idx (inner_nodes s) (not32 child) in
        let w := walk_down_r n key in
        remove_walk_r fuel s (Some (parent, bit)) child (fst w) (snd w) key
      else
        let? l := idx (leaf_nodes s) child in
        if lf_key l =? key then Ok (Some (mk_remove_pos gp parent child bit))
        else Ok None
  end.

(** critbit.rs:330-415 [Slab::remove_by_key].  Note lines 334-335: when the root
    is a leaf with another key, the loop is entered with [child_h = 0] and
    [crit_bit = false]. *)
Definition remove_by_key_r (key : N) : M slab (option (leaf * C)) :=
  let! s := get in
  if leaf_count (hdr s) =? 0 then ret None
  else
    let parent := root_node (hdr s) in
    (* lines 341-360 *)
    let! start := lift
      (if is_inner parent then
         let? n := idx (inner_nodes s) (not32 parent) in
         let w := walk_down_r n key in Ok (None, fst w, snd w)
       else
         let? l := idx (leaf_nodes s) parent in
         Ok (if lf_key l =? key then Some l else None, 0, false)) in
    let '(remove_root, child_h, bit) := start in
    match remove_root with
    | Some l =>
        (* lines 361-367 *)
        do! free_leaf_r parent in
        let! s := get in
        do! put_hdr (set_count (set_root (hdr s) 0) 0) in
        let! s := get in
        let! c := lift (get_callback_info s parent) in
        ret (Some (l, c))
    | None =>
        let! pos := lift (remove_walk_r walk_fuel s None parent child_h bit key) in
        match pos with
        | None => ret None
        | Some rp =>
            (* lines 397-414 *)
            let! n := lift (idx (inner_nodes s) (not32 (rp_parent rp))) in
            let other := child n (negb (rp_bit rp)) in
            do! (match rp_gp rp with
                 | Some (g, b) =>
                     let! gn := lift (idx (inner_nodes s) (not32 g)) in
                     write_inner (not32 g) (set_child gn b other)
                 | None => put_hdr (set_root (hdr s) other)
                 end) in
            let! s := get in
            let! cnt := lift (sub_r p32 (leaf_count (hdr s)) 1) in
            do! put_hdr (set_count (hdr s) cnt) in
            let! l := lift (idx (leaf_nodes s) (rp_child rp)) in
            do! free_leaf_r (rp_child rp) in
            do! free_inner_node_r (rp_parent rp) in
            let! s := get in
            let! c := lift (get_callback_info s (rp_child rp)) in
            ret (Some (l, c))
        end
    end.

(** critbit.rs:608-634: the loop of [find_by_key]. *)
Fixpoint find_walk_r (fuel : nat) (s : slab) (h key : N) : res (option N) :=
  match fuel with
  | O => Diverge
  | S fuel =>
      if is_inner h then
        let? n := idx (inner_nodes s) (not32 h) in
        if lz128 (N.lxor key (in_key n)) <? as_u32 (in_plen n) then Ok None
        else let w := walk_down_r n key in find_walk_r fuel s (fst w) key
      else
        let? l := idx (leaf_nodes s) h in
        if key =? lf_key l then Ok (Some h) else Ok None
  end.

(** critbit.rs:606-635 [Slab::find_by_key]. *)
Definition find_by_key_r (s : slab) (key : N) : res (option N) :=
  match root s with
  | None => Ok None
  | Some r => find_walk_r walk_fuel s r key
  end.

End Slab.

(** ** program/src/state/event_queue.rs *)
Section Queue.
Context {C : Type}.
Notation queue := (queue C).
Notation event_ref := (event_ref C).

(** event_queue.rs:178-203 [EventQueue::push_back], on an event already turned
    into a generic event.  Every caller maps the returned event to
    EventQueueFull. *)
Definition push_back_r (ev : fill_event) (maker taker : option C) : M queue unit :=
  let! q := get in
  if full q then fail EventQueueFull
  else
    let! pos := lift (add_r p64 (q_head q) (q_count q)) in
    if q_cap q =? 0 then panic_with PDivZero
    else
      let i := pos mod q_cap q in
      let! evs := lift (upd (q_events q) i ev) in
      let! cnt := lift (add_r p64 (q_count q) 1) in
      do! put (mk_queue (q_head q) cnt (q_seq q) evs (q_cbs q)) in
      do! (match maker with
           | None => ret tt
           | Some c =>
               let! q := get in
               let! cbs := lift (upd (q_cbs q) (i * 2) c) in
               put (mk_queue (q_head q) (q_count q) (q_seq q) (q_events q) cbs)
           end) in
      match taker with
      | None => ret tt
      | Some c =>
          let! q := get in
          let! cbs := lift (upd (q_cbs q) (i * 2 + 1) c) in
          put (mk_queue (q_head q) (q_count q) (q_seq q) (q_events q) cbs)
      end.

(** event_queue.rs:239-243 [EventQueue::gen_seq_num]. *)
Definition gen_seq_num_r : M queue N :=
  let! q := get in
  let! s := lift (add_r p64 (q_seq q) 1) in
  do! put (mk_queue (q_head q) (q_count q) s (q_events q) (q_cbs q)) in
  ret (q_seq q).

Definition gen_order_id_r (price : N) (sd : side) : M queue N :=
  let! seq := gen_seq_num_r in
  ret (order_id_of price seq sd).

(** event_queue.rs:275-281 [EventQueue::pop_n]. *)
Definition pop_n_r (n : N) : M queue unit :=
  let! q := get in
  let capped := N.min (q_count q) n in
  let! cnt := lift (sub_r p64 (q_count q) capped) in
  let! h := lift (add_r p64 (q_head q) capped) in
  if q_cap q =? 0 then panic_with PDivZero
  else put (mk_queue (h mod q_cap q) cnt (q_seq q) (q_events q) (q_cbs q)).

(** event_queue.rs:310-322 [QueueIterator::next], collected: [remaining] counts down
    while [current_index] counts up.  [iter] starts at index 0 with
    [remaining = count] (lines 284-290). *)
Fixpoint iter_from_r (q : queue) (i : N) (remaining : nat) : res (list event_ref) :=
  match remaining with
  | O => Ok []
  | S r =>
      if q_cap q =? 0 then Panic PDivZero
      else
        let? pos := add_r p64 (q_head q) i in
        let? e := get_event q (pos mod q_cap q) in
        let? rest := iter_from_r q (i + 1) r in
        Ok (e :: rest)
  end.

Definition queue_iter_r (q : queue) : res (list event_ref) :=
  iter_from_r q 0 (N.to_nat (q_count q)).

End Queue.

(** ** program/src/state/orderbook.rs *)
Section Book.
Context {C : Type} (same_id : C -> C -> bool).
Notation params := (params C).
Notation book := (book C).

Definition push_out_r (sd : side) (id base : N) (cb : C) : M book unit :=
  on_evq (push_back_r (out_to_generic (mk_out_event tag_out (side_u8 sd) 0 id base))
                    (Some cb) None).

(** orderbook.rs:137-273: one iteration of the matching loop. *)
Definition match_step_r (p : params) (min_size : N) (l : locals) : M book iter_result :=
  let opp := opposite (p_side p) in
  (* 138-140 *)
  if l_limit l =? 0 then ret (ItBreak l)
  else
    let! b := get in
    (* 141-147 *)
    let! bbo := lift (find_bbo b opp) in
    match bbo with
    | None => ret (ItBreak (mk_locals (l_limit l) (l_base l) (l_quote l) false))
    | Some h =>
        (* 149-153 *)
        let! best := lift (idx (leaf_nodes (tree b opp)) h) in
        let price := price_from_key (lf_key best) in
        (* 154-157 *)
        let crossed :=
          match p_side p with
          | Bid => price <=? limit_price p
          | Ask => limit_price p <=? price
          end in
        let l1 := mk_locals (l_limit l) (l_base l) (l_quote l) crossed in
        (* 159-161 *)
        if post_only p || negb crossed then ret (ItBreak l1)
        else
          (* 163-170 *)
          let base_trade :=
            N.min (N.min (lf_qty best) (l_base l))
                  (unwrap_or (fp32_div (l_quote l) price) u64_max) in
          if base_trade =? 0 then ret (ItBreak l1)
          else
            (* 172-177 *)
            let! quote_raw := lift
              (ok_or (match p_side p with
                      | Bid => fp32_mul_ceil base_trade price
                      | Ask => fp32_mul_floor base_trade price
                      end) NumericalOverflow) in
            let quote := N.min quote_raw (l_quote l) in
            (* 179-181 *)
            if quote =? 0 then ret (ItBreak l1)
            else
              let! cb := lift (idx (callback_infos (tree b opp)) h) in
              (* 183-218: self trade.  The callback info is read under the test
                 of line 185 or at line 220; either way it is read. *)
              let self :=
                match stb p with
                | DecrementTake => false
                | _ => same_id (p_callback p) cb
                end in
              if self then
                match stb p with
                | AbortTransaction => fail WouldSelfTrade
                | DecrementTake => panic_with PAssert
                | CancelProvide =>
                    do! push_out_r opp (lf_key best) (lf_qty best) cb in
                    let! r := on_tree opp (remove_by_key_r (lf_key best)) in
                    let! _ := lift (unwrap r) in
                    let! lim := lift (sub_r p64 (l_limit l) 1) in
                    ret (ItNext (mk_locals lim (l_base l) (l_quote l) crossed))
                end
              else
                (* 220-241 *)
                do! on_evq (push_back_r
                      (fill_to_generic
                         (mk_fill_event tag_fill (side_u8 (p_side p)) 0 quote
                                        (lf_key best) base_trade))
                      (Some cb) (Some (p_callback p))) in
                (* 243-245 *)
                let! q' := lift (sub_r p64 (lf_qty best) base_trade) in
                do! on_tree opp (write_leaf h (mk_leaf (lf_key best) q')) in
                let! base' := lift (sub_r p64 (l_base l) base_trade) in
                let! quote' := lift (sub_r p64 (l_quote l) quote) in
                (* 247-270 *)
                do! (if q' <? min_size then
                       let! r := on_tree opp (remove_by_key_r (lf_key best)) in
                       let! lc := lift (unwrap r) in
                       push_out_r opp (lf_key best) q' (snd lc)
                     else ret tt) in
                (* 272 *)
                let! lim := lift (sub_r p64 (l_limit l) 1) in
                ret (ItNext (mk_locals lim base' quote' crossed))
    end.

(** orderbook.rs:137: [loop]. Fuel [match_limit + 1] suffices since every
    iteration that continues decrements [match_limit]. *)
Definition match_loop_r (p : params) (min_size : N) : M book locals :=
  fun b =>
    match
      loop (N.succ (match_limit p))
        (fun lb : locals * book =>
           match match_step_r p min_size (fst lb) (snd lb) with
           | (Ok (ItNext l), b') => Continue (l, b')
           | (Ok (ItBreak l), b') => Done (Ok l, b')
           | (Err e, b') => Done (Err e, b')
           | (Panic x, b') => Done (Panic x, b')
           | (Diverge, b') => Done (Diverge, b')
           end)
        (mk_locals (match_limit p) (max_base_qty p) (max_quote_qty p) true, b)
    with
    | Done r => r
    | Continue (_, b') => (Diverge, b')
    end.

(** [insert_leaf] with its error made visible (orderbook.rs:300-301). *)
Definition try_insert_r (sd : side) (lf : leaf) : M book (option N) :=
  fun b =>
    match on_tree sd (insert_leaf_r lf) b with
    | (Ok (h, _), b') => (Ok (Some h), b')
    | (Err SlabOutOfSpace, b') => (Ok None, b')
    | (Err _, b') => (Panic PUnwrap, b')
    | (Panic x, b') => (Panic x, b')
    | (Diverge, b') => (Diverge, b')
    end.

Definition no_post_r (p : params) (base quote : N) : M book summary :=
  let! tb := lift (sub_r p64 (max_base_qty p) base) in
  let! tq := lift (sub_r p64 (max_quote_qty p) quote) in
  ret (mk_summary None tb tq 0).

(** orderbook.rs:300-346: insertion of the new leaf, evicting the least aggressive
    order when the side is full.  [None]: nothing was posted. *)
Definition post_leaf_r (p : params) (lf : leaf) : M book (option N) :=
  let sd := p_side p in
  let! r := try_insert_r sd lf in
  match r with
  | Some h => ret (Some h)
  | None =>
      let! b := get in
      let s := tree b sd in
      (* 305-316 *)
      let! cand := lift (match sd with Bid => find_min s | Ask => find_max s end) in
      let! ch := lift (unwrap cand) in
      let! cl := lift (idx (leaf_nodes s) ch) in
      let bp := price_from_key (lf_key cl) in
      let should_boot :=
        match sd with
        | Bid => bp <? limit_price p
        | Ask => limit_price p <? bp
        end in
      if should_boot then
        (* 317-334 *)
        let! r := on_tree sd (remove_by_key_r (lf_key cl)) in
        let! lc := lift (unwrap r) in
        do! push_out_r sd (lf_key (fst lc)) (lf_qty (fst lc)) (snd lc) in
        let! r := try_insert_r sd lf in
        let! h := lift (unwrap r) in
        ret (Some h)
      else ret None
  end.

(** orderbook.rs:114-359 [new_order]. *)
Definition new_order_r (p : params) (min_size : N) : M book summary :=
  let! l := match_loop_r p min_size in
  (* 275-278 *)
  let to_post := N.min (unwrap_or (fp32_div (l_quote l) (limit_price p)) u64_max) (l_base l) in
  (* 280-287 *)
  if l_crossed l || negb (post_allowed p) || (to_post <? min_size) then
    no_post_r p (l_base l) (l_quote l)
  else
    (* 289-299 *)
    let! id := on_evq (gen_order_id_r (limit_price p) (p_side p)) in
    let! r := post_leaf_r p (mk_leaf id to_post) in
    match r with
    | None => no_post_r p (l_base l) (l_quote l)
    | Some h =>
        (* 346-358 *)
        do! on_tree (p_side p) (set_callback_info h (p_callback p)) in
        let! base' := lift (sub_r p64 (l_base l) to_post) in
        let! q := lift
          (ok_or (match p_side p with
                  | Bid => fp32_mul_ceil to_post (limit_price p)
                  | Ask => fp32_mul_floor to_post (limit_price p)
                  end) NumericalOverflow) in
        let! quote' := lift (sub_r p64 (l_quote l) q) in
        let! tb := lift (sub_r p64 (max_base_qty p) base') in
        let! tq := lift (sub_r p64 (max_quote_qty p) quote') in
        ret (mk_summary (Some id) tb tq to_post)
    end.

End Book.

(** ** program/src/processor/*.rs on typed accounts *)
Section Market.
Context {C : Type} (same_id : C -> C -> bool).
Notation market := (market C).
Notation op := (op C).

(** processor/new_order.rs:132-155 (the part of [process] after the account checks). *)
Definition process_new_order_r (p : params C) : M market summary :=
  let! m := get in
  if m_tick m =? 0 then panic_with PDivZero
  else if negb (limit_price p mod m_tick m =? 0) then fail InvalidLimitPrice
  else if post_allowed p && (limit_price p <? m_tick m) then fail InvalidLimitPrice
  else on_book (new_order_r same_id p (m_min m)).

(** processor/cancel_order.rs:95-110. *)
Definition process_cancel_order_r (id : N) : M market summary :=
  let! r := on_book (on_tree (side_of_id id) (remove_by_key_r id)) in
  let! lc := lift (ok_or r OrderNotFound) in
  let l := fst lc in
  let! q := lift (ok_or (fp32_mul_floor (lf_qty l) (price_from_key (lf_key l)))
                        NumericalOverflow) in
  ret (mk_summary None (lf_qty l) q 0).

Fixpoint mass_cancel_loop_r (ids : list N) (tb tq : N) : M market (N * N) :=
  match ids with
  | [] => ret (tb, tq)
  | id :: ids =>
      let! r := on_book (on_tree (side_of_id id) (remove_by_key_r id)) in
      let! lc := lift (ok_or r OrderNotFound) in
      let l := fst lc in
      let! tb' := lift (unwrap (checked_add tb (lf_qty l))) in
      let! tq' := lift (unwrap
        (match fp32_mul_floor (lf_qty l) (price_from_key (lf_key l)) with
         | Some n => checked_add n tq
         | None => None
         end)) in
      mass_cancel_loop_r ids tb' tq'
  end.

Definition process_mass_cancel_r (ids : list N) : M market summary :=
  let! t := mass_cancel_loop_r ids 0 0 in
  ret (mk_summary None (fst t) (snd t) 0).

(** processor/consume_events.rs:81-95. *)
Definition process_consume_events_r (n : N) : M market unit :=
  on_book (on_evq (pop_n_r n)).

(** processor.rs:33-75 without account handling: the summary is returned for the
    first three, None for the last. *)
Definition process_r (o : op) : M market (option summary) :=
  match o with
  | NewOrder p => let! s := process_new_order_r p in ret (Some s)
  | CancelOrder id => let! s := process_cancel_order_r id in ret (Some s)
  | MassCancelOrders ids => let! s := process_mass_cancel_r ids in ret (Some s)
  | ConsumeEvents n => do! process_consume_events_r n in ret None
  end.

(** Execution of one instruction as a transaction: a failed instruction has no
    effect (Solana runtime rollback). *)
Definition exec_r (o : op) (m : market) : res (option summary) * market :=
  match process_r o m with
  | (Ok r, m') => (Ok r, m')
  | (r, _) => (r, m)
  end.

(** A history, and the state it leads to. *)
Fixpoint run_r (m : market) (ops : list op) : market :=
  match ops with
  | [] => m
  | o :: ops => run_r (snd (exec_r o m)) ops
  end.

End Market.

(** ** opening accounts *)
Section Layout.
(** [size_of::<C>()] *)
Context (cs : nat).

(** critbit.rs:138-158 [Slab::from_buffer].  On short buffers the capacity wraps around to
    a huge number; then [buf[0]] or the tag check or one of the [split_at_mut] stops it.
    The products are below 2^64 for every such capacity, so they are exact. *)
Definition slab_from_buffer_r (buf : bytes) (expected : N) : res (slab bytes) :=
  let len := N.of_nat (length buf) in
  let leaf_size := (leaf_len + cs)%nat in
  let? a := sub_r p64 len (N.of_nat slab_header_len) in
  let? a := sub_r p64 a 8 in
  let? a := sub_r p64 a (N.of_nat leaf_size) in
  let cap := a / N.of_nat (leaf_size + inner_len) in
  let? t := idx buf 0 in
  if negb (t =? expected) then Err AccountTagMismatch
  else if len <? 8 + N.of_nat slab_header_len then Panic PIndex
  else
    let room := len - 8 - N.of_nat slab_header_len in
    let nl := (cap + 1) * N.of_nat leaf_len in
    if room <? nl then Panic PIndex
    else
      let ni := cap * N.of_nat inner_len in
      if room - nl <? ni then Panic PIndex
      else
        let rem := drop (8 + slab_header_len) buf in
        let leaves := take (N.to_nat nl) rem in
        let rem := drop (N.to_nat nl) rem in
        let inners := take (N.to_nat ni) rem in
        let callbacks := drop (N.to_nat ni) rem in
        let? cbs := cast_slice cs callbacks in
        Ok (mk_slab (header_of_bytes (take slab_header_len (drop 8 buf)))
                    (map leaf_of_bytes (pieces leaf_len (N.to_nat nl / leaf_len) leaves))
                    (map inner_of_bytes (pieces inner_len (N.to_nat ni / inner_len) inners))
                    cbs).

(** event_queue.rs:151-174 [EventQueue::from_buffer].  On short buffers the capacity wraps
    around; then [buf[0..8]], the tag check or [split_at_mut] stops it.  The product is
    below 2^64 for every such capacity, so it is exact. *)
Definition queue_from_buffer_r (buf : bytes) (expected : N) : res (queue bytes * bytes) :=
  let len := N.of_nat (length buf) in
  let? a := sub_r p64 len 8 in
  let? a := sub_r p64 a (N.of_nat queue_header_len) in
  let cap := a / N.of_nat (event_size cs) in
  let? t := read_tag buf in
  if negb (t =? expected) then Err AccountTagMismatch
  else if len <? 8 + N.of_nat queue_header_len then Panic PIndex
  else
    let buf := write_tag tag_event_queue buf in
    let rem := drop 8 buf in
    let hd_bytes := take queue_header_len rem in
    let rem := drop queue_header_len rem in
    let ne := cap * N.of_nat fill_len in
    if N.of_nat (length rem) <? ne then Panic PIndex
    else
      let events := take (N.to_nat ne) rem in
      let callbacks := drop (N.to_nat ne) rem in
      let? cbs := cast_slice cs callbacks in
      Ok (mk_queue (le_dec (slice hd_bytes 0 8)) (le_dec (slice hd_bytes 8 8))
                   (le_dec (slice hd_bytes 16 8))
                   (map fill_of_bytes (pieces fill_len (N.to_nat ne / fill_len) events)) cbs,
          buf).

End Layout.

(** ** the processors on raw accounts, the entrypoint and the runtime *)
Section Processors.
Context (cs : nat) (same_id : bytes -> bytes -> bool) (rent_exempt : N -> nat -> bool).
Context (pid : N).
Notation check_rent_exempt := (check_rent_exempt rent_exempt).
Notation perform_checks := (perform_checks pid).
Notation runtime_ok := (runtime_ok pid).

(** create_market.rs:75-118 [process]; the owner of the market account is not checked
    (lines 62-71). *)
Definition create_market_r (a : accounts) (p : create_params) : M ledger unit :=
  do! check_account_owner (ac_queue a) pid WrongEventQueueOwner in
  do! check_account_owner (ac_bids a) pid WrongBidsOwner in
  do! check_account_owner (ac_asks a) pid WrongAsksOwner in
  do! check_rent_exempt (ac_asks a) in
  do! check_rent_exempt (ac_bids a) in
  do! check_rent_exempt (ac_queue a) in
  do! check_rent_exempt (ac_market a) in
  if (cp_min p =? 0) || (cp_tick p =? 0) then fail PE_InvalidArgument
  else
    let! qd := borrow [] (ac_queue a) in
    do! (if is_ok (queue_check_size cs qd) then ret tt else panic_with PUnwrap) in
    let! md := borrow [] (ac_market a) in
    do! lift (market_check_size md) in
    let! r := lift (market_from_buffer md tag_uninitialized) in
    do! set_data (ac_market a)
          (take 8 (snd r) ++
           bytes_of_market_state (mk_market_state (ac_queue a) (ac_bids a) (ac_asks a)
                                                  (cp_min p) (cp_tick p))) in
    let! qd := borrow [ac_market a] (ac_queue a) in
    let! r := lift (queue_from_buffer_r cs qd tag_uninitialized) in
    do! set_data (ac_queue a) (snd r) in
    let! ad := borrow [ac_market a; ac_queue a] (ac_asks a) in
    let! bd := borrow [ac_market a; ac_queue a; ac_asks a] (ac_bids a) in
    let! r := lift (slab_initialize ad bd) in
    do! set_data (ac_asks a) (fst r) in
    set_data (ac_bids a) (snd r).

(** The bids and asks accounts opened by [OrderBookState::new_safe]
    (orderbook.rs:68-76): the two buffers and the two slabs. *)
Definition open_book_r (held : list N) (a : accounts)
    : M ledger (bytes * bytes * slab bytes * slab bytes) :=
  let! bd := borrow held (ac_bids a) in
  let! ad := borrow (ac_bids a :: held) (ac_asks a) in
  let! bs := lift (slab_from_buffer_r cs bd tag_bids) in
  let! asl := lift (slab_from_buffer_r cs ad tag_asks) in
  ret (bd, ad, bs, asl).

(** new_order.rs:118-156 [process]. *)
Definition new_order_l_r (a : accounts) (p : params bytes) : M ledger summary :=
  do! perform_checks a in
  let! ms := open_market (ac_market a) tag_market in
  do! check_accounts a ms in
  if ms_tick ms =? 0 then panic_with PDivZero
  else if negb (limit_price p mod ms_tick ms =? 0) then fail InvalidLimitPrice
  else if post_allowed p && (limit_price p <? ms_tick ms) then fail InvalidLimitPrice
  else
    let! ob := open_book_r [ac_market a] a in
    let '(bd, ad, bs, asl) := ob in
    let! qd := borrow [ac_market a; ac_bids a; ac_asks a] (ac_queue a) in
    let! r := lift (queue_from_buffer_r cs qd tag_event_queue) in
    let '(q, qd) := r in
    let '(out, b') := new_order_r same_id p (ms_min ms) (mk_book bs asl q) in
    do! set_data (ac_bids a) (slab_to_buffer (bids b') bd) in
    do! set_data (ac_asks a) (slab_to_buffer (asks b') ad) in
    do! set_data (ac_queue a) (queue_to_buffer (evq b') qd) in
    lift out.

Definition with_book_r (a : accounts) (f : M (market bytes) summary) : M ledger summary :=
  do! perform_checks a in
  let! ms := open_market (ac_market a) tag_market in
  do! check_accounts a ms in
  let! ob := open_book_r [ac_market a] a in
  let '(bd, ad, bs, asl) := ob in
  let '(out, m') := f (mk_market (ms_min ms) (ms_tick ms) (mk_book bs asl no_queue)) in
  do! set_data (ac_bids a) (slab_to_buffer (bids (m_book m')) bd) in
  do! set_data (ac_asks a) (slab_to_buffer (asks (m_book m')) ad) in
  lift out.

(** cancel_order.rs:76-111 [process]. *)
Definition cancel_order_l_r (a : accounts) (id : N) : M ledger summary :=
  with_book_r a (process_cancel_order_r id).

(** mass_cancel_orders.rs:78-117 [process]. *)
Definition mass_cancel_l_r (a : accounts) (ids : list N) : M ledger summary :=
  with_book_r a (process_mass_cancel_r ids).

(** consume_events.rs:67-96 [process]; the second key check (lines 107-111) repeats the
    first. *)
Definition consume_events_l_r (km kq : N) (n : N) : M ledger unit :=
  do! check_account_owner km pid WrongMarketOwner in
  do! check_account_owner kq pid WrongEventQueueOwner in
  let! ms := open_market km tag_market in
  do! check_account_key kq (ms_event_queue ms) WrongEventQueueAccount in
  let! qd := borrow [km] kq in
  let! r := lift (queue_from_buffer_r cs qd tag_event_queue) in
  let '(q, qd) := r in
  let '(out, q') := pop_n_r n q in
  do! set_data kq (queue_to_buffer q' qd) in
  lift out.

Definition close_market_r (a : accounts) (target : N) : M ledger unit :=
  do! check_account_owner (ac_market a) pid WrongMarketOwner in
  let! ms := open_market (ac_market a) tag_market in
  do! check_accounts a ms in
  let! bd := borrow [ac_market a] (ac_bids a) in
  let! ad := borrow [ac_market a; ac_bids a] (ac_asks a) in
  let! bs := lift (unwrap_err (slab_from_buffer_r cs bd tag_bids)) in
  let! asl := lift (unwrap_err (slab_from_buffer_r cs ad tag_asks)) in
  if negb (sides_empty bs asl)
  then fail MarketStillActive
  else
    let! qd := borrow [ac_market a; ac_bids a; ac_asks a] (ac_queue a) in
    let! r := lift (queue_from_buffer_r cs qd tag_event_queue) in
    let '(q, qd) := r in
    if negb (q_count q =? 0) then fail MarketStillActive
    else
      let! l := get in
      do! set_data (ac_market a) (write_tag tag_disabled (a_data (l (ac_market a)))) in
      do! set_data (ac_asks a) (write_tag tag_disabled ad) in
      do! set_data (ac_bids a) (write_tag tag_disabled bd) in
      do! set_data (ac_queue a) (write_tag tag_disabled qd) in
      let! lm := borrow_lamports [] (ac_market a) in
      let! lb := borrow_lamports [ac_market a] (ac_bids a) in
      let! la := borrow_lamports [ac_market a; ac_bids a] (ac_asks a) in
      let! lq := borrow_lamports [ac_market a; ac_bids a; ac_asks a] (ac_queue a) in
      let! lt := borrow_lamports [ac_market a; ac_bids a; ac_asks a; ac_queue a] target in
      let! s := lift (add_r p64 lm lb) in
      let! s := lift (add_r p64 s la) in
      let! s := lift (add_r p64 s lq) in
      let! t := lift (add_r p64 lt s) in
      do! set_lamports target t in
      do! set_lamports (ac_market a) 0 in
      do! set_lamports (ac_bids a) 0 in
      do! set_lamports (ac_asks a) 0 in
      set_lamports (ac_queue a) 0.

Definition process_instruction_r (ks : list N) (data : bytes) : M ledger (option summary) :=
  match data with
  | [] => panic_with PIndex
  | t :: d =>
      if t =? ix_create_market then
        let! a := lift (parse_accounts ks) in
        let! p := decode rd_create d in
        do! create_market_r a p in ret None
      else if t =? ix_new_order then
        let! a := lift (parse_accounts ks) in
        let! p := decode (rd_new_order cs) d in
        let! s := new_order_l_r a p in ret (Some s)
      else if t =? ix_consume_events then
        let! a := lift (parse_consume ks) in
        let! n := decode rd_consume d in
        do! consume_events_l_r (fst a) (snd a) n in ret None
      else if t =? ix_cancel_order then
        let! a := lift (parse_accounts ks) in
        let! id := decode rd_cancel d in
        let! s := cancel_order_l_r a id in ret (Some s)
      else if t =? ix_close_market then
        let! a := lift (parse_close ks) in
        do! close_market_r (fst a) (snd a) in ret None
      else if t =? ix_mass_cancel_orders then
        let! a := lift (parse_accounts ks) in
        let! ids := decode rd_mass_cancel d in
        let! s := mass_cancel_l_r a ids in ret (Some s)
      else fail PE_InvalidInstructionData
  end.

Definition entrypoint_r (ks : list N) (data : bytes) : M ledger (option summary) :=
  let! s := lift (unwrap (split_last ks)) in
  let! r := process_instruction_r (fst s) data in
  let! d := borrow [] (snd s) in
  let w := wr_register r in
  do! (if (length d <? length w)%nat then panic_with PUnwrap
       else set_data (snd s) (w ++ drop (length w) d)) in
  ret r.

Definition execute_r (ms : list meta) (data : bytes) (l : ledger) : res (option summary) * ledger :=
  match entrypoint_r (map mt_key ms) data l with
  | (Ok r, l') => if runtime_ok ms l l' then (Ok r, l') else (Err PE_Runtime, l)
  | (r, _) => (r, l)
  end.

End Processors.

