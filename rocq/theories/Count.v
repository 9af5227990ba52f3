(** * Count.v: the program with a counter of its work (C85)

    The functions that run when a request is processed, written again so that they also
    count: one unit for every tree node that a descent looks at, one for every turn of the
    matching loop and of the mass cancel loop, and one for every event written.  All other
    code is executed at most once per unit or per call, so the work of a request is at most
    a constant times the count.  CountProofs.v proves that without the counter they are the
    functions of Critbit.v, OrderBook.v and Market.v.

    Not counted: reading the accounts, which the program does by casting them (no copy), the
    fixed number of checks of the accounts, decoding the parameters and writing the answer. *)
From Verif Require Import Machine Critbit EventQueue OrderBook Market.

(** Computations that also return a count.  A failed computation has a count too. *)
Definition K (S A : Type) : Type := S -> (res A * S) * N.
Definition kret {S A} (a : A) : K S A := fun s => ((Ok a, s), 0).
Definition kbind {S A B} (m : K S A) (f : A -> K S B) : K S B := fun s =>
  match m s with
  | (Ok a, s', n) => let '(x, n') := f a s' in (x, n + n')
  | (Err e, s', n) => (Err e, s', n)
  | (Panic p, s', n) => (Panic p, s', n)
  | (Diverge, s', n) => (Diverge, s', n)
  end.
(** Code without a descent, a loop or an event: not counted. *)
Definition free {S A} (m : M S A) : K S A := fun s => (m s, 0).
(** One unit. *)
Definition tick {S} : K S unit := fun s => ((Ok tt, s), 1).
Definition kzoom {S T A} (proj : S -> T) (inj : T -> S -> S) (m : K T A) : K S A :=
  fun s => let '(r, t, n) := m (proj s) in (r, inj t s, n).
Notation "'let*' x ':=' m 'in' k" := (kbind m (fun x => k)) (at level 200, x binder, m at level 100, k at level 200).
Notation "'do*' m 'in' k" := (kbind m (fun _ => k)) (at level 200, m at level 100, k at level 200).

(** ** critbit.rs *)
Section Slab.
Context {C : Type}.
Implicit Types s : slab C.
Notation slab := (slab C).

(** critbit.rs:244-279: the descent of [insert_leaf], as [insert_walk]. *)
Fixpoint insert_walk_k (fuel : nat) (h : N) (parent : option (N * bool)) (key : N) : K slab insert_pos :=
  match fuel with
  | O => free (lift Diverge)
  | S fuel =>
      do* tick in
      let* s := free get in
      if is_inner h then
        let* n := free (lift (idx (inner_nodes s) (not32 h))) in
        let shared := lz128 (N.lxor (in_key n) key) in
        if as_u32 (in_plen n) <=? shared then
          let* w := free (lift (walk_down n key)) in
          insert_walk_k fuel (fst w) (Some (h, snd w)) key
        else kret (Split h shared parent)
      else
        let* l := free (lift (idx (leaf_nodes s) h)) in
        if lf_key l =? key then kret (Clobber h l)
        else kret (Split h (lz128 (N.lxor (lf_key l) key)) parent)
  end.

(** critbit.rs:227-318 [Slab::insert_leaf]. *)
Definition insert_leaf_k (new_leaf : leaf) : K slab (N * option leaf) :=
  let* s := free get in
  if leaf_count (hdr s) =? 0 then
    (* lines 231-239 *)
    free (let! h := allocate_leaf in
          do! write_leaf h new_leaf in
          let! s := get in
          let! c := lift (add_w p32 (leaf_count (hdr s)) 1) in
          do! put_hdr (set_count (set_root (hdr s) h) c) in
          ret (h, None))
  else
    let* pos := insert_walk_k walk_fuel (root_node (hdr s)) None (lf_key new_leaf) in
    match pos with
    | Clobber h old =>
        (* lines 265-268 *)
        free (do! write_leaf h new_leaf in
              ret (h, Some old))
    | Split r plen parent =>
        (* lines 280-316 *)
        free (do! lift (shift_ok plen) in
              let new_bit := crit plen (lf_key new_leaf) in
              let! lh := allocate_leaf in
              do! write_leaf lh new_leaf in
              let! ih := allocate_inner_node in
              do! write_inner (not32 ih)
                    (mk_inner (lf_key new_leaf) plen
                       (if new_bit then r else lh) (if new_bit then lh else r)) in
              do! (match parent with
                   | Some (ph, b) =>
                       let! s := get in
                       let! n := lift (idx (inner_nodes s) (not32 ph)) in
                       write_inner (not32 ph) (set_child n b ih)
                   | None =>
                       let! s := get in
                       put_hdr (set_root (hdr s) ih)
                   end) in
              let! s := get in
              let! c := lift (add_w p32 (leaf_count (hdr s)) 1) in
              do! put_hdr (set_count (hdr s) c) in
              ret (lh, None))
    end.

(** critbit.rs:368-395: the descent of [remove_by_key], as [remove_walk]. *)
Fixpoint remove_walk_k (fuel : nat) (gp : option (N * bool)) (parent child : N)
    (bit : bool) (key : N) : K slab (option remove_pos) :=
  match fuel with
  | O => free (lift Diverge)
  | S fuel =>
      do* tick in
      let* s := free get in
      if is_inner child then
        let* n := free (lift (idx (inner_nodes s) (not32 child))) in
        let* w := free (lift (walk_down n key)) in
        remove_walk_k fuel (Some (parent, bit)) child (fst w) (snd w) key
      else
        let* l := free (lift (idx (leaf_nodes s) child)) in
        if lf_key l =? key then kret (Some (mk_remove_pos gp parent child bit))
        else kret None
  end.

(** critbit.rs:330-415 [Slab::remove_by_key].  The root counts as a node looked at. *)
Definition remove_by_key_k (key : N) : K slab (option (leaf * C)) :=
  let* s := free get in
  if leaf_count (hdr s) =? 0 then kret None
  else
    let parent := root_node (hdr s) in
    do* tick in
    (* lines 341-360 *)
    let* start := free (lift
      (if is_inner parent then
         let? n := idx (inner_nodes s) (not32 parent) in
         let? w := walk_down n key in Ok (None, fst w, snd w)
       else
         let? l := idx (leaf_nodes s) parent in
         Ok (if lf_key l =? key then Some l else None, 0, false))) in
    let '(remove_root, child_h, bit) := start in
    match remove_root with
    | Some l =>
        (* lines 361-367 *)
        free (do! free_leaf parent in
              let! s := get in
              do! put_hdr (set_count (set_root (hdr s) 0) 0) in
              let! s := get in
              let! c := lift (get_callback_info s parent) in
              ret (Some (l, c)))
    | None =>
        let* pos := remove_walk_k walk_fuel None parent child_h bit key in
        match pos with
        | None => kret None
        | Some rp =>
            (* lines 397-414 *)
            free (let! n := lift (idx (inner_nodes s) (not32 (rp_parent rp))) in
                  let other := child n (negb (rp_bit rp)) in
                  do! (match rp_gp rp with
                       | Some (g, b) =>
                           let! gn := lift (idx (inner_nodes s) (not32 g)) in
                           write_inner (not32 g) (set_child gn b other)
                       | None => put_hdr (set_root (hdr s) other)
                       end) in
                  let! s := get in
                  let! cnt := lift (sub_w (leaf_count (hdr s)) 1) in
                  do! put_hdr (set_count (hdr s) cnt) in
                  let! l := lift (idx (leaf_nodes s) (rp_child rp)) in
                  do! free_leaf (rp_child rp) in
                  do! free_inner_node (rp_parent rp) in
                  let! s := get in
                  let! c := lift (get_callback_info s (rp_child rp)) in
                  ret (Some (l, c)))
        end
    end.

(** critbit.rs:422-430: the descent of [find_min_max], as [min_max_walk]. *)
Fixpoint min_max_walk_k (fuel : nat) (find_max : bool) (h : N) : K slab N :=
  match fuel with
  | O => free (lift Diverge)
  | S fuel =>
      do* tick in
      let* s := free get in
      if is_inner h then
        let* n := free (lift (idx (inner_nodes s) (not32 h))) in
        min_max_walk_k fuel find_max (child n find_max)
      else kret h
  end.
(** critbit.rs:417-441 [find_min_max], [find_min], [find_max]. *)
Definition find_min_max_k (find_max : bool) : K slab (option N) :=
  let* s := free get in
  if leaf_count (hdr s) =? 0 then kret None
  else let* h := min_max_walk_k walk_fuel find_max (root_node (hdr s)) in kret (Some h).
End Slab.

(** ** event_queue.rs, orderbook.rs *)
Section Book.
Context {C : Type} (same_id : C -> C -> bool).
Notation book := (book C).
Notation params := (params C).
Definition on_tree_k {A} (sd : side) (m : K (slab C) A) : K book A :=
  kzoom (fun b => tree b sd) (set_tree sd) m.
(** event_queue.rs:229-273 [push_back]: one event, at most two callback infos. *)
Definition push_k (ev : fill_event) (maker taker : option C) : K book unit :=
  do* tick in free (on_evq (push_back ev maker taker)).
(** orderbook.rs:79-84 [find_bbo]. *)
Definition find_bbo_k (sd : side) : K book (option N) :=
  on_tree_k sd (find_min_max_k (match sd with Bid => true | Ask => false end)).
Definition push_out_k (sd : side) (id base : N) (cb : C) : K book unit :=
  push_k (out_to_generic (mk_out_event tag_out (side_u8 sd) 0 id base)) (Some cb) None.

(** orderbook.rs:137-273: one turn of the matching loop, as [match_step]. *)
Definition match_step_k (p : params) (min_size : N) (l : locals) : K book iter_result :=
  do* tick in
  let opp := opposite (p_side p) in
  if l_limit l =? 0 then kret (ItBreak l)
  else
    let* b := free get in
    let* bbo := find_bbo_k opp in
    match bbo with
    | None => kret (ItBreak (mk_locals (l_limit l) (l_base l) (l_quote l) false))
    | Some h =>
        let* best := free (lift (idx (leaf_nodes (tree b opp)) h)) in
        let price := price_from_key (lf_key best) in
        let crossed :=
          match p_side p with
          | Bid => price <=? limit_price p
          | Ask => limit_price p <=? price
          end in
        let l1 := mk_locals (l_limit l) (l_base l) (l_quote l) crossed in
        if post_only p || negb crossed then kret (ItBreak l1)
        else
          let base_trade :=
            N.min (N.min (lf_qty best) (l_base l))
                  (unwrap_or (fp32_div (l_quote l) price) u64_max) in
          if base_trade =? 0 then kret (ItBreak l1)
          else
            let* quote_raw := free (lift
              (ok_or (match p_side p with
                      | Bid => fp32_mul_ceil base_trade price
                      | Ask => fp32_mul_floor base_trade price
                      end) NumericalOverflow)) in
            let quote := N.min quote_raw (l_quote l) in
            if quote =? 0 then kret (ItBreak l1)
            else
              let* cb := free (lift (idx (callback_infos (tree b opp)) h)) in
              let self :=
                match stb p with
                | DecrementTake => false
                | _ => same_id (p_callback p) cb
                end in
              if self then
                match stb p with
                | AbortTransaction => free (fail WouldSelfTrade)
                | DecrementTake => free (panic_with PAssert)
                | CancelProvide =>
                    do* push_out_k opp (lf_key best) (lf_qty best) cb in
                    let* r := on_tree_k opp (remove_by_key_k (lf_key best)) in
                    let* _ := free (lift (unwrap r)) in
                    let* lim := free (lift (sub_w (l_limit l) 1)) in
                    kret (ItNext (mk_locals lim (l_base l) (l_quote l) crossed))
                end
              else
                do* push_k
                      (fill_to_generic
                         (mk_fill_event tag_fill (side_u8 (p_side p)) 0 quote
                                        (lf_key best) base_trade))
                      (Some cb) (Some (p_callback p)) in
                let* q' := free (lift (sub_w (lf_qty best) base_trade)) in
                do* free (on_tree opp (write_leaf h (mk_leaf (lf_key best) q'))) in
                let* base' := free (lift (sub_w (l_base l) base_trade)) in
                let* quote' := free (lift (sub_w (l_quote l) quote)) in
                do* (if q' <? min_size then
                       let* r := on_tree_k opp (remove_by_key_k (lf_key best)) in
                       let* lc := free (lift (unwrap r)) in
                       push_out_k opp (lf_key best) q' (snd lc)
                     else kret tt) in
                let* lim := free (lift (sub_w (l_limit l) 1)) in
                kret (ItNext (mk_locals lim base' quote' crossed))
    end.

(** orderbook.rs:137: [loop], as [match_loop]. *)
Definition match_loop_k (p : params) (min_size : N) : K book locals :=
  fun b =>
    match
      loop (N.succ (match_limit p))
        (fun lbn : locals * book * N =>
           let '(l, b, n) := lbn in
           match match_step_k p min_size l b with
           | (Ok (ItNext l'), b', n') => Continue (l', b', n + n')
           | (Ok (ItBreak l'), b', n') => Done (Ok l', b', n + n')
           | (Err e, b', n') => Done (Err e, b', n + n')
           | (Panic x, b', n') => Done (Panic x, b', n + n')
           | (Diverge, b', n') => Done (Diverge, b', n + n')
           end)
        (mk_locals (match_limit p) (max_base_qty p) (max_quote_qty p) true, b, 0)
    with
    | Done r => r
    | Continue (_, b', n) => (Diverge, b', n)
    end.

(** [insert_leaf] with its error made visible (orderbook.rs:300-301). *)
Definition try_insert_k (sd : side) (lf : leaf) : K book (option N) :=
  fun b =>
    match on_tree_k sd (insert_leaf_k lf) b with
    | (Ok (h, _), b', n) => (Ok (Some h), b', n)
    | (Err SlabOutOfSpace, b', n) => (Ok None, b', n)
    | (Err _, b', n) => (Panic PUnwrap, b', n)
    | (Panic x, b', n) => (Panic x, b', n)
    | (Diverge, b', n) => (Diverge, b', n)
    end.

(** orderbook.rs:300-346, as [post_leaf]. *)
Definition post_leaf_k (p : params) (lf : leaf) : K book (option N) :=
  let sd := p_side p in
  let* r := try_insert_k sd lf in
  match r with
  | Some h => kret (Some h)
  | None =>
      let* b := free get in
      let s := tree b sd in
      let* cand := on_tree_k sd (find_min_max_k (match sd with Bid => false | Ask => true end)) in
      let* ch := free (lift (unwrap cand)) in
      let* cl := free (lift (idx (leaf_nodes s) ch)) in
      let bp := price_from_key (lf_key cl) in
      let should_boot :=
        match sd with
        | Bid => bp <? limit_price p
        | Ask => limit_price p <? bp
        end in
      if should_boot then
        let* r := on_tree_k sd (remove_by_key_k (lf_key cl)) in
        let* lc := free (lift (unwrap r)) in
        do* push_out_k sd (lf_key (fst lc)) (lf_qty (fst lc)) (snd lc) in
        let* r := try_insert_k sd lf in
        let* h := free (lift (unwrap r)) in
        kret (Some h)
      else kret None
  end.

(** orderbook.rs:114-359 [new_order]. *)
Definition new_order_k (p : params) (min_size : N) : K book summary :=
  let* l := match_loop_k p min_size in
  let to_post := N.min (unwrap_or (fp32_div (l_quote l) (limit_price p)) u64_max) (l_base l) in
  if l_crossed l || negb (post_allowed p) || (to_post <? min_size) then
    free (no_post p (l_base l) (l_quote l))
  else
    let* id := free (on_evq (gen_order_id (limit_price p) (p_side p))) in
    let* r := post_leaf_k p (mk_leaf id to_post) in
    match r with
    | None => free (no_post p (l_base l) (l_quote l))
    | Some h =>
        free (do! on_tree (p_side p) (set_callback_info h (p_callback p)) in
              let! base' := lift (sub_w (l_base l) to_post) in
              let! q := lift
                (ok_or (match p_side p with
                        | Bid => fp32_mul_ceil to_post (limit_price p)
                        | Ask => fp32_mul_floor to_post (limit_price p)
                        end) NumericalOverflow) in
              let! quote' := lift (sub_w (l_quote l) q) in
              let! tb := lift (sub_w (max_base_qty p) base') in
              let! tq := lift (sub_w (max_quote_qty p) quote') in
              ret (mk_summary (Some id) tb tq to_post))
    end.

(** ** processor/*.rs *)
Notation market := (market C).
Definition on_book_k {A} (f : K book A) : K market A := kzoom (@m_book C) (@set_m_book C) f.

(** processor/new_order.rs:132-155. *)
Definition process_new_order_k (p : params) : K market summary :=
  let* m := free get in
  if m_tick m =? 0 then free (panic_with PDivZero)
  else if negb (limit_price p mod m_tick m =? 0) then free (fail InvalidLimitPrice)
  else if post_allowed p && (limit_price p <? m_tick m) then free (fail InvalidLimitPrice)
  else on_book_k (new_order_k p (m_min m)).

(** processor/cancel_order.rs:95-110. *)
Definition process_cancel_order_k (id : N) : K market summary :=
  let* r := on_book_k (on_tree_k (side_of_id id) (remove_by_key_k id)) in
  free (let! lc := lift (ok_or r OrderNotFound) in
        let l := fst lc in
        let! q := lift (ok_or (fp32_mul_floor (lf_qty l) (price_from_key (lf_key l)))
                              NumericalOverflow) in
        ret (mk_summary None (lf_qty l) q 0)).

(** processor/mass_cancel_orders.rs:97-116. *)
Fixpoint mass_cancel_loop_k (ids : list N) (tb tq : N) : K market (N * N) :=
  match ids with
  | [] => kret (tb, tq)
  | id :: ids =>
      do* tick in
      let* r := on_book_k (on_tree_k (side_of_id id) (remove_by_key_k id)) in
      let* lc := free (lift (ok_or r OrderNotFound)) in
      let l := fst lc in
      let* tb' := free (lift (unwrap (checked_add tb (lf_qty l)))) in
      let* tq' := free (lift (unwrap
        (match fp32_mul_floor (lf_qty l) (price_from_key (lf_key l)) with
         | Some n => checked_add n tq
         | None => None
         end))) in
      mass_cancel_loop_k ids tb' tq'
  end.
Definition process_mass_cancel_k (ids : list N) : K market summary :=
  let* t := mass_cancel_loop_k ids 0 0 in
  kret (mk_summary None (fst t) (snd t) 0).

(** processor/consume_events.rs:81-95: no loop, whatever the number of events. *)
Definition process_consume_events_k (n : N) : K market unit :=
  free (on_book (on_evq (pop_n n))).

(** processor.rs:33-75, as [process]. *)
Definition process_k (o : op C) : K market (option summary) :=
  match o with
  | NewOrder p => let* s := process_new_order_k p in kret (Some s)
  | CancelOrder id => let* s := process_cancel_order_k id in kret (Some s)
  | MassCancelOrders ids => let* s := process_mass_cancel_k ids in kret (Some s)
  | ConsumeEvents n => do* process_consume_events_k n in kret None
  end.

(** The work of a request on a market. *)
Definition work (o : op C) (m : market) : N := snd (process_k o m).
End Book.
