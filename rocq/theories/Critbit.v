(** * Critbit.v: model of program/src/state/critbit.rs *)
From Verif Require Import Machine.

(** critbit.rs:13-26 [SlabHeader].  All fields are u32. *)
Record header := mk_header {
  leaf_free_list_len : N;
  leaf_free_list_head : N;
  leaf_bump_index : N;
  inner_node_free_list_len : N;
  inner_node_free_list_head : N;
  inner_node_bump_index : N;
  root_node : N;
  leaf_count : N;
}.

(** critbit.rs:38-48 [LeafNode]; key is a u128 (off-chain builds keep it as two
    u64 halves, same value), base_quantity a u64. *)
Record leaf := mk_leaf { lf_key : N; lf_qty : N }.

(** critbit.rs:83-89 [InnerNode]; [children] is a two-element array, here two fields. *)
Record inner := mk_inner { in_key : N; in_plen : N; in_c0 : N; in_c1 : N }.

(** critbit.rs:54-62,74-76 [LeafNode::price], [LeafNode::price_from_key]:
    [(key >> 64) as u64]. *)
Definition price_from_key (k : N) : N := N.shiftr k 64 mod p64.

(** critbit.rs:82 *)
Definition INNER_FLAG : N := p31.

(** critbit.rs:107-113 [Node::from_handle]: bit 31 of the handle. *)
Definition is_inner (h : N) : bool := N.testbit h 31.

(** [(1u128 << 127) >> n] used as a mask on [k]: true iff bit [127-n] is set.
    critbit.rs:95-96, 285-289.  (For [n >= 128] see [shift_ok].) *)
Definition crit (n k : N) : bool := if n <? 128 then N.testbit k (127 - n) else false.
(** Shifting a u128 by 128 or more overflows: a panic in the debug profile
    (critbit.rs:95, 285 and, in the structural check, 517, 524, 528, 539, 542). *)
Definition shift_ok (n : N) : res unit := if n <? 128 then Ok tt else Panic POverflow.

(** Reading [children[b as usize]]. *)
Definition child (n : inner) (b : bool) : N := if b then in_c1 n else in_c0 n.
Definition set_child (n : inner) (b : bool) (h : N) : inner :=
  if b then mk_inner (in_key n) (in_plen n) (in_c0 n) h
  else mk_inner (in_key n) (in_plen n) h (in_c1 n).

(** critbit.rs:94-98 [InnerNode::walk_down]. *)
Definition walk_down (n : inner) (k : N) : res (N * bool) :=
  let? _ := shift_ok (in_plen n) in
  let b := crit (in_plen n) k in Ok (child n b, b).

(** Fuel for root-to-leaf walks: 128 inner nodes and one leaf. *)
Definition walk_fuel : nat := 129.

Section Slab.
Context {C : Type}.

(** critbit.rs:32-37 [Slab]: the views over the account bytes. *)
Record slab := mk_slab {
  hdr : header;
  leaf_nodes : list leaf;
  inner_nodes : list inner;
  callback_infos : list C;
}.

Definition set_hdr (s : slab) (h : header) : slab :=
  mk_slab h (leaf_nodes s) (inner_nodes s) (callback_infos s).
Definition set_leaf_nodes (s : slab) (l : list leaf) : slab :=
  mk_slab (hdr s) l (inner_nodes s) (callback_infos s).
Definition set_inner_nodes (s : slab) (l : list inner) : slab :=
  mk_slab (hdr s) (leaf_nodes s) l (callback_infos s).
Definition set_callback_infos (s : slab) (l : list C) : slab :=
  mk_slab (hdr s) (leaf_nodes s) (inner_nodes s) l.

(** Field updates of the header. *)
Definition set_leaf_alloc (h : header) (len head bump : N) : header :=
  mk_header len head bump (inner_node_free_list_len h) (inner_node_free_list_head h)
            (inner_node_bump_index h) (root_node h) (leaf_count h).
Definition set_inner_alloc (h : header) (len head bump : N) : header :=
  mk_header (leaf_free_list_len h) (leaf_free_list_head h) (leaf_bump_index h)
            len head bump (root_node h) (leaf_count h).
Definition set_root (h : header) (r : N) : header :=
  mk_header (leaf_free_list_len h) (leaf_free_list_head h) (leaf_bump_index h)
            (inner_node_free_list_len h) (inner_node_free_list_head h)
            (inner_node_bump_index h) r (leaf_count h).
Definition set_count (h : header) (c : N) : header :=
  mk_header (leaf_free_list_len h) (leaf_free_list_head h) (leaf_bump_index h)
            (inner_node_free_list_len h) (inner_node_free_list_head h)
            (inner_node_bump_index h) (root_node h) c.

(** Array writes, with Rust's bounds check. *)
Definition write_leaf (i : N) (l : leaf) : M slab unit :=
  let! s := get in
  let! ls := lift (upd (leaf_nodes s) i l) in
  put (set_leaf_nodes s ls).
Definition write_inner (i : N) (n : inner) : M slab unit :=
  let! s := get in
  let! ns := lift (upd (inner_nodes s) i n) in
  put (set_inner_nodes s ns).
Definition put_hdr (h : header) : M slab unit := modify (fun s => set_hdr s h).

(** critbit.rs:162-168 [Slab::root]. *)
Definition root (s : slab) : option N :=
  if leaf_count (hdr s) =? 0 then None else Some (root_node (hdr s)).

(** critbit.rs:169-186 [Slab::allocate_leaf].  The io error is reported as
    SlabOutOfSpace, which is what both callers map it to (lines 233, 286). *)
Definition allocate_leaf : M slab N :=
  let! s := get in
  let h := hdr s in
  if leaf_free_list_len h =? 0 then
    if N.of_nat (length (leaf_nodes s)) <=? leaf_bump_index h then
      fail SlabOutOfSpace
    else
      let key := leaf_bump_index h in
      let! b := lift (add_w p32 (leaf_bump_index h) 1) in
      do! put_hdr (set_leaf_alloc h (leaf_free_list_len h) (leaf_free_list_head h) b) in
      ret key
  else
    let key := leaf_free_list_head h in
    let! free := lift (idx (leaf_nodes s) key) in
    let next := as_u32 (lf_qty free) in
    let! len := lift (sub_w (leaf_free_list_len h) 1) in
    do! put_hdr (set_leaf_alloc h len next (leaf_bump_index h)) in
    ret key.

(** critbit.rs:188-196 [Slab::free_leaf]. *)
Definition free_leaf (handle : N) : M slab unit :=
  let! s := get in
  let h := hdr s in
  do! (if leaf_free_list_len h =? 0 then ret tt
       else
         let! l := lift (idx (leaf_nodes s) handle) in
         write_leaf handle (mk_leaf (lf_key l) (leaf_free_list_head h))) in
  let! len := lift (add_w p32 (leaf_free_list_len h) 1) in
  put_hdr (set_leaf_alloc h len handle (leaf_bump_index h)).

(** critbit.rs:198-215 [Slab::allocate_inner_node].  Its only caller unwraps the
    result (line 289): the io error is a panic here. *)
Definition allocate_inner_node : M slab N :=
  let! s := get in
  let h := hdr s in
  if inner_node_free_list_len h =? 0 then
    if N.of_nat (length (inner_nodes s)) <=? inner_node_bump_index h then
      panic_with PUnwrap
    else
      let key := inner_node_bump_index h in
      let! b := lift (add_w p32 (inner_node_bump_index h) 1) in
      do! put_hdr (set_inner_alloc h (inner_node_free_list_len h)
                                     (inner_node_free_list_head h) b) in
      ret (not32 key)
  else
    let key := inner_node_free_list_head h in
    let! free := lift (idx (inner_nodes s) key) in
    let next := as_u32 (in_plen free) in
    let! len := lift (sub_w (inner_node_free_list_len h) 1) in
    do! put_hdr (set_inner_alloc h len next (inner_node_bump_index h)) in
    ret (not32 key).

(** critbit.rs:217-225 [Slab::free_inner_node]. *)
Definition free_inner_node (handle : N) : M slab unit :=
  let! s := get in
  let h := hdr s in
  do! (if inner_node_free_list_len h =? 0 then ret tt
       else
         let! n := lift (idx (inner_nodes s) (not32 handle)) in
         write_inner (not32 handle)
           (mk_inner (in_key n) (inner_node_free_list_head h) (in_c0 n) (in_c1 n))) in
  let! len := lift (add_w p32 (inner_node_free_list_len h) 1) in
  put_hdr (set_inner_alloc h len (not32 handle) (inner_node_bump_index h)).

(** The read-only part of the loop of [insert_leaf] (critbit.rs:244-279): where the
    descent stops, and what it remembers of the way. *)
Inductive insert_pos :=
| Clobber (h : N) (old : leaf)
| Split (h : N) (plen : N) (parent : option (N * bool)).

(** critbit.rs:244-279: the loop of [insert_leaf] up to its exit.  [parent]
    stands for the pair [parent_node], [previous_critbit], which are always set
    together (lines 253, 259).  Off-chain, line 269 compares the two-word keys,
    which is equality of the u128 values. *)
Fixpoint insert_walk (fuel : nat) (s : slab) (h : N) (parent : option (N * bool))
    (key : N) : res insert_pos :=
  match fuel with
  | O => Diverge
  | S fuel =>
      if is_inner h then
        let? n := idx (inner_nodes s) (not32 h) in
        let shared := lz128 (N.lxor (in_key n) key) in
        if as_u32 (in_plen n) <=? shared then
          let? w := walk_down n key in
          insert_walk fuel s (fst w) (Some (h, snd w)) key
        else Ok (Split h shared parent)
      else
        let? l := idx (leaf_nodes s) h in
        if lf_key l =? key then Ok (Clobber h l)
        else Ok (Split h (lz128 (N.lxor (lf_key l) key)) parent)
  end.

(** critbit.rs:227-318 [Slab::insert_leaf].  Returns the handle of the leaf and
    the replaced leaf, if any. *)
Definition insert_leaf (new_leaf : leaf) : M slab (N * option leaf) :=
  let! s := get in
  if leaf_count (hdr s) =? 0 then
    (* lines 231-239 *)
    let! h := allocate_leaf in
    do! write_leaf h new_leaf in
    let! s := get in
    let! c := lift (add_w p32 (leaf_count (hdr s)) 1) in
    do! put_hdr (set_count (set_root (hdr s) h) c) in
    ret (h, None)
  else
    let! pos := lift (insert_walk walk_fuel s (root_node (hdr s)) None (lf_key new_leaf)) in
    match pos with
    | Clobber h old =>
        (* lines 265-268 *)
        do! write_leaf h new_leaf in
        ret (h, Some old)
    | Split r plen parent =>
        (* lines 280-316 *)
        do! lift (shift_ok plen) in
        let new_bit := crit plen (lf_key new_leaf) in
        let! lh := allocate_leaf in
        do! write_leaf lh new_leaf in
        let! ih := allocate_inner_node in
        do! write_inner (not32 ih)
              (mk_inner (lf_key new_leaf) plen
                 (if new_bit then r else lh) (if new_bit then lh else r)) in
        do! (match parent with
             | Some (ph, b) =>
                 let! s := get in
                 let! n := lift (idx (inner_nodes s) (not32 ph)) in
                 write_inner (not32 ph) (set_child n b ih)
             | None =>
                 let! s := get in
                 put_hdr (set_root (hdr s) ih)
             end) in
        let! s := get in
        let! c := lift (add_w p32 (leaf_count (hdr s)) 1) in
        do! put_hdr (set_count (hdr s) c) in
        ret (lh, None)
    end.

(** critbit.rs:321-323 [Slab::get_callback_info]. *)
Definition get_callback_info (s : slab) (h : N) : res C := idx (callback_infos s) h.

(** critbit.rs:326-328 [Slab::get_callback_info_mut], as used: [*get_callback_info_mut(h) = c]. *)
Definition set_callback_info (h : N) (c : C) : M slab unit :=
  let! s := get in
  let! cs := lift (upd (callback_infos s) h c) in
  put (set_callback_infos s cs).

(** Result of the loop of [remove_by_key]: the leaf to remove, its parent and the
    link from the grandparent. *)
Record remove_pos := mk_remove_pos {
  rp_gp : option (N * bool);   (* grandparent_h, prev_crit_bit *)
  rp_parent : N;
  rp_child : N;
  rp_bit : bool;               (* crit_bit *)
}.

(** critbit.rs:368-395: the loop of [remove_by_key] (read-only). *)
Fixpoint remove_walk (fuel : nat) (s : slab) (gp : option (N * bool)) (parent child : N)
    (bit : bool) (key : N) : res (option remove_pos) :=
  match fuel with
  | O => Diverge
  | S fuel =>
      if is_inner child then
        let? n := idx (inner_nodes s) (not32 child) in
        let? w := walk_down n key in
        remove_walk fuel s (Some (parent, bit)) child (fst w) (snd w) key
      else
        let? l := idx (leaf_nodes s) child in
        if lf_key l =? key then Ok (Some (mk_remove_pos gp parent child bit))
        else Ok None
  end.

(** critbit.rs:330-415 [Slab::remove_by_key].  Note lines 334-335: when the root
    is a leaf with another key, the loop is entered with [child_h = 0] and
    [crit_bit = false]. *)
Definition remove_by_key (key : N) : M slab (option (leaf * C)) :=
  let! s := get in
  if leaf_count (hdr s) =? 0 then ret None
  else
    let parent := root_node (hdr s) in
    (* lines 341-360 *)
    let! start := lift
      (if is_inner parent then
         let? n := idx (inner_nodes s) (not32 parent) in
         let? w := walk_down n key in Ok (None, fst w, snd w)
       else
         let? l := idx (leaf_nodes s) parent in
         Ok (if lf_key l =? key then Some l else None, 0, false)) in
    let '(remove_root, child_h, bit) := start in
    match remove_root with
    | Some l =>
        (* lines 361-367 *)
        do! free_leaf parent in
        let! s := get in
        do! put_hdr (set_count (set_root (hdr s) 0) 0) in
        let! s := get in
        let! c := lift (get_callback_info s parent) in
        ret (Some (l, c))
    | None =>
        let! pos := lift (remove_walk walk_fuel s None parent child_h bit key) in
        match pos with
        | None => ret None
        | Some rp =>
            (* lines 397-414 *)
            let! n := lift (idx (inner_nodes s) (not32 (rp_parent rp))) in
            let other := child n (negb (rp_bit rp)) in
            do! (match rp_gp rp with
                 | Some (g, b) =>
                     let! gn := lift (idx (inner_nodes s) (not32 g)) in
                     write_inner (not32 g) (set_child gn b other)
                 | None => put_hdr (set_root (hdr s) other)
                 end) in
            let! s := get in
            let! cnt := lift (sub_w (leaf_count (hdr s)) 1) in
            do! put_hdr (set_count (hdr s) cnt) in
            let! l := lift (idx (leaf_nodes s) (rp_child rp)) in
            do! free_leaf (rp_child rp) in
            do! free_inner_node (rp_parent rp) in
            let! s := get in
            let! c := lift (get_callback_info s (rp_child rp)) in
            ret (Some (l, c))
        end
    end.

(** critbit.rs:422-430: the loop of [find_min_max]. *)
Fixpoint min_max_walk (fuel : nat) (s : slab) (find_max : bool) (h : N) : res N :=
  match fuel with
  | O => Diverge
  | S fuel =>
      if is_inner h then
        let? n := idx (inner_nodes s) (not32 h) in
        min_max_walk fuel s find_max (child n find_max)
      else Ok h
  end.

(** critbit.rs:417-441 [find_min_max], [find_min], [find_max]. *)
Definition find_min_max (s : slab) (find_max : bool) : res (option N) :=
  if leaf_count (hdr s) =? 0 then Ok None
  else let? h := min_max_walk walk_fuel s find_max (root_node (hdr s)) in Ok (Some h).
Definition find_min (s : slab) : res (option N) := find_min_max s false.
Definition find_max (s : slab) : res (option N) := find_min_max s true.

(** critbit.rs:608-634: the loop of [find_by_key]. *)
Fixpoint find_walk (fuel : nat) (s : slab) (h key : N) : res (option N) :=
  match fuel with
  | O => Diverge
  | S fuel =>
      if is_inner h then
        let? n := idx (inner_nodes s) (not32 h) in
        if lz128 (N.lxor key (in_key n)) <? as_u32 (in_plen n) then Ok None
        else let? w := walk_down n key in find_walk fuel s (fst w) key
      else
        let? l := idx (leaf_nodes s) h in
        if key =? lf_key l then Ok (Some h) else Ok None
  end.

(** critbit.rs:606-635 [Slab::find_by_key]. *)
Definition find_by_key (s : slab) (key : N) : res (option N) :=
  match root s with
  | None => Ok None
  | Some r => find_walk walk_fuel s r key
  end.

(** critbit.rs:676-688 [SlabIterator::next]: the stack is a list, its top first. *)
Fixpoint iter_next (fuel : nat) (s : slab) (ascending : bool) (stack : list N)
    : res (option leaf * list N) :=
  match fuel with
  | O => Diverge
  | S fuel =>
      match stack with
      | [] => Ok (None, [])
      | cur :: stack =>
          if is_inner cur then
            let? n := idx (inner_nodes s) (not32 cur) in
            iter_next fuel s ascending
              (child n (negb ascending) :: child n ascending :: stack)
          else
            let? l := idx (leaf_nodes s) cur in Ok (Some l, stack)
      end
  end.

(** Collecting an iterator: repeated [next] until None. *)
Fixpoint iter_collect (fuel : nat) (s : slab) (ascending : bool) (stack : list N)
    : res (list leaf) :=
  match fuel with
  | O => Diverge
  | S fuel' =>
      let? r := iter_next fuel s ascending stack in
      match r with
      | (None, _) => Ok []
      | (Some l, stack) =>
          let? rest := iter_collect fuel' s ascending stack in Ok (l :: rest)
      end
  end.

(** critbit.rs:444-453 [Slab::into_iter], collected into a list. *)
Definition iterate (s : slab) (ascending : bool) : res (list leaf) :=
  iter_collect (2 * length (leaf_nodes s) + 2) s ascending
    (if leaf_count (hdr s) =? 0 then [] else [root_node (hdr s)]).

(** critbit.rs:640-664 [Slab::traverse] (a test helper in the code, the reference
    reading of a slab here): all orders with their callback infos, in tree order. *)
Fixpoint walk_rec (fuel : nat) (s : slab) (h : N) : res (list (leaf * C)) :=
  match fuel with
  | O => Diverge
  | S fuel =>
      if is_inner h then
        let? n := idx (inner_nodes s) (not32 h) in
        let? l0 := walk_rec fuel s (in_c0 n) in
        let? l1 := walk_rec fuel s (in_c1 n) in
        Ok (l0 ++ l1)
      else
        let? c := get_callback_info s h in
        let? l := idx (leaf_nodes s) h in
        Ok [(l, c)]
  end.
Definition traverse (s : slab) : res (list (leaf * C)) :=
  match root s with
  | None => Ok []
  | Some r => walk_rec walk_fuel s r
  end.

(** The depth computation of critbit.rs:458-475 [Slab::get_depth] (feature
    "utils"), with its explicit stack. *)
Fixpoint depth_loop (fuel : nat) (s : slab) (stack : list (N * N)) (mx : N) : res N :=
  match fuel with
  | O => Diverge
  | S fuel =>
      match stack with
      | [] => Ok mx
      | (cur, d) :: stack =>
          if is_inner cur then
            let? n := idx (inner_nodes s) (not32 cur) in
            depth_loop fuel s ((in_c1 n, d + 1) :: (in_c0 n, d + 1) :: stack) mx
          else depth_loop fuel s stack (N.max d mx)
      end
  end.
Definition get_depth (s : slab) : res N :=
  if leaf_count (hdr s) =? 0 then Ok 0
  else depth_loop (2 * length (leaf_nodes s) + 2) s [(root_node (hdr s), 1)] 0.

(** A slab as [Slab::from_buffer] (critbit.rs:138-158) presents a zeroed account
    with [n+1] leaf slots: [n] inner nodes, and callback infos all equal to the
    zero value [z].  [extra] callback slots may remain at the end of the account. *)
Definition zero_header : header := mk_header 0 0 0 0 0 0 0 0.
Definition empty_slab (z : C) (leaves extra : nat) : slab :=
  mk_slab zero_header (replicate leaves (mk_leaf 0 0))
          (replicate (leaves - 1) (mk_inner 0 0 0 0))
          (replicate (leaves + extra) z).

End Slab.
Global Arguments slab : clear implicits.
