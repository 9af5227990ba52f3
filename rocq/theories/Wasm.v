(** * Wasm.v: the WebAssembly helper (js/wasm)

    Models js/wasm/src/lib.rs and the part of js/wasm/src/critbit.rs that it uses.  The
    crate reads the accounts of an older version of the program, in which one array of
    slots holds all nodes.  The target is wasm32 in release mode: [usize] has 32 bits and
    arithmetic wraps.  An [Err] is [None].  The rest of critbit.rs, which nothing
    exported calls (slots, removal, [find_node_sequence], the header), is in WasmTree.v. *)
From Verif Require Import Machine Bytes Layout.

Definition as_usize (x : N) : N := x mod 4294967296.

(** critbit.rs:16-21 [InnerNode], 49-54 [LeafNode], 108-111 [FreeNode], 113-120 [Node]. *)
Record w_inner := mk_w_inner { wi_plen : N; wi_key : N; wi_c0 : N; wi_c1 : N }.
Record w_leaf := mk_w_leaf { wl_key : N; wl_cb : bytes; wl_qty : N }.
Inductive w_node :=
| WUninitialized | WInner (n : w_inner) | WLeaf (l : w_leaf) | WFree (next : N) | WLastFree (next : N).

(** critbit.rs:64-81 [LeafNode::deserialize]: the ranges panic on short buffers. *)
Definition w_leaf_read (cs : nat) (buf : bytes) : res w_leaf :=
  if (length buf <? cs + 24)%nat then Panic PIndex
  else Ok (mk_w_leaf (le_dec (slice buf 0 16)) (slice buf 16 cs) (le_dec (slice buf (16 + cs) 8))).
(** Borsh: u32, u128, two u32 (critbit.rs:16-21); an error on short buffers. *)
Definition w_inner_read (buf : bytes) : option w_inner :=
  if (length buf <? 28)%nat then None
  else Some (mk_w_inner (le_dec (slice buf 0 4)) (le_dec (slice buf 4 16))
               (le_dec (slice buf 20 4)) (le_dec (slice buf 24 4))).
Definition w_free_read (buf : bytes) : option N :=
  if (length buf <? 4)%nat then None else Some (le_dec (slice buf 0 4)).
(** critbit.rs:123-136 [Node::deserialize] *)
Definition w_node_read (cs : nat) (buf : bytes) : res (option w_node) :=
  match buf with
  | [] => Panic PIndex
  | t :: buf =>
      if t =? 0 then Ok (Some WUninitialized)
      else if t =? 1 then Ok (WInner <$> w_inner_read buf)
      else if t =? 2 then let? l := w_leaf_read cs buf in Ok (Some (WLeaf l))
      else if t =? 3 then Ok (WFree <$> w_free_read buf)
      else if t =? 4 then Ok (WLastFree <$> w_free_read buf)
      else Ok None
  end.

(** critbit.rs:193-203 [SlabHeader], read by Borsh: 65 bytes (204); the tag is an enum
    with five variants (32-40). *)
Record w_header := mk_w_header {
  wh_tag : N; wh_bump : N; wh_free_len : N; wh_free_head : N; wh_root : N; wh_leaf_count : N; wh_market : bytes }.
Definition w_header_len : N := 65.
Definition w_header_read (buf : bytes) : option w_header :=
  if (length buf <? 65)%nat then None
  else
    let t := le_dec (slice buf 0 1) in
    if t <? 5 then
      Some (mk_w_header t (le_dec (slice buf 1 8)) (le_dec (slice buf 9 8)) (le_dec (slice buf 17 4))
              (le_dec (slice buf 21 4)) (le_dec (slice buf 25 8)) (slice buf 33 32))
    else None.

(** critbit.rs:206-211 [Slab] and 222-233 [Slab::new] *)
Record w_slab := mk_w_slab { ws_header : w_header; ws_buffer : bytes; ws_cs : nat; ws_slot : N }.
Definition w_new (data : bytes) (cs : nat) (slot : N) : res w_slab :=
  let? h := unwrap (w_header_read data) in Ok (mk_w_slab h data cs slot).
(** critbit.rs:252-261 [get_node] *)
Definition w_get_node (s : w_slab) (h : N) : res (option w_node) :=
  let offset := as_usize (w_header_len + as_usize (h * ws_slot s)) in
  let stop := as_usize (offset + ws_slot s) in
  if (stop <? offset) || (N.of_nat (length (ws_buffer s)) <? stop) then Panic PIndex
  else w_node_read (ws_cs s) (slice (ws_buffer s) (N.to_nat offset) (N.to_nat (stop - offset))).
Definition w_node_at (s : w_slab) (h : N) : res w_node :=
  let? o := w_get_node s h in unwrap o.
(** critbit.rs:328-334 [root] *)
Definition w_root (s : w_slab) : option N :=
  if wh_leaf_count (ws_header s) =? 0 then None else Some (wh_root (ws_header s)).

(** critbit.rs:336-356 [find_min_max], [find_min] and [find_max].  [fuel] bounds the number
    of turns of the loop, which may not end on a malformed account. *)
Fixpoint w_find_loop (fuel : nat) (s : w_slab) (find_max : bool) (root : N) : res (option N) :=
  match fuel with
  | O => Diverge
  | S fuel =>
      let? node := w_node_at s root in
      match node with
      | WInner n => w_find_loop fuel s find_max (if find_max then wi_c1 n else wi_c0 n)
      | _ => Ok (Some root)
      end
  end.
Definition w_find_min_max (fuel : nat) (s : w_slab) (find_max : bool) : res (option N) :=
  match w_root s with None => Ok None | Some r => w_find_loop fuel s find_max r end.

(** critbit.rs:95-97 [LeafNode::price] *)
Definition w_price (l : w_leaf) : N := as_u64 (N.shiftr (wl_key l) 64).
(** critbit.rs:399-407: a leaf in [find_l2_depth]. *)
Definition w_add_leaf (result : list N) (l : w_leaf) : list N :=
  if (match last result with Some p => p =? w_price l | None => false end) then
    let i := (length result - 2)%nat in
    match result !! i with
    | Some q => <[i := as_u64 (q + wl_qty l)]> result
    | None => result
    end
  else result ++ [wl_qty l; w_price l].
(** critbit.rs:381-413 [find_l2_depth].  The stack is listed from its top; [bound] is
    [2 * depth], and [Vec::with_capacity] panics when it needs 2^31 bytes or more. *)
Fixpoint w_l2_loop (fuel : nat) (s : w_slab) (bound : N) (increasing : bool) (result : list N) (stack : list N)
    : res (list N) :=
  match fuel with
  | O => Diverge
  | S fuel =>
      if N.of_nat (length result) =? bound then Ok result
      else
        match stack with
        | [] => Ok result
        | current :: stack =>
            let? node := w_node_at s current in
            match node with
            | WInner n =>
                w_l2_loop fuel s bound increasing result
                  (if increasing then wi_c0 n :: wi_c1 n :: stack else wi_c1 n :: wi_c0 n :: stack)
            | WLeaf l => w_l2_loop fuel s bound increasing (w_add_leaf result l) stack
            | _ => Panic PAssert
            end
        end
  end.
Definition w_find_l2_depth (fuel : nat) (s : w_slab) (depth : N) (increasing : bool) : res (list N) :=
  match w_root s with
  | None => Ok []
  | Some r =>
      let bound := as_usize (2 * depth) in
      if 2147483648 <=? 8 * bound then Panic PIndex
      else w_l2_loop fuel s bound increasing [] [r]
  end.

(** lib.rs:17-51, the exported functions. *)
Definition wasm_find_max (fuel : nat) (data : bytes) (callback_info_len slot_size : N) : res (option N) :=
  let? s := w_new data (N.to_nat (as_usize callback_info_len)) (as_usize slot_size) in w_find_min_max fuel s true.
Definition wasm_find_min (fuel : nat) (data : bytes) (callback_info_len slot_size : N) : res (option N) :=
  let? s := w_new data (N.to_nat (as_usize callback_info_len)) (as_usize slot_size) in w_find_min_max fuel s false.
Definition wasm_find_l2_depth (fuel : nat) (data : bytes) (callback_info_len slot_size depth : N)
    (increasing : bool) : res (list N) :=
  let? s := w_new data (N.to_nat (as_usize callback_info_len)) (as_usize slot_size) in
  w_find_l2_depth fuel s (as_usize depth) increasing.
