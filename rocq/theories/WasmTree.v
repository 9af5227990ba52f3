(** * WasmTree.v: the rest of js/wasm/src/critbit.rs

    The functions of the crate that write: allocation and release of slots, removal from
    the tree, writing the header; and the remaining readers.  Nothing exported by the
    crate calls them, they belong to the older version of the program that the crate was
    copied from.  Conventions of Wasm.v: wasm32 in release mode (arithmetic wraps), an
    [Err] is [None], loops have fuel. *)
From Verif Require Import Machine Bytes Layout Critbit Check Wasm.

(** critbit.rs:57-62 [LeafNode::serialize], 138-156 [Node::serialize] *)
Definition w_node_bytes (n : w_node) : bytes :=
  match n with
  | WUninitialized => [0]
  | WInner n => [1] ++ le_enc 4 (wi_plen n) ++ le_enc 16 (wi_key n) ++ le_enc 4 (wi_c0 n) ++ le_enc 4 (wi_c1 n)
  | WLeaf l => [2] ++ le_enc 16 (wl_key l) ++ wl_cb l ++ le_enc 8 (wl_qty l)
  | WFree next => [3] ++ le_enc 4 next
  | WLastFree next => [4] ++ le_enc 4 next
  end.
(** Writing [b] to [&mut buffer[off..]] with [write_all]: what does not fit is dropped and
    the last call reports an error. *)
Definition w_overwrite (data : bytes) (off : nat) (b : bytes) : bytes :=
  take off data ++ take (length data - off) b ++ drop (off + length b) data.

Definition w_set_header (h : w_header) (s : w_slab) : w_slab :=
  mk_w_slab h (ws_buffer s) (ws_cs s) (ws_slot s).
Definition w_set_buffer (b : bytes) (s : w_slab) : w_slab :=
  mk_w_slab (ws_header s) b (ws_cs s) (ws_slot s).
Definition w_set_bump (x : N) (h : w_header) : w_header :=
  mk_w_header (wh_tag h) x (wh_free_len h) (wh_free_head h) (wh_root h) (wh_leaf_count h) (wh_market h).
Definition w_set_free (len head : N) (h : w_header) : w_header :=
  mk_w_header (wh_tag h) (wh_bump h) len head (wh_root h) (wh_leaf_count h) (wh_market h).
Definition w_set_tree (root count : N) (h : w_header) : w_header :=
  mk_w_header (wh_tag h) (wh_bump h) (wh_free_len h) (wh_free_head h) root count (wh_market h).
Definition w_header_do (f : w_header -> w_header) : M w_slab unit :=
  modify (fun s => w_set_header (f (ws_header s)) s).

(** critbit.rs:215-220 [check]; [is_bid] is the side. *)
Definition w_check (s : w_slab) (is_bid : bool) : bool := wh_tag (ws_header s) =? (if is_bid then 3 else 4).
(** critbit.rs:235-239 [write_header]: Borsh, 65 bytes. *)
Definition w_header_bytes (h : w_header) : bytes :=
  [wh_tag h] ++ le_enc 8 (wh_bump h) ++ le_enc 8 (wh_free_len h) ++ le_enc 4 (wh_free_head h) ++
  le_enc 4 (wh_root h) ++ le_enc 8 (wh_leaf_count h) ++ wh_market h.
Definition w_write_header : M w_slab unit :=
  let! s := get in
  if (length (ws_buffer s) <? 65)%nat then panic_with PIndex
  else put (w_set_buffer (w_overwrite (ws_buffer s) 0 (w_header_bytes (ws_header s))) s).
(** critbit.rs:241-243 [compute_slot_size]; INNER_NODE_SIZE is 32 (84). *)
Definition w_slot_size (cs : N) : N := N.max (cs + 8 + 16 + 1) 32.
(** critbit.rs:248-250 [capacity]: the subtraction wraps on accounts shorter than a header. *)
Definition w_capacity (s : w_slab) : res N :=
  if ws_slot s =? 0 then Panic PDivZero
  else Ok ((N.of_nat (length (ws_buffer s)) + p32 - 65) mod p32 / ws_slot s).
(** critbit.rs:263-266 [write_node] *)
Definition w_write_node (n : w_node) (key : N) : M w_slab (option unit) :=
  let! s := get in
  let off := as_usize (w_header_len + as_usize (key * ws_slot s)) in
  let len := N.of_nat (length (ws_buffer s)) in
  if len <? off then panic_with PIndex
  else
    do! put (w_set_buffer (w_overwrite (ws_buffer s) (N.to_nat off) (w_node_bytes n)) s) in
    ret (if off + N.of_nat (length (w_node_bytes n)) <=? len then Some tt else None).
Definition w_write_node_unwrap (n : w_node) (key : N) : M w_slab unit :=
  let! r := w_write_node n key in lift (unwrap r).

(** critbit.rs:268-305 [insert]: takes a slot and writes the node there. *)
Definition w_insert (val : w_node) : M w_slab (option N) :=
  let! s := get in
  let h := ws_header s in
  if wh_free_len h =? 0 then
    let! cap := lift (w_capacity s) in
    if as_usize (wh_bump h) =? cap then ret None
    else if wh_bump h =? p32 - 1 then ret None
    else
      let key := as_u32 (wh_bump h) in
      do! w_header_do (w_set_bump (as_u64 (wh_bump h + 1))) in
      let! r := w_write_node val key in
      ret (match r with Some _ => Some key | None => None end)
  else
    let key := wh_free_head h in
    let! node := lift (w_node_at s key) in
    let! next := lift (match node with
      | WFree next => if 1 <? wh_free_len h then Ok next else Panic PAssert
      | WLastFree next => if wh_free_len h =? 1 then Ok next else Panic PAssert
      | _ => Panic PAssert
      end) in
    do! w_header_do (w_set_free (wh_free_len h - 1) next) in
    do! w_write_node_unwrap val key in
    ret (Some key).
(** critbit.rs:307-324 [remove]: puts a slot on the free list, returns what it held. *)
Definition w_remove (key : N) : M w_slab (option w_node) :=
  let! s := get in
  let h := ws_header s in
  let! o := lift (w_get_node s key) in
  match o with
  | None => ret None
  | Some val =>
      let next := wh_free_head h in
      do! w_write_node_unwrap (if wh_free_len h =? 0 then WLastFree next else WFree next) key in
      do! w_header_do (w_set_free (as_u64 (wh_free_len h + 1)) key) in
      ret (Some val)
  end.
Definition w_remove_unwrap (key : N) : M w_slab w_node :=
  let! r := w_remove key in lift (unwrap r).

(** critbit.rs:42-46 [InnerNode::walk_down]: the shift distance counts modulo 128. *)
Definition w_walk_down (n : w_inner) (k : N) : N * bool :=
  let b := negb (N.land k (N.shiftr (N.shiftl 1 127) (wi_plen n mod 128)) =? 0) in
  (if b then wi_c1 n else wi_c0 n, b).
(** critbit.rs:87-93 [LeafNode::new], 103-105 [set_base_quantity], 182-187 [as_leaf] *)
Definition w_leaf_new (key : N) (cb : bytes) (quantity : N) : w_leaf := mk_w_leaf key cb quantity.
Definition w_set_base_quantity (quantity : N) (l : w_leaf) : w_leaf := mk_w_leaf (wl_key l) (wl_cb l) quantity.
Definition w_as_leaf (n : w_node) : option w_leaf := match n with WLeaf l => Some l | _ => None end.
(** critbit.rs:158-189 [key], [prefix_len], [children] *)
Definition w_key (n : w_node) : option N :=
  match n with WInner n => Some (wi_key n) | WLeaf l => Some (wl_key l) | _ => None end.
Definition w_prefix_len (n : w_node) : option N :=
  match n with WInner n => Some (wi_plen n) | WLeaf _ => Some 128 | _ => None end.
Definition w_children (n : w_node) : option (N * N) :=
  match n with WInner n => Some (wi_c0 n, wi_c1 n) | _ => None end.

(** critbit.rs:358-379 [find_node_sequence].  The stack is listed from its top;
    [Vec::with_capacity] panics when it needs 2^31 bytes or more. *)
Fixpoint w_seq_loop (fuel : nat) (s : w_slab) (depth : N) (increasing : bool) (result stack : list N)
    : res (list N) :=
  match fuel with
  | O => Diverge
  | S fuel =>
      if N.of_nat (length result) =? depth then Ok result
      else
        match stack with
        | [] => Ok result
        | current :: stack =>
            let? node := w_node_at s current in
            match node with
            | WInner n =>
                w_seq_loop fuel s depth increasing result
                  (if increasing then wi_c0 n :: wi_c1 n :: stack else wi_c1 n :: wi_c0 n :: stack)
            | _ => w_seq_loop fuel s depth increasing (result ++ [current]) stack
            end
        end
  end.
Definition w_find_node_sequence (fuel : nat) (s : w_slab) (depth : N) (increasing : bool) : res (list N) :=
  match w_root s with
  | None => Ok []
  | Some r => if 2147483648 <=? 4 * depth then Panic PIndex
              else w_seq_loop fuel s depth increasing [] [r]
  end.

(** critbit.rs:438-457, the loop of [remove_by_key]: parent, leaf and side of the leaf. *)
Fixpoint w_remove_walk (fuel : nat) (s : w_slab) (parent child : N) (bit : bool) (k : N)
    : res (option (N * N * bool)) :=
  match fuel with
  | O => Diverge
  | S fuel =>
      let? node := w_node_at s child in
      match node with
      | WInner n => let '(ch, b) := w_walk_down n k in w_remove_walk fuel s child ch b k
      | WLeaf l => if wl_key l =? k then Ok (Some (parent, child, bit)) else Ok None
      | _ => Panic PAssert
      end
  end.
(** critbit.rs:415-465 [remove_by_key] *)
Definition w_remove_by_key (fuel : nat) (k : N) : M w_slab (option w_node) :=
  let! s := get in
  match w_root s with
  | None => ret None
  | Some root =>
      let! n := lift (w_node_at s root) in
      match n with
      | WLeaf l =>
          if wl_key l =? k then
            if wh_leaf_count (ws_header s) =? 1 then
              do! w_header_do (w_set_tree 0 0) in
              do! w_remove_unwrap root in
              ret (Some n)
            else panic_with PAssert
          else ret None
      | WInner inner =>
          let '(ch, b) := w_walk_down inner k in
          let! pos := lift (w_remove_walk fuel s root ch b k) in
          match pos with
          | None => ret None
          | Some (parent, child, bit) =>
              let! p := lift (w_node_at s parent) in
              let! c := lift (unwrap (w_children p)) in
              let! contents := w_remove_unwrap (if bit then fst c else snd c) in
              do! w_write_node_unwrap contents parent in
              do! w_header_do (fun h => w_set_tree (wh_root h) ((wh_leaf_count h + p64 - 1) mod p64) h) in
              let! removed := w_remove_unwrap child in
              ret (Some removed)
          end
      | _ => panic_with PAssert
      end
  end.
(** critbit.rs:467-473 [remove_min] and [remove_max] *)
Definition w_remove_extreme (fuel : nat) (find_max : bool) : M w_slab (option w_node) :=
  let! s := get in
  let! h := lift (w_find_min_max fuel s find_max) in
  match h with
  | None => ret None
  | Some h =>
      let! o := lift (w_get_node s h) in
      match (o ≫= w_key) with None => ret None | Some k => w_remove_by_key fuel k end
  end.

(** critbit.rs:478-500 [find_by_key] (compiled for tests only) *)
Fixpoint w_find_key_loop (fuel : nat) (s : w_slab) (h k : N) : res (option N) :=
  match fuel with
  | O => Diverge
  | S fuel =>
      let? node := w_node_at s h in
      let? plen := unwrap (w_prefix_len node) in
      let? key := unwrap (w_key node) in
      if lz128 (N.lxor k key) <? plen then Ok None
      else
        match node with
        | WLeaf _ => Ok (Some h)
        | WInner n => w_find_key_loop fuel s (fst (w_walk_down n k)) k
        | _ => Panic PAssert
        end
  end.
Definition w_find_by_key (fuel : nat) (s : w_slab) (k : N) : res (option N) :=
  match w_root s with None => Ok None | Some r => w_find_key_loop fuel s r k end.

(** critbit.rs:502-587 [check_invariants] (compiled for tests only).  The counter is
    returned; it is u64 and its additions are exact below 2^64 nodes.  [prefix_mask] and
    [bit_set] are those of Check.v; on a leaf (prefix length 128) nothing more is read. *)
Fixpoint w_check_rec (fuel : nat) (s : w_slab) (h last last_prefix : N) (last_crit_bit : bool) : res N :=
  match fuel with
  | O => Diverge
  | S fuel =>
      let? node := w_node_at s h in
      let? plen := unwrap (w_prefix_len node) in
      let? _ := assert_that (last <? plen) in
      let? key := unwrap (w_key node) in
      let? _ := assert_that (Bool.eqb last_crit_bit (bit_set key (last mod 128))) in
      let? _ := assert_that (N.land last_prefix (prefix_mask (last mod 128)) =? N.land key (prefix_mask (last mod 128))) in
      match w_children node with
      | Some (c0, c1) =>
          let? l := w_check_rec fuel s c0 plen key false in
          let? r := w_check_rec fuel s c1 plen key true in
          Ok (1 + l + r)
      | None => Ok 1
      end
  end.
Definition w_check_tree (fuel : nat) (s : w_slab) : res N :=
  match w_root s with
  | None => Ok 0
  | Some root =>
      let? node := w_node_at s root in
      let? key := unwrap (w_key node) in
      match w_children node with
      | Some (c0, c1) =>
          let? plen := unwrap (w_prefix_len node) in
          let? l := w_check_rec fuel s c0 plen key false in
          let? r := w_check_rec fuel s c1 plen key true in
          Ok (1 + l + r)
      | None => Ok 1
      end
  end.
Fixpoint w_check_free (remaining : nat) (s : w_slab) (next : N) : res unit :=
  match remaining with
  | O => Ok tt
  | S remaining =>
      let? node := w_node_at s next in
      match node, remaining with
      | WLastFree next, O => w_check_free remaining s next
      | WFree next, S _ => w_check_free remaining s next
      | _, _ => Panic PAssert
      end
  end.
Definition w_check_invariants (fuel : nat) (s : w_slab) : res unit :=
  let? count := w_check_tree fuel s in
  let h := ws_header s in
  let? _ := assert_that (count + wh_free_len h =? wh_bump h) in
  w_check_free (N.to_nat (wh_free_len h)) s (wh_free_head h).
