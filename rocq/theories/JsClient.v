(** * JsClient.v: the JavaScript client (js/src)

    Models slab.ts, event_queue.ts, market_state.ts, utils.ts and raw_instructions.ts.
    A thrown exception is [Panic].  A JavaScript number used as a length, an index or a
    handle is an [N] or a [Z], and a [js_double] where the code divides; a [BN] is an [N].

    External code: [deserializeUnchecked] of borsh-js reads the fields of the schema one
    after the other from the start of the buffer, integers little-endian, throws when the
    buffer is too short and ignores what follows; [BN.toNumber] throws above 2^53 - 1;
    [Buffer.slice] is modelled by [js_slice].  Not modelled: the functions that fetch
    accounts over RPC ([load], [retrieve], [loadBidsSlab], [loadAsksSlab]: a fetch
    followed by one of the functions below).  bindings.ts is in JsBindings.v, js/wasm
    (whose imports in slab.ts are commented out) in Wasm.v. *)
From Verif Require Import Machine Bytes Critbit EventQueue OrderBook Layout Borsh Ledger.

(** [BN.prototype.toNumber] *)
Definition js_number (n : N) : res N :=
  if n <? 9007199254740992 then Ok n else Panic PUnwrap.

(** Node's [Buffer.prototype.slice(a, e)] (and [Array.prototype.slice]): negative offsets
    count from the end, and offsets are clamped to the buffer. *)
Definition js_offset (len : nat) (o : Z) : nat :=
  if (o <? 0)%Z then Z.to_nat (o + Z.of_nat len) else Z.to_nat (Z.min o (Z.of_nat len)).
Definition js_slice (b : bytes) (a e : Z) : bytes :=
  let a' := js_offset (length b) a in
  let e' := js_offset (length b) e in
  take (e' - a') (drop a' b).
(** [slice(a)] *)
Definition js_slice_from (b : bytes) (a : Z) : bytes := drop (js_offset (length b) a) b.

(** Numbers that are not known to be integers: IEEE 754 doubles, as [fst / 2^snd].
    [js_round n d] is the double nearest to [n / d], ties to even: 53 significant bits.
    Simplification: no overflow to infinity and no subnormal numbers; the quotients that
    occur lie between 2^-64 and 2^64. *)
Definition js_double : Type := Z * Z.
Definition js_nearest (n d : Z) : Z :=
  let q := (n / d)%Z in
  let r := (n mod d)%Z in
  if (2 * r <? d)%Z then q
  else if (d <? 2 * r)%Z then (q + 1)%Z
  else if Z.even q then q else (q + 1)%Z.
Definition js_exponent (n d : Z) : Z :=
  let e := (Z.log2 n - Z.log2 d)%Z in
  if (if (0 <=? e)%Z then (d * 2 ^ e <=? n)%Z else (d <=? n * 2 ^ (- e))%Z) then e else (e - 1)%Z.
Definition js_round (n d : Z) : js_double :=
  if (n =? 0)%Z then (0, 0)%Z
  else
    let k := (52 - js_exponent (Z.abs n) d)%Z in
    if (0 <=? k)%Z then ((Z.sgn n * js_nearest (Z.abs n * 2 ^ k) d)%Z, k)
    else ((Z.sgn n * js_nearest (Z.abs n) (d * 2 ^ (- k)) * 2 ^ (- k))%Z, 0%Z).
Definition js_int (z : Z) : js_double := (z, 0%Z).
(** [+] and [*] on doubles, [/] on two integers. *)
Definition js_add (x y : js_double) : js_double :=
  js_round (fst x * 2 ^ snd y + fst y * 2 ^ snd x) (2 ^ (snd x + snd y)).
Definition js_mul (x y : js_double) : js_double :=
  js_round (fst x * fst y) (2 ^ (snd x + snd y)).
Definition js_div (n d : Z) : js_double := js_round n d.
(** What [slice] makes of an offset: the integer part, towards zero. *)
Definition js_trunc (x : js_double) : Z := Z.quot (fst x) (2 ^ snd x).

(** [deserializeUnchecked] of a schema whose fields take [n] bytes. *)
Definition js_deserialize {A} (n : nat) (f : bytes -> A) (b : bytes) : res A :=
  if (length b <? n)%nat then Panic PUnwrap else Ok (f b).

(** ** slab.ts *)

(** slab.ts:12-31 [InnerNode] and 40-57 [LeafNode]: schemas of 32 and 24 bytes. *)
Definition js_inner (b : bytes) : res inner :=
  js_deserialize 32 (fun b =>
    mk_inner (le_dec (slice b 0 16)) (le_dec (slice b 16 8)) (le_dec (slice b 24 4))
             (le_dec (slice b 28 4))) b.
Definition js_leaf (b : bytes) : res leaf :=
  js_deserialize 24 (fun b => mk_leaf (le_dec (slice b 0 16)) (le_dec (slice b 16 8))) b.
(** slab.ts:67-69 [LeafNode.getPrice] *)
Definition js_get_price (l : leaf) : N := N.shiftr (lf_key l) 64.

(** slab.ts:72-74 [isLeaf], with [INNER_FLAG = 1 << 31] (line 152). *)
Definition js_is_leaf (handle : N) : bool := negb (N.testbit handle 31).

(** slab.ts:76-134 [SlabHeader]: the tag is converted to a number. *)
Definition js_slab_header (b : bytes) : res header :=
  if (length b <? 40)%nat then Panic PUnwrap
  else
    let? tag := js_number (le_dec (slice b 0 8)) in
    Ok (mk_header (le_dec (slice b 8 4)) (le_dec (slice b 12 4)) (le_dec (slice b 16 4))
                  (le_dec (slice b 20 4)) (le_dec (slice b 24 4)) (le_dec (slice b 28 4))
                  (le_dec (slice b 32 4)) (le_dec (slice b 36 4))).

(** slab.ts:141-147 [Slab]. *)
Record js_slab := mk_js_slab {
  js_header : header;
  js_leaf_buf : bytes;
  js_inner_buf : bytes;
  js_cb_buf : bytes;
  js_cs : Z;
}.

(** slab.ts:154-187, the constructor and [deserialize].  [capacity] is a quotient that
    the code does not round; the offsets computed from it are doubles, which [slice]
    truncates. *)
Definition js_slab_deserialize (data : bytes) (cs : N) : res js_slab :=
  let? h := js_slab_header data in
  let leafSize := (24 + Z.of_N cs)%Z in
  let capacity := js_div (Z.of_nat (length data) - 40 - leafSize) (leafSize + 32) in
  let inner_off := js_add (js_int 40) (js_mul (js_add capacity (js_int 1)) (js_int 24)) in
  let cb_off := js_add inner_off (js_mul capacity (js_int 32)) in
  Ok (mk_js_slab h (js_slice data 40 (js_trunc inner_off))
                 (js_slice data (js_trunc inner_off) (js_trunc cb_off))
                 (js_slice_from data (js_trunc cb_off)) (Z.of_N cs)).

(** slab.ts:175, the field [orderCapacity]: [Math.floor(capacity)]. *)
Definition js_order_capacity (data : bytes) (cs : N) : Z :=
  let leafSize := (24 + Z.of_N cs)%Z in
  let capacity := js_div (Z.of_nat (length data) - 40 - leafSize) (leafSize + 32) in
  (fst capacity / 2 ^ snd capacity)%Z.
(** slab.ts:189-200 [Slab.computeAllocationSize] *)
Definition js_slab_allocation_size (n cs : Z) : Z :=
  (40 + 24 + cs + (n - 1) * (24 + 32 + cs))%Z.

(** slab.ts:233-247 [getNode].  [new BN(handle).notn(32)] is [not32]. *)
Definition js_get_node (s : js_slab) (handle : N) : res (leaf + inner) :=
  if js_is_leaf handle then
    let h := Z.of_N handle in
    let? l := js_leaf (js_slice (js_leaf_buf s) (h * 24) ((h + 1) * 24)) in Ok (inl l)
  else
    let i := Z.of_N (not32 handle) in
    let? n := js_inner (js_slice (js_inner_buf s) (i * 32) ((i + 1) * 32)) in Ok (inr n).

(** slab.ts:411-419 [getCallBackInfo], on a leaf. *)
Definition js_callback (s : js_slab) (handle : N) : bytes :=
  let h := Z.of_N handle in
  js_slice (js_cb_buf s) (h * js_cs s) ((h + 1) * js_cs s).

(** Bound on the nodes that a walk without repetition meets. *)
Definition js_fuel (s : js_slab) : nat := S (length (js_leaf_buf s) + length (js_inner_buf s)).

(** slab.ts:289-310 [items]: run the generator up to its next [yield]; the stack is listed
    from its top. *)
Fixpoint js_next (fuel : nat) (s : js_slab) (descending : bool) (stack : list N)
    : res (option (leaf * bytes) * list N) :=
  match fuel with
  | O => Diverge
  | S fuel =>
      match stack with
      | [] => Ok (None, [])
      | h :: stack =>
          let? node := js_get_node s h in
          match node with
          | inl l => Ok (Some (l, js_callback s h), stack)
          | inr n =>
              if descending then js_next fuel s descending (in_c1 n :: in_c0 n :: stack)
              else js_next fuel s descending (in_c0 n :: in_c1 n :: stack)
          end
      end
  end.
(** The generator's initial stack (lines 290-293); an empty one ends it at once. *)
Definition js_start (s : js_slab) : list N :=
  if leaf_count (js_header s) =? 0 then [] else [root_node (js_header s)].

(** All values of the generator: [[...slab.items(descending)]]. *)
Fixpoint js_collect (fuel : nat) (s : js_slab) (descending : bool) (stack : list N)
    : res (list (leaf * bytes)) :=
  match fuel with
  | O => Diverge
  | S fuel =>
      let? r := js_next (js_fuel s) s descending stack in
      match fst r with
      | None => Ok []
      | Some x => let? rest := js_collect fuel s descending (snd r) in Ok (x :: rest)
      end
  end.
Definition js_items (s : js_slab) (descending : bool) : res (list (leaf * bytes)) :=
  js_collect (js_fuel s) s descending (js_start s).

(** slab.ts:347-356 [getMinMaxNodes] *)
Fixpoint js_min_max_loop (fuel : nat) (s : js_slab) (max_nb : N) (max : bool)
    (acc : list (leaf * bytes)) (stack : list N) : res (list (leaf * bytes)) :=
  match fuel with
  | O => Diverge
  | S fuel =>
      let? r := js_next (js_fuel s) s max stack in
      match fst r with
      | None => Ok acc
      | Some x =>
          if N.of_nat (length acc) =? max_nb then Ok acc
          else js_min_max_loop fuel s max_nb max (acc ++ [x]) (snd r)
      end
  end.
Definition js_get_min_max_nodes (s : js_slab) (max_nb : N) (max : bool)
    : res (list (leaf * bytes)) :=
  js_min_max_loop (js_fuel s) s max_nb max [] (js_start s).

(** slab.ts:207-231 [getNodeByKey].  [xor(..).bitLength()] is [N.size]. *)
Fixpoint js_by_key_loop (fuel : nat) (s : js_slab) (key : N) (h : N) : res (option leaf) :=
  match fuel with
  | O => Diverge
  | S fuel =>
      let? node := js_get_node s h in
      match node with
      | inr n =>
          let common := (128 - Z.of_N (N.size (N.lxor (in_key n) key)))%Z in
          let? plen := js_number (in_plen n) in
          if (common <? Z.of_N plen)%Z then Ok None
          else if 127 <? plen then Panic PAssert
          else
            let mask := N.shiftl 1 (127 - plen) in
            js_by_key_loop fuel s key
              (if N.land key mask =? 0 then in_c0 n else in_c1 n)
      | inl l => if lf_key l =? key then Ok (Some l) else Ok None
      end
  end.
Definition js_get_node_by_key (s : js_slab) (key : N) : res (option leaf) :=
  if leaf_count (js_header s) =? 0 then Ok None
  else js_by_key_loop (js_fuel s) s key (root_node (js_header s)).

(** slab.ts:364-395, the loop of [getL2DepthJS]; [raw] is the list size, price, size,
    price, ... of the code. *)
Definition js_last (raw : list N) : option N := raw !! Nat.pred (length raw).
Fixpoint js_l2_loop (fuel : nat) (s : js_slab) (depth : N) (increasing : bool)
    (raw : list N) (stack : list N) : res (list N) :=
  match fuel with
  | O => Diverge
  | S fuel =>
      match stack with
      | [] => Ok raw
      | h :: stack =>
          let? node := js_get_node s h in
          match node with
          | inl l =>
              let price := js_get_price l in
              if (match js_last raw with Some p => p =? price | None => false end) then
                let i := (length raw - 2)%nat in
                js_l2_loop fuel s depth increasing
                  (match raw !! i with
                   | Some sz => <[i := sz + lf_qty l]> raw
                   | None => raw
                   end) stack
              else if N.of_nat (length raw) =? 2 * depth then Ok raw
              else js_l2_loop fuel s depth increasing (raw ++ [lf_qty l; price]) stack
          | inr n =>
              js_l2_loop fuel s depth increasing raw
                (if increasing then in_c0 n :: in_c1 n :: stack else in_c1 n :: in_c0 n :: stack)
          end
      end
  end.
(** slab.ts:396-403: pairs (size, price). *)
Fixpoint js_pairs (raw : list N) : list (N * N) :=
  match raw with
  | size :: price :: raw => (size, price) :: js_pairs raw
  | _ => []
  end.
Definition js_get_l2_depth (s : js_slab) (depth : N) (increasing : bool) : res (list (N * N)) :=
  if leaf_count (js_header s) =? 0 then Ok []
  else
    let? raw := js_l2_loop (js_fuel s) s depth increasing [] [root_node (js_header s)] in
    Ok (js_pairs raw).

(** utils.ts:8-10 [getPriceFromKey] *)
Definition js_price_from_key (key : N) : N := key / 2 ^ 64.

(** ** event_queue.ts *)

(** event_queue.ts:21-50 [EventQueueHeader] (the tag stays a BN). *)
Record js_queue_header := mk_js_queue_header { jq_tag : N; jq_head : N; jq_count : N; jq_seq : N }.
Definition js_queue_header_of (b : bytes) : js_queue_header :=
  mk_js_queue_header (le_dec (slice b 0 8)) (le_dec (slice b 8 8)) (le_dec (slice b 16 8))
                     (le_dec (slice b 24 8)).
(** event_queue.ts:278-284 [parseEventQueueHeader]: [deserialize] throws unless the whole
    buffer was read. *)
Definition js_parse_queue_header (b : bytes) : res js_queue_header :=
  if (length b =? 32)%nat then Ok (js_queue_header_of b) else Panic PUnwrap.

(** event_queue.ts:139-155 [EventQueue]. *)
Record js_queue := mk_js_queue {
  jq_header : js_queue_header; jq_events : bytes; jq_cbs : bytes; jq_cs : Z }.
(** event_queue.ts:163-181 [parse]; [capacity] is not rounded, see [js_slab_deserialize]. *)
Definition js_queue_parse (cs : N) (data : bytes) : res js_queue :=
  let? h := js_deserialize 32 js_queue_header_of data in
  let capacity := js_div (Z.of_nat (length data) - 32) (40 + 2 * Z.of_N cs) in
  let cb_off := js_trunc (js_add (js_int 32) (js_mul capacity (js_int 40))) in
  Ok (mk_js_queue h (js_slice data 32 cb_off) (js_slice_from data cb_off) (Z.of_N cs)).

(** event_queue.ts:55-134 [EventFill] and [EventOut]. *)
Inductive js_event :=
| JsFill (taker_side quote maker_id base : N) (maker_cb taker_cb : bytes)
| JsOut (side id base : N) (delete : bool) (cb : bytes).

(** event_queue.ts:207-247 [parseEvent]. *)
Definition js_parse_event (q : js_queue) (i : N) : res js_event :=
  let off := (Z.of_N i * 40)%Z in
  let data := js_slice (jq_events q) off (off + 40) in
  let cb o := js_slice (jq_cbs q) o (o + jq_cs q)%Z in
  match data with
  | [] => Panic PUnwrap
  | t :: _ =>
      if t =? 0 then
        js_deserialize 40 (fun b =>
          JsFill (le_dec (slice b 1 1)) (le_dec (slice b 8 8)) (le_dec (slice b 16 16))
                 (le_dec (slice b 32 8))
                 (cb (2 * Z.of_N i * jq_cs q)%Z) (cb ((2 * Z.of_N i + 1) * jq_cs q)%Z)) data
      else if t =? 1 then
        js_deserialize 40 (fun b =>
          JsOut (le_dec (slice b 1 1)) (le_dec (slice b 16 16)) (le_dec (slice b 32 8))
                (le_dec (slice b 2 1) =? 1) (cb (2 * Z.of_N i * jq_cs q)%Z)) data
      else Panic PUnwrap
  end.

(** event_queue.ts:254-257 [peekAt].  Simplification: the number of slots is the rounded
    quotient; accounts accepted by create_market hold a whole number of slots.  [x % 0]
    is NaN, for which parseEvent throws. *)
Definition js_peek_at (q : js_queue) (i : N) : res js_event :=
  let? head := js_number (jq_head (jq_header q)) in
  let len := N.of_nat (length (jq_events q)) / 40 in
  if len =? 0 then Panic PUnwrap else js_parse_event q ((i + head) mod len).

(** [[...Array(n).keys()].map((e) => this.parseEvent(e))] *)
Fixpoint js_parse_events (q : js_queue) (i : N) (n : nat) : res (list js_event) :=
  match n with
  | O => Ok []
  | S n =>
      let? e := js_parse_event q i in
      let? es := js_parse_events q (i + 1) n in
      Ok (e :: es)
  end.
Definition js_is_fill (e : js_event) : bool :=
  match e with JsFill _ _ _ _ _ _ => true | JsOut _ _ _ _ _ => false end.
(** event_queue.ts:264-271 [parseFill]: the limit is ignored when absent or 0. *)
Definition js_parse_fill (q : js_queue) (limit : option N) : res (list js_event) :=
  let? count := js_number (jq_count (jq_header q)) in
  let n := match limit with
           | Some k => if k =? 0 then count else N.min k count
           | None => count
           end in
  let? es := js_parse_events q 0 (N.to_nat n) in
  Ok (List.filter js_is_fill es).

(** event_queue.ts:286-294 [EventQueue.computeAllocationSize] *)
Definition js_queue_allocation_size (n cs : Z) : Z := (n * (40 + 2 * cs) + 32)%Z.

(** ** market_state.ts:29-86 [MarketState]: the tag and the fields. *)
Definition js_market_deserialize (data : bytes) : res (N * market_state) :=
  js_deserialize 120 (fun b =>
    (le_dec (slice b 0 8),
     mk_market_state (le_dec (slice b 8 32)) (le_dec (slice b 40 32)) (le_dec (slice b 72 32))
                     (le_dec (slice b 104 8)) (le_dec (slice b 112 8)))) data.
(** market_state.ts:38 [MarketState.LEN] *)
Definition js_market_len : nat := 120.
(** market_state.ts:11-17 [AccountTag] *)
Definition js_tag_market : N := 1.
Definition js_tag_event_queue : N := 2.
Definition js_tag_bids : N := 3.
Definition js_tag_asks : N := 4.

(** ** raw_instructions.ts: data and accounts of the instructions *)

(** raw_instructions.ts:198-277 [createMarketInstruction] *)
Definition js_create_market (a : accounts) (authority : bytes)
    (info_len id_len min tick reward : N) : instruction :=
  mk_instruction
    [mk_meta (ac_market a) true; mk_meta (ac_queue a) true; mk_meta (ac_bids a) true;
     mk_meta (ac_asks a) true]
    (0 :: authority ++ le_enc 8 info_len ++ le_enc 8 id_len ++ le_enc 8 min ++
     le_enc 8 tick ++ le_enc 8 reward).
(** The accounts of lines 334-369, 156-191 and 398-433. *)
Definition js_trade_metas (a : accounts) (authority : N) : list meta :=
  [mk_meta (ac_market a) true; mk_meta (ac_queue a) true; mk_meta (ac_bids a) true;
   mk_meta (ac_asks a) true; mk_meta authority false].
(** raw_instructions.ts:278-375 [newOrderInstruction]; the schema type ["u8"] of the
    callback info is a list with a u32 length. *)
Definition js_new_order (a : accounts) (authority : N) (p : params bytes) : instruction :=
  mk_instruction (js_trade_metas a authority)
    (1 :: le_enc 8 (max_base_qty p) ++ le_enc 8 (max_quote_qty p) ++ le_enc 8 (limit_price p) ++
     [side_u8 (p_side p)] ++ le_enc 8 (match_limit p) ++
     le_enc 4 (N.of_nat (length (p_callback p))) ++ p_callback p ++
     wr_bool (post_only p) ++ wr_bool (post_allowed p) ++ wr_stb (stb p)).
(** raw_instructions.ts:76-133 [consumeEventsInstruction] *)
Definition js_consume_events (a : accounts) (authority reward : N) (n : N) : instruction :=
  mk_instruction
    [mk_meta (ac_market a) true; mk_meta (ac_queue a) true; mk_meta authority false;
     mk_meta reward true]
    (2 :: le_enc 8 n).
(** raw_instructions.ts:134-197 [cancelOrderInstruction] *)
Definition js_cancel_order (a : accounts) (authority : N) (id : N) : instruction :=
  mk_instruction (js_trade_metas a authority) (3 :: le_enc 16 id).
(** raw_instructions.ts:11-75 [closeMarketInstruction] *)
Definition js_close_market (a : accounts) (authority target : N) : instruction :=
  mk_instruction
    [mk_meta (ac_market a) true; mk_meta (ac_queue a) true; mk_meta (ac_bids a) true;
     mk_meta (ac_asks a) true; mk_meta authority false; mk_meta target true]
    [4].
(** raw_instructions.ts:376-439 [massCancelOrderInstruction] *)
Definition js_mass_cancel (a : accounts) (authority : N) (ids : list N) : instruction :=
  mk_instruction (js_trade_metas a authority)
    (5 :: le_enc 4 (N.of_nat (length ids)) ++ concat (map (le_enc 16) ids)).
