(** * Borsh.v: serialization of instruction parameters and of the order summary

    The [BorshSerialize]/[BorshDeserialize] implementations are derived (crate borsh
    0.10.3): fields in declaration order, integers little-endian, bool and enums as
    one byte, Option as one byte followed by the value, Vec as a u32 length followed
    by the elements, [u8; n] as the raw bytes. *)
From Verif Require Import Machine Bytes Critbit EventQueue OrderBook Layout.

(** ** Readers: the value and the remaining bytes, or None for a borsh error *)
Definition reader (A : Type) : Type := bytes -> option (A * bytes).
Definition rd_ret {A} (a : A) : reader A := fun b => Some (a, b).
Definition rd_bind {A B} (r : reader A) (f : A -> reader B) : reader B :=
  fun b => match r b with Some (a, b') => f a b' | None => None end.
Notation "'rd' x ':=' m 'in' k" := (rd_bind m (fun x => k))
  (at level 200, x binder, m at level 100, k at level 200,
   format "'[v' 'rd'  x  ':='  m  'in' '/' k ']'").

(** [n] raw bytes *)
Definition rd_raw (n : nat) : reader bytes :=
  fun b => if (length b <? n)%nat then None else Some (take n b, drop n b).
(** u8, u32, u64, u128 for n = 1, 4, 8, 16 *)
Definition rd_uint (n : nat) : reader N := rd v := rd_raw n in rd_ret (le_dec v).
Definition rd_bool : reader bool :=
  rd v := rd_uint 1 in
  fun b => if v =? 0 then Some (false, b) else if v =? 1 then Some (true, b) else None.
(** program/src/state.rs:44-47 [Side] *)
Definition rd_side : reader side :=
  rd v := rd_uint 1 in
  fun b => if v =? 0 then Some (Bid, b) else if v =? 1 then Some (Ask, b) else None.
(** program/src/state.rs:61-69 [SelfTradeBehavior] *)
Definition rd_stb : reader self_trade :=
  rd v := rd_uint 1 in
  fun b => if v =? 0 then Some (DecrementTake, b)
           else if v =? 1 then Some (CancelProvide, b)
           else if v =? 2 then Some (AbortTransaction, b) else None.
Definition rd_option {A} (r : reader A) : reader (option A) :=
  rd v := rd_uint 1 in
  if v =? 0 then rd_ret None
  else if v =? 1 then rd a := r in rd_ret (Some a)
  else fun _ => None.
(** [n] u128 one after the other.  [fuel] is the length of the input: every element
    takes bytes, so it never runs out before the input does. *)
Fixpoint rd_u128s (fuel : nat) (n : N) : reader (list N) :=
  if n =? 0 then rd_ret []
  else match fuel with
       | O => fun _ => None
       | S fuel =>
           rd x := rd_uint 16 in
           rd l := rd_u128s fuel (n - 1) in
           rd_ret (x :: l)
       end.
Definition rd_vec_u128 : reader (list N) :=
  rd n := rd_uint 4 in
  fun b => rd_u128s (length b) n b.

(** [BorshDeserialize::try_from_slice]: the whole input must be consumed. *)
Definition try_from_slice {A} (r : reader A) (b : bytes) : option A :=
  match r b with Some (a, []) => Some a | _ => None end.

(** ** Writers *)
Definition wr_bool (x : bool) : bytes := [if x then 1 else 0].
Definition wr_side (s : side) : bytes := [side_u8 s].
Definition wr_stb (s : self_trade) : bytes :=
  [match s with DecrementTake => 0 | CancelProvide => 1 | AbortTransaction => 2 end].
Definition wr_option {A} (w : A -> bytes) (o : option A) : bytes :=
  match o with None => [0] | Some a => 1 :: w a end.
Definition wr_vec_u128 (l : list N) : bytes :=
  le_enc 4 (N.of_nat (length l)) ++ concat (map (le_enc 16) l).

(** ** Parameters *)
Section Params.
(** [size_of::<C>()]; the callback info serializes as its raw bytes. *)
Context (cs : nat).

(** processor/create_market.rs:22-31 [Params]. *)
Record create_params := mk_create_params { cp_min : N; cp_tick : N }.
Definition wr_create (p : create_params) : bytes := le_enc 8 (cp_min p) ++ le_enc 8 (cp_tick p).
Definition rd_create : reader create_params :=
  rd a := rd_uint 8 in rd b := rd_uint 8 in rd_ret (mk_create_params a b).

(** processor/new_order.rs:25-56 [Params]. *)
Definition wr_new_order (p : params bytes) : bytes :=
  le_enc 8 (max_base_qty p) ++ le_enc 8 (max_quote_qty p) ++ le_enc 8 (limit_price p) ++
  wr_side (p_side p) ++ le_enc 8 (match_limit p) ++ p_callback p ++
  wr_bool (post_only p) ++ wr_bool (post_allowed p) ++ wr_stb (stb p).
Definition rd_new_order : reader (params bytes) :=
  rd a := rd_uint 8 in
  rd b := rd_uint 8 in
  rd c := rd_uint 8 in
  rd s := rd_side in
  rd m := rd_uint 8 in
  rd cb := rd_raw cs in
  rd po := rd_bool in
  rd pa := rd_bool in
  rd st := rd_stb in
  rd_ret (mk_params a b c s m cb po pa st).

(** processor/consume_events.rs:21-28 [Params]. *)
Definition wr_consume (n : N) : bytes := le_enc 8 n.
Definition rd_consume : reader N := rd_uint 8.

(** processor/cancel_order.rs:20-27 [Params]. *)
Definition wr_cancel (id : N) : bytes := le_enc 16 id.
Definition rd_cancel : reader N := rd_uint 16.

(** processor/mass_cancel_orders.rs:23-30 [Params]. *)
Definition wr_mass_cancel (ids : list N) : bytes := wr_vec_u128 ids.
Definition rd_mass_cancel : reader (list N) := rd_vec_u128.

(** state/orderbook.rs:27-36 [OrderSummary]. *)
Definition wr_summary (s : summary) : bytes :=
  wr_option (le_enc 16) (posted_order_id s) ++ le_enc 8 (total_base_qty s) ++
  le_enc 8 (total_quote_qty s) ++ le_enc 8 (total_base_qty_posted s).
Definition rd_summary : reader summary :=
  rd i := rd_option (rd_uint 16) in
  rd a := rd_uint 8 in
  rd b := rd_uint 8 in
  rd c := rd_uint 8 in
  rd_ret (mk_summary i a b c).

(** What the entrypoint writes to the register: [Option<OrderSummary>]
    (entrypoint.rs:28-31). *)
Definition wr_register (r : option summary) : bytes := wr_option wr_summary r.
Definition rd_register : reader (option summary) := rd_option rd_summary.

(** state/orderbook.rs:57 [ORDER_SUMMARY_SIZE]. *)
Definition order_summary_size : nat := 41.

End Params.
