(** * LedgerSpec.v: markets in accounts, and how a ledger evolves

    Used to state the properties about accounts (PropsLedger.v). *)
From Verif Require Import Machine Bytes Critbit EventQueue OrderBook Market Spec
  Layout Borsh BorshProofs Ledger.

Section LedgerSpec.
Context (cs : nat) (same_id : bytes -> bytes -> bool) (rent_exempt : N -> nat -> bool) (pid : N).

(** The four accounts of a market. *)
Definition keys (a : accounts) : list N := [ac_market a; ac_queue a; ac_bids a; ac_asks a].

(** [opens l a m]: the four accounts [a] are distinct, belong to the program, and their
    bytes are the market [m]: the market account has the tag of a market and holds the
    keys of the other three and the two parameters; the others have their tags and hold
    the two slabs and the event queue. *)
Record opens (l : ledger) (a : accounts) (m : market bytes) : Prop := {
  o_distinct : NoDup (keys a);
  o_owned : forall k, k ∈ keys a -> a_owner (l k) = pid;
  o_market : market_from_buffer (a_data (l (ac_market a))) tag_market =
    Ok (mk_market_state (ac_queue a) (ac_bids a) (ac_asks a) (m_min m) (m_tick m),
        a_data (l (ac_market a)));
  o_bids : slab_from_buffer cs (a_data (l (ac_bids a))) tag_bids = Ok (bids (m_book m));
  o_asks : slab_from_buffer cs (a_data (l (ac_asks a))) tag_asks = Ok (asks (m_book m));
  o_queue : queue_from_buffer cs (a_data (l (ac_queue a))) tag_event_queue =
    Ok (evq (m_book m), a_data (l (ac_queue a)));
}.

(** [records l a]: [ac_market a] is a market account of the program (it has the tag of a
    live market) and names the three other accounts of [a]. *)
Definition records (l : ledger) (a : accounts) : Prop :=
  a_owner (l (ac_market a)) = pid /\
  exists ms d, market_from_buffer (a_data (l (ac_market a))) tag_market = Ok (ms, d) /\
    ms_event_queue ms = ac_queue a /\ ms_bids ms = ac_bids a /\ ms_asks ms = ac_asks a.

(** Key [k] is one of the accounts of a live market. *)
Definition in_market (l : ledger) (k : N) : Prop := exists a, records l a /\ k ∈ keys a.

(** An account whose bytes are all 0. *)
Definition zeroed (l : ledger) (k : N) : Prop := Forall (fun b => b = 0) (a_data (l k)).
(** A slab account of [len] bytes has room for [n] orders: [n] leaves, [n-1] inner nodes
    and [n+x] callback infos fill it, and there is no room for [n+1] orders. *)
Definition slab_room (len n x : nat) : Prop :=
  (1 <= n)%nat /\ len = (40 + 24 * n + 32 * (n - 1) + cs * (n + x))%nat /\
  (cs * x < 24 + 32 + cs)%nat.

(** ** Instruction data *)
(** The data of an instruction on a live market, and the accounts it needs. *)
Definition op_data (o : op bytes) : bytes :=
  match o with
  | NewOrder p => ix_new_order :: wr_new_order p
  | CancelOrder id => ix_cancel_order :: wr_cancel id
  | MassCancelOrders ids => ix_mass_cancel_orders :: wr_mass_cancel ids
  | ConsumeEvents n => ix_consume_events :: wr_consume n
  end.
Definition op_keys (a : accounts) (o : op bytes) : list N :=
  match o with
  | ConsumeEvents _ => [ac_market a; ac_queue a]
  | _ => keys a
  end.
(** Parameters have their Rust types; a callback info is [cs] bytes. *)
Definition op_bytes_typed (o : op bytes) : Prop :=
  match o with
  | NewOrder p => new_order_typed cs p
  | CancelOrder id => id < p128
  | MassCancelOrders ids => Forall (fun id => id < p128) ids /\ N.of_nat (length ids) < p32
  | ConsumeEvents n => n < p64
  end.
(** The instruction that some data stands for. *)
Definition op_of_data (data : bytes) : option (op bytes) :=
  match data with
  | [] => None
  | t :: d =>
      if t =? ix_new_order then NewOrder <$> try_from_slice (rd_new_order cs) d
      else if t =? ix_consume_events then ConsumeEvents <$> try_from_slice rd_consume d
      else if t =? ix_cancel_order then CancelOrder <$> try_from_slice rd_cancel d
      else if t =? ix_mass_cancel_orders then
        MassCancelOrders <$> try_from_slice rd_mass_cancel d
      else None
  end.

(** The accounts an instruction may touch: the first two for consume_events, the first
    five for close_market (the fifth receives the lamports), the first four otherwise. *)
Definition used (ks : list N) (data : bytes) : list N :=
  match data with
  | [] => []
  | t :: _ =>
      if t =? ix_consume_events then take 2 ks
      else if t =? ix_close_market then take 5 ks
      else take 4 ks
  end.
(** A disabled account of the program. *)
Definition disabled (l : ledger) (k : N) : Prop :=
  a_owner (l k) = pid /\ read_tag (a_data (l k)) = Ok tag_disabled.

(** What the entrypoint does around a processor: run it and write the answer at the start
    of the register account, which must have room for it. *)
Definition answer (register : N) (f : M ledger (option summary)) (l : ledger)
    : res (option summary) * ledger :=
  match f l with
  | (Ok r, l1) =>
      let d := a_data (l1 register) in
      let w := wr_register r in
      if (length d <? length w)%nat then (Panic PUnwrap, l1)
      else (Ok r, set_account register
                    (mk_account (a_owner (l1 register)) (a_lamports (l1 register))
                                (w ++ drop (length w) d)) l1)
  | (Err e, l1) => (Err e, l1)
  | (Panic e, l1) => (Panic e, l1)
  | (Diverge, l1) => (Diverge, l1)
  end.

(** ** How a ledger evolves *)
(** Account contents are bytes, at most 10 MiB (a limit of Solana). *)
Definition ledger_ok (l : ledger) : Prop :=
  forall k, bytes_ok (a_data (l k)) /\ N.of_nat (length (a_data (l k))) <= 10485760.

(** What happens in a step: a successful call of [process_instruction] with its accounts,
    data and result; a write of the program (or of a program built on this library) to
    an account outside the markets, such as the register; anything else, with the
    accounts that the program loses. *)
Inductive label :=
| Call (ks : list N) (data : bytes) (r : option summary)
| Own (k : N)
| Env (gone : list N).

(** The runtime's rule for programs: data may change and lamports may decrease only in
    accounts the program owns. *)
Definition runtime_rule (l l' : ledger) : Prop :=
  forall k, a_data (l' k) <> a_data (l k) \/ a_lamports (l' k) < a_lamports (l k) ->
    a_owner (l k) = pid.
(** What others can do to an account [x]: accounts of the program keep owner and data and
    are not debited; an account without lamports may disappear; accounts are given to the
    program with zeroed data. *)
Definition env_change (x x' : account) : Prop :=
  (a_owner x = pid /\ a_owner x' = pid /\ a_data x' = a_data x /\ a_lamports x <= a_lamports x') \/
  (a_owner x' <> pid /\ (a_owner x = pid -> a_lamports x = 0)) \/
  (a_owner x <> pid /\ a_owner x' = pid /\ Forall (fun b => b = 0) (a_data x')).

Inductive ledger_step : ledger -> label -> ledger -> Prop :=
| step_call l ks data r l' :
    process_instruction cs same_id rent_exempt pid ks data l = (Ok r, l') ->
    runtime_rule l l' -> Forall (fun k => k < 256 ^ 32) ks -> bytes_ok data ->
    ledger_step l (Call ks data r) l'
| step_own l k l' :
    (forall k', k' <> k -> l' k' = l k') -> ~ in_market l k ->
    (forall a, records l' a -> ac_market a <> k) -> ledger_ok l' ->
    ledger_step l (Own k) l'
| step_env l gone l' :
    (forall k, env_change (l k) (l' k)) -> ledger_ok l' ->
    (forall k, a_owner (l k) = pid -> a_owner (l' k) <> pid -> k ∈ gone) ->
    ledger_step l (Env gone) l'.

(** [trace l0 tr l]: the steps [tr], oldest first, lead from [l0] to [l]. *)
Inductive trace (l0 : ledger) : list label -> ledger -> Prop :=
| trace_nil : trace l0 [] l0
| trace_snoc tr l lb l' : trace l0 tr l -> ledger_step l lb l' -> trace l0 (tr ++ [lb]) l'.

(** Ledgers that occur: everything that can happen after the program was deployed, when
    it owned no account. *)
Definition world (l : ledger) : Prop :=
  exists l0 tr, ledger_ok l0 /\ (forall k, a_owner (l0 k) <> pid) /\ trace l0 tr l.

(** The instructions of a trace that act on the market of account [k], with their
    results. *)
Definition market_call (k : N) (lb : label) : option (op bytes * option summary) :=
  match lb with
  | Call (k' :: _) data r =>
      if k' =? k then (fun o => (o, r)) <$> op_of_data data else None
  | _ => None
  end.
Definition market_calls (k : N) (tr : list label) : list (op bytes * option summary) :=
  omap (market_call k) tr.
(** A successful close_market instruction on the market of account [k]. *)
Definition closes (k : N) (lb : label) : Prop :=
  match lb with Call (k' :: _) (t :: _) _ => k' = k /\ t = ix_close_market | _ => False end.

(** Account [k] is not written by anyone else and is not lost in step [lb]. *)
Definition spares (k : N) (lb : label) : Prop :=
  match lb with Call _ _ _ => True | Own k' => k' <> k | Env gone => k ∉ gone end.

(** A successful create_market instruction with accounts [a] and parameters [p]. *)
Definition creates (a : accounts) (p : create_params) (lb : label) : Prop :=
  exists more, lb = Call (keys a ++ more) (ix_create_market :: wr_create p) None.

End LedgerSpec.
