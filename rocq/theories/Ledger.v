(** * Ledger.v: accounts, ownership, tags, lamports; the six processors on raw accounts,
    the dispatcher, the entrypoint and the Solana runtime around them

    Models program/src/processor.rs, processor/*.rs, entrypoint.rs, utils.rs:15-36 and
    instruction.rs. *)
From Verif Require Import Machine Bytes Critbit EventQueue OrderBook Market Layout Borsh.

(** A Solana account; keys and owners are the numbers denoted by their 32 bytes. *)
Record account := mk_account { a_owner : N; a_lamports : N; a_data : bytes }.
(** Every key has an account (an absent one is empty, without lamports and owned by
    the system program). *)
Definition ledger : Type := N -> account.
Definition set_account (k : N) (a : account) (l : ledger) : ledger :=
  fun k' => if k' =? k then a else l k'.

(** ** Access to account data and lamports.  Both live in a [RefCell]; accounts passed
    twice share it.  [held] lists the keys whose cell is already mutably borrowed. *)
Definition borrow (held : list N) (k : N) : M ledger bytes :=
  let! l := get in
  if existsb (N.eqb k) held then panic_with PBorrow else ret (a_data (l k)).
Definition set_data (k : N) (d : bytes) : M ledger unit :=
  modify (fun l => set_account k (mk_account (a_owner (l k)) (a_lamports (l k)) d) l).
Definition borrow_lamports (held : list N) (k : N) : M ledger N :=
  let! l := get in
  if existsb (N.eqb k) held then panic_with PBorrow else ret (a_lamports (l k)).
Definition set_lamports (k : N) (v : N) : M ledger unit :=
  modify (fun l => set_account k (mk_account (a_owner (l k)) v (a_data (l k))) l).

(** utils.rs:16-25 [check_account_key]. *)
Definition check_account_key (k expected : N) (e : error) : M ledger unit :=
  if k =? expected then ret tt else fail e.
(** utils.rs:27-36 [check_account_owner]. *)
Definition check_account_owner (k owner : N) (e : error) : M ledger unit :=
  let! l := get in
  if a_owner (l k) =? owner then ret tt else fail e.

(** The accounts of an instruction, in the order of the [Accounts] structs
    (new_order.rs:72-86 and the same in the other processors). *)
Record accounts := mk_accounts {
  ac_market : N; ac_queue : N; ac_bids : N; ac_asks : N }.
(** [Accounts::parse] (create_market.rs:51-61, new_order.rs:89-99, cancel_order.rs:46-56,
    mass_cancel_orders.rs:49-59); further accounts are ignored. *)
Definition parse_accounts (ks : list N) : res accounts :=
  match ks with
  | m :: q :: b :: a :: _ => Ok (mk_accounts m q b a)
  | _ => Err PE_NotEnoughAccountKeys
  end.
(** consume_events.rs:41-49 [Accounts::parse]: market and event queue. *)
Definition parse_consume (ks : list N) : res (N * N) :=
  match ks with
  | m :: q :: _ => Ok (m, q)
  | _ => Err PE_NotEnoughAccountKeys
  end.
(** close_market.rs:50-61 [Accounts::parse]: also the lamports target. *)
Definition parse_close (ks : list N) : res (accounts * N) :=
  match ks with
  | m :: q :: b :: a :: t :: _ => Ok (mk_accounts m q b a, t)
  | _ => Err PE_NotEnoughAccountKeys
  end.

Section Processors.
(** [size_of::<C>()], the callback identity test, and [Rent::is_exempt] (lamports, data
    length): the rent sysvar's parameters are arbitrary. *)
Context (cs : nat) (same_id : bytes -> bytes -> bool) (rent_exempt : N -> nat -> bool).
(** The program id. *)
Context (pid : N).

(** bonfida_utils::checks::check_rent_exempt (external crate). *)
Definition check_rent_exempt (k : N) : M ledger unit :=
  let! l := get in
  if rent_exempt (a_lamports (l k)) (length (a_data (l k))) then ret tt
  else fail PE_AccountNotRentExempt.

(** new_order.rs:100-114, cancel_order.rs:59-73, mass_cancel_orders.rs:61-75
    [perform_checks]. *)
Definition perform_checks (a : accounts) : M ledger unit :=
  do! check_account_owner (ac_market a) pid WrongMarketOwner in
  do! check_account_owner (ac_queue a) pid WrongEventQueueOwner in
  do! check_account_owner (ac_bids a) pid WrongBidsOwner in
  check_account_owner (ac_asks a) pid WrongAsksOwner.

(** new_order.rs:158-171 and the same in cancel_order.rs, mass_cancel_orders.rs,
    close_market.rs [check_accounts]. *)
Definition check_accounts (a : accounts) (ms : market_state) : M ledger unit :=
  do! check_account_key (ac_queue a) (ms_event_queue ms) WrongEventQueueAccount in
  do! check_account_key (ac_bids a) (ms_bids ms) WrongBidsAccount in
  check_account_key (ac_asks a) (ms_asks ms) WrongAsksAccount.

(** [market.data.borrow_mut()] and [MarketState::from_buffer]. *)
Definition open_market (k : N) (expected : N) : M ledger market_state :=
  let! d := borrow [] k in
  let! r := lift (market_from_buffer d expected) in
  do! set_data k (snd r) in
  ret (fst r).

(** create_market.rs:75-118 [process]; the owner of the market account is not checked
    (lines 62-71). *)
Definition create_market (a : accounts) (p : create_params) : M ledger unit :=
  do! check_account_owner (ac_queue a) pid WrongEventQueueOwner in
  do! check_account_owner (ac_bids a) pid WrongBidsOwner in
  do! check_account_owner (ac_asks a) pid WrongAsksOwner in
  do! check_rent_exempt (ac_asks a) in
  do! check_rent_exempt (ac_bids a) in
  do! check_rent_exempt (ac_queue a) in
  do! check_rent_exempt (ac_market a) in
  if (cp_min p =? 0) || (cp_tick p =? 0) then fail PE_InvalidArgument
  else
    let! qd := borrow [] (ac_queue a) in
    do! (if is_ok (queue_check_size cs qd) then ret tt else panic_with PUnwrap) in
    let! md := borrow [] (ac_market a) in
    do! lift (market_check_size md) in
    let! r := lift (market_from_buffer md tag_uninitialized) in
    do! set_data (ac_market a)
          (take 8 (snd r) ++
           bytes_of_market_state (mk_market_state (ac_queue a) (ac_bids a) (ac_asks a)
                                                  (cp_min p) (cp_tick p))) in
    let! qd := borrow [ac_market a] (ac_queue a) in
    let! r := lift (queue_from_buffer cs qd tag_uninitialized) in
    do! set_data (ac_queue a) (snd r) in
    let! ad := borrow [ac_market a; ac_queue a] (ac_asks a) in
    let! bd := borrow [ac_market a; ac_queue a; ac_asks a] (ac_bids a) in
    let! r := lift (slab_initialize ad bd) in
    do! set_data (ac_asks a) (fst r) in
    set_data (ac_bids a) (snd r).

(** The bids and asks accounts opened by [OrderBookState::new_safe]
    (orderbook.rs:68-76): the two buffers and the two slabs. *)
Definition open_book (held : list N) (a : accounts)
    : M ledger (bytes * bytes * slab bytes * slab bytes) :=
  let! bd := borrow held (ac_bids a) in
  let! ad := borrow (ac_bids a :: held) (ac_asks a) in
  let! bs := lift (slab_from_buffer cs bd tag_bids) in
  let! asl := lift (slab_from_buffer cs ad tag_asks) in
  ret (bd, ad, bs, asl).

(** new_order.rs:118-156 [process]. *)
Definition new_order_l (a : accounts) (p : params bytes) : M ledger summary :=
  do! perform_checks a in
  let! ms := open_market (ac_market a) tag_market in
  do! check_accounts a ms in
  if ms_tick ms =? 0 then panic_with PDivZero
  else if negb (limit_price p mod ms_tick ms =? 0) then fail InvalidLimitPrice
  else if post_allowed p && (limit_price p <? ms_tick ms) then fail InvalidLimitPrice
  else
    let! ob := open_book [ac_market a] a in
    let '(bd, ad, bs, asl) := ob in
    let! qd := borrow [ac_market a; ac_bids a; ac_asks a] (ac_queue a) in
    let! r := lift (queue_from_buffer cs qd tag_event_queue) in
    let '(q, qd) := r in
    let '(out, b') := new_order same_id p (ms_min ms) (mk_book bs asl q) in
    do! set_data (ac_bids a) (slab_to_buffer (bids b') bd) in
    do! set_data (ac_asks a) (slab_to_buffer (asks b') ad) in
    do! set_data (ac_queue a) (queue_to_buffer (evq b') qd) in
    lift out.

(** cancel_order.rs and mass_cancel_orders.rs do not open the event queue account; the
    typed processors get a placeholder they do not look at. *)
Definition no_queue : queue bytes := mk_queue 0 0 0 [] [].
Definition with_book (a : accounts) (f : M (market bytes) summary) : M ledger summary :=
  do! perform_checks a in
  let! ms := open_market (ac_market a) tag_market in
  do! check_accounts a ms in
  let! ob := open_book [ac_market a] a in
  let '(bd, ad, bs, asl) := ob in
  let '(out, m') := f (mk_market (ms_min ms) (ms_tick ms) (mk_book bs asl no_queue)) in
  do! set_data (ac_bids a) (slab_to_buffer (bids (m_book m')) bd) in
  do! set_data (ac_asks a) (slab_to_buffer (asks (m_book m')) ad) in
  lift out.
(** cancel_order.rs:76-111 [process]. *)
Definition cancel_order_l (a : accounts) (id : N) : M ledger summary :=
  with_book a (process_cancel_order id).
(** mass_cancel_orders.rs:78-117 [process]. *)
Definition mass_cancel_l (a : accounts) (ids : list N) : M ledger summary :=
  with_book a (process_mass_cancel ids).

(** consume_events.rs:67-96 [process]; the second key check (lines 107-111) repeats the
    first. *)
Definition consume_events_l (km kq : N) (n : N) : M ledger unit :=
  do! check_account_owner km pid WrongMarketOwner in
  do! check_account_owner kq pid WrongEventQueueOwner in
  let! ms := open_market km tag_market in
  do! check_account_key kq (ms_event_queue ms) WrongEventQueueAccount in
  let! qd := borrow [km] kq in
  let! r := lift (queue_from_buffer cs qd tag_event_queue) in
  let '(q, qd) := r in
  let '(out, q') := pop_n n q in
  do! set_data kq (queue_to_buffer q' qd) in
  lift out.

(** close_market.rs:73-127 [process].  [new_safe(..).unwrap()] turns a wrong tag into a
    panic (line 91). *)
Definition unwrap_err {A} (r : res A) : res A :=
  match r with Err _ => Panic PUnwrap | r => r end.
Definition close_market (a : accounts) (target : N) : M ledger unit :=
  do! check_account_owner (ac_market a) pid WrongMarketOwner in
  let! ms := open_market (ac_market a) tag_market in
  do! check_accounts a ms in
  let! bd := borrow [ac_market a] (ac_bids a) in
  let! ad := borrow [ac_market a; ac_bids a] (ac_asks a) in
  let! bs := lift (unwrap_err (slab_from_buffer cs bd tag_bids)) in
  let! asl := lift (unwrap_err (slab_from_buffer cs ad tag_asks)) in
  if negb (sides_empty bs asl)
  then fail MarketStillActive
  else
    let! qd := borrow [ac_market a; ac_bids a; ac_asks a] (ac_queue a) in
    let! r := lift (queue_from_buffer cs qd tag_event_queue) in
    let '(q, qd) := r in
    if negb (q_count q =? 0) then fail MarketStillActive
    else
      let! l := get in
      do! set_data (ac_market a) (write_tag tag_disabled (a_data (l (ac_market a)))) in
      do! set_data (ac_asks a) (write_tag tag_disabled ad) in
      do! set_data (ac_bids a) (write_tag tag_disabled bd) in
      do! set_data (ac_queue a) (write_tag tag_disabled qd) in
      let! lm := borrow_lamports [] (ac_market a) in
      let! lb := borrow_lamports [ac_market a] (ac_bids a) in
      let! la := borrow_lamports [ac_market a; ac_bids a] (ac_asks a) in
      let! lq := borrow_lamports [ac_market a; ac_bids a; ac_asks a] (ac_queue a) in
      let! lt := borrow_lamports [ac_market a; ac_bids a; ac_asks a; ac_queue a] target in
      let! s := lift (add_w p64 lm lb) in
      let! s := lift (add_w p64 s la) in
      let! s := lift (add_w p64 s lq) in
      let! t := lift (add_w p64 lt s) in
      do! set_lamports target t in
      do! set_lamports (ac_market a) 0 in
      do! set_lamports (ac_bids a) 0 in
      do! set_lamports (ac_asks a) 0 in
      set_lamports (ac_queue a) 0.

(** program/src/instruction.rs:13-91 [AgnosticOrderbookInstruction]: the tag is the
    position of the variant. *)
Definition ix_create_market : N := 0.
Definition ix_new_order : N := 1.
Definition ix_consume_events : N := 2.
Definition ix_cancel_order : N := 3.
Definition ix_close_market : N := 4.
Definition ix_mass_cancel_orders : N := 5.

(** processor.rs:19-76 [process_instruction].  [instruction_data[0]] panics on empty
    data; accounts are parsed before the parameters; close_market ignores its data. *)
Definition decode {A} (r : reader A) (d : bytes) : M ledger A :=
  lift (ok_or (try_from_slice r d) PE_InvalidInstructionData).
Definition process_instruction (ks : list N) (data : bytes) : M ledger (option summary) :=
  match data with
  | [] => panic_with PIndex
  | t :: d =>
      if t =? ix_create_market then
        let! a := lift (parse_accounts ks) in
        let! p := decode rd_create d in
        do! create_market a p in ret None
      else if t =? ix_new_order then
        let! a := lift (parse_accounts ks) in
        let! p := decode (rd_new_order cs) d in
        let! s := new_order_l a p in ret (Some s)
      else if t =? ix_consume_events then
        let! a := lift (parse_consume ks) in
        let! n := decode rd_consume d in
        do! consume_events_l (fst a) (snd a) n in ret None
      else if t =? ix_cancel_order then
        let! a := lift (parse_accounts ks) in
        let! id := decode rd_cancel d in
        let! s := cancel_order_l a id in ret (Some s)
      else if t =? ix_close_market then
        let! a := lift (parse_close ks) in
        do! close_market (fst a) (snd a) in ret None
      else if t =? ix_mass_cancel_orders then
        let! a := lift (parse_accounts ks) in
        let! ids := decode rd_mass_cancel d in
        let! s := mass_cancel_l a ids in ret (Some s)
      else fail PE_InvalidInstructionData
  end.

(** entrypoint.rs:15-34 [process_instruction]: the last account is the register, the
    result is written at its start; [split_last().unwrap()] and
    [serialize(..).unwrap()] panic on an empty list and on a register that is too
    small.  The register account is not checked in any way.  (The entrypoint is
    instantiated with [C = [u8; 32]], i.e. [cs = 32].) *)
Fixpoint split_last (ks : list N) : option (list N * N) :=
  match ks with
  | [] => None
  | [k] => Some ([], k)
  | k :: ks =>
      match split_last ks with Some (i, r) => Some (k :: i, r) | None => None end
  end.
Definition entrypoint (ks : list N) (data : bytes) : M ledger (option summary) :=
  let! s := lift (unwrap (split_last ks)) in
  let! r := process_instruction (fst s) data in
  let! d := borrow [] (snd s) in
  let w := wr_register r in
  do! (if (length d <? length w)%nat then panic_with PUnwrap
       else set_data (snd s) (w ++ drop (length w) d)) in
  ret r.

(** ** The Solana runtime

    An instruction names its accounts, each with a writable flag.  After the program
    returned the runtime verifies: data changes only in writable accounts owned by the
    program, lamports change only in writable accounts and decrease only in accounts
    owned by the program, and the total of lamports is unchanged.  Otherwise, and when
    the program fails, nothing changes.  Not modelled: rent collection, account
    resizing and reassignment (this program does neither), compute limits. *)
Record meta := mk_meta { mt_key : N; mt_writable : bool }.
Definition writable (ms : list meta) (k : N) : bool :=
  existsb (fun m => (mt_key m =? k) && mt_writable m) ms.
Definition account_ok (ms : list meta) (l l' : ledger) (k : N) : bool :=
  (bool_decide (a_data (l' k) = a_data (l k)) || ((a_owner (l k) =? pid) && writable ms k)) &&
  ((a_lamports (l' k) =? a_lamports (l k)) || writable ms k) &&
  ((a_lamports (l k) <=? a_lamports (l' k)) || (a_owner (l k) =? pid)).
Definition total_lamports (ks : list N) (l : ledger) : N :=
  fold_right (fun k t => a_lamports (l k) + t) 0 ks.
Definition runtime_ok (ms : list meta) (l l' : ledger) : bool :=
  let ks := remove_dups (map mt_key ms) in
  forallb (account_ok ms l l') ks && (total_lamports ks l' =? total_lamports ks l).
Definition execute (ms : list meta) (data : bytes) (l : ledger) : res (option summary) * ledger :=
  match entrypoint (map mt_key ms) data l with
  | (Ok r, l') => if runtime_ok ms l l' then (Ok r, l') else (Err PE_Runtime, l)
  | (r, _) => (r, l)
  end.

End Processors.

(** ** Instruction builders (instruction.rs:108-227)

    [InstructionsAccount::get_instruction] (bonfida-utils, external): the tag byte
    followed by the serialized parameters; one account meta per field of [Accounts], in
    order, writable when the field is marked [#[cons(writable)]].  The builder then
    appends the register account, writable.  The program id is not represented. *)
Record instruction := mk_instruction { i_metas : list meta; i_data : bytes }.

(** instruction.rs:108-125, create_market.rs:33-48: all writable. *)
Definition build_create_market (a : accounts) (register : N) (p : create_params) : instruction :=
  mk_instruction
    [mk_meta (ac_market a) true; mk_meta (ac_queue a) true; mk_meta (ac_bids a) true;
     mk_meta (ac_asks a) true; mk_meta register true]
    (ix_create_market :: wr_create p).
(** instruction.rs:132-168, new_order.rs:72-86 (and cancel_order.rs:29-43, mass_cancel_orders.rs:32-46): the
    market account is not writable. *)
Definition trade_metas (a : accounts) (register : N) : list meta :=
  [mk_meta (ac_market a) false; mk_meta (ac_queue a) true; mk_meta (ac_bids a) true;
   mk_meta (ac_asks a) true; mk_meta register true].
Definition build_new_order (a : accounts) (register : N) (p : params bytes) : instruction :=
  mk_instruction (trade_metas a register) (ix_new_order :: wr_new_order p).
Definition build_cancel_order (a : accounts) (register : N) (id : N) : instruction :=
  mk_instruction (trade_metas a register) (ix_cancel_order :: wr_cancel id).
(** instruction.rs:171-188, consume_events.rs:30-38. *)
Definition build_consume_events (km kq register : N) (n : N) : instruction :=
  mk_instruction [mk_meta km false; mk_meta kq true; mk_meta register true]
    (ix_consume_events :: wr_consume n).
(** instruction.rs:191-208, close_market.rs:29-47; [Params {}] has no bytes. *)
Definition build_close_market (a : accounts) (target register : N) : instruction :=
  mk_instruction
    [mk_meta (ac_market a) true; mk_meta (ac_queue a) true; mk_meta (ac_bids a) true;
     mk_meta (ac_asks a) true; mk_meta target true; mk_meta register true]
    [ix_close_market].
(** instruction.rs:211-227: the tag on line 218 is that of CloseMarket. *)
Definition build_mass_cancel_orders (a : accounts) (register : N) (ids : list N) : instruction :=
  mk_instruction (trade_metas a register) (ix_close_market :: wr_mass_cancel ids).

(** error.rs:10-61: [AoError as u32], the position of the variant. *)
Definition ao_code (e : error) : option N :=
  match e with
  | WrongBidsAccount => Some 1 | WrongAsksAccount => Some 2 | WrongEventQueueAccount => Some 3
  | EventQueueFull => Some 5 | OrderNotFound => Some 6 | WouldSelfTrade => Some 7
  | SlabOutOfSpace => Some 8 | MarketStillActive => Some 11 | WrongEventQueueOwner => Some 13
  | WrongBidsOwner => Some 14 | WrongAsksOwner => Some 15 | WrongMarketOwner => Some 16
  | InvalidLimitPrice => Some 21 | NumericalOverflow => Some 22 | AccountTagMismatch => Some 24
  | _ => None
  end.
