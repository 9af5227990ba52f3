(** * FailSpec.v: the reasons for which an instruction is refused (used by C73)

    Each table lists, in the order in which they are looked at, what can be wrong with the
    accounts or the parameters of an instruction, and the error that the client gets for
    it.  Accounts are looked at byte by byte: the first eight bytes of a market account are
    its tag, followed by the keys of the event queue, of the bids and of the asks. *)
From Verif Require Import Machine Bytes Critbit EventQueue OrderBook Market Spec Layout Borsh Ledger LedgerSpec
  Errors ExchangeSpec.

Section FailSpec.
Context (cs : nat) (rent_exempt : N -> nat -> bool) (pid : N).

Definition account_tag (l : ledger) (k : N) : N := le_dec (take 8 (a_data (l k))).
Definition recorded_key (l : ledger) (market : N) (i : nat) : N :=
  le_dec (take 32 (drop (8 + 32 * i) (a_data (l market)))).
Definition foreign (l : ledger) (k : N) : bool := negb (a_owner (l k) =? pid).

(** new_order, cancel_order, mass_cancel_orders *)
Definition trade_problems (l : ledger) (a : accounts) : list (bool * program_error) :=
  [(foreign l (ac_market a), Custom 16);
   (foreign l (ac_queue a), Custom 13);
   (foreign l (ac_bids a), Custom 14);
   (foreign l (ac_asks a), Custom 15);
   (negb (account_tag l (ac_market a) =? 128), Custom 24);
   (negb (recorded_key l (ac_market a) 0 =? ac_queue a), Custom 3);
   (negb (recorded_key l (ac_market a) 1 =? ac_bids a), Custom 1);
   (negb (recorded_key l (ac_market a) 2 =? ac_asks a), Custom 2)].
(** consume_events gets two accounts *)
Definition consume_problems (l : ledger) (a : accounts) : list (bool * program_error) :=
  [(foreign l (ac_market a), Custom 16);
   (foreign l (ac_queue a), Custom 13);
   (negb (account_tag l (ac_market a) =? 128), Custom 24);
   (negb (recorded_key l (ac_market a) 0 =? ac_queue a), Custom 3)].
Definition op_problems (l : ledger) (a : accounts) (o : op bytes) : list (bool * program_error) :=
  match o with ConsumeEvents _ => consume_problems l a | _ => trade_problems l a end.
(** close_market *)
Definition close_problems (l : ledger) (a : accounts) : list (bool * program_error) :=
  [(foreign l (ac_market a), Custom 16);
   (negb (account_tag l (ac_market a) =? 128), Custom 24);
   (negb (recorded_key l (ac_market a) 0 =? ac_queue a), Custom 3);
   (negb (recorded_key l (ac_market a) 1 =? ac_bids a), Custom 1);
   (negb (recorded_key l (ac_market a) 2 =? ac_asks a), Custom 2)].
(** create_market *)
Definition create_problems (l : ledger) (a : accounts) (p : create_params) : list (bool * program_error) :=
  let poor k := negb (rent_exempt (a_lamports (l k)) (length (a_data (l k)))) in
  [(foreign l (ac_queue a), Custom 13);
   (foreign l (ac_bids a), Custom 14);
   (foreign l (ac_asks a), Custom 15);
   (poor (ac_market a) || poor (ac_queue a) || poor (ac_bids a) || poor (ac_asks a), AccountNotRentExempt);
   ((cp_min p =? 0) || (cp_tick p =? 0), InvalidArgument);
   (negb (length (a_data (l (ac_market a))) =? 120)%nat, InvalidAccountData);
   (negb (account_tag l (ac_market a) =? 0), Custom 24);
   (negb (account_tag l (ac_queue a) =? 0), Custom 24);
   (negb (hd 0 (a_data (l (ac_asks a))) =? 0) || negb (hd 0 (a_data (l (ac_bids a))) =? 0),
    AccountAlreadyInitialized)].

Definition first_problem (ps : list (bool * program_error)) : option program_error :=
  option_map snd (List.find fst ps).

(** What the client is told for each of the answers of the exchange (ExchangeSpec.v).  Two
    of them can be a panic instead of an error: an unknown id (C05 says when) and totals
    that do not fit in 64 bits. *)
Definition told (a : ExchangeSpec.answer) (r : res (option summary)) : Prop :=
  match a with
  | Accepted id base quote posted => r = Ok (Some (mk_summary id base quote posted))
  | Consumed => r = Ok None
  | BadPrice => fails r (Custom 21)
  | SelfTrade => fails r (Custom 7)
  | NoRoom => fails r (Custom 5)
  | NoSuchOrder => fails r (Custom 6) \/ r = Panic PIndex
  | TooLarge => r = Panic PUnwrap
  end.

(** Before the accounts are looked at: how many accounts an instruction needs, and whether
    its parameters can be decoded (C44 says which bytes can). *)
Definition accounts_needed (t : N) : nat :=
  if t =? 2 then 2 else if t =? 4 then 5 else 4.
Definition decodable (t : N) (d : bytes) : bool :=
  let some {A} (o : option A) := match o with Some _ => true | None => false end in
  if t =? 0 then some (try_from_slice rd_create d)
  else if t =? 1 then some (try_from_slice (rd_new_order cs) d)
  else if t =? 2 then some (try_from_slice rd_consume d)
  else if t =? 3 then some (try_from_slice rd_cancel d)
  else if t =? 4 then true
  else some (try_from_slice rd_mass_cancel d).

(** All the errors an instruction can end with, by its tag, whatever the accounts hold. *)
Definition possible (t : N) : list program_error :=
  if t =? 0 then [NotEnoughAccountKeys; InvalidInstructionData; Custom 13; Custom 14; Custom 15; AccountNotRentExempt;
                  InvalidArgument; InvalidAccountData; Custom 24; AccountAlreadyInitialized]
  else if t =? 1 then [NotEnoughAccountKeys; InvalidInstructionData; Custom 16; Custom 13; Custom 14; Custom 15; Custom 24;
                       Custom 3; Custom 1; Custom 2; Custom 21; Custom 7; Custom 5; Custom 22]
  else if t =? 2 then [NotEnoughAccountKeys; InvalidInstructionData; Custom 16; Custom 13; Custom 24; Custom 3]
  else if t =? 3 then [NotEnoughAccountKeys; InvalidInstructionData; Custom 16; Custom 13; Custom 14; Custom 15; Custom 24;
                       Custom 3; Custom 1; Custom 2; Custom 6; Custom 22]
  else if t =? 4 then [NotEnoughAccountKeys; Custom 16; Custom 24; Custom 3; Custom 1; Custom 2; Custom 11]
  else if t =? 5 then [NotEnoughAccountKeys; InvalidInstructionData; Custom 16; Custom 13; Custom 14; Custom 15; Custom 24;
                       Custom 3; Custom 1; Custom 2; Custom 6]
  else [InvalidInstructionData].
End FailSpec.
