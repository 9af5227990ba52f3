(** * JsBindings.v: the transaction that creates a market (js/src/bindings.ts)

    External code: [SystemProgram.createAccount] and the system program's instruction
    CreateAccount; [getMinimumBalanceForRentExemption] (an RPC call) is the parameter
    [min_balance]; [new Keypair()] gives the keys of the four new accounts. *)
From Verif Require Import Machine Bytes Critbit EventQueue OrderBook Layout Borsh Ledger JsClient.

(** The system program's id is 32 zero bytes. *)
Definition system_id : N := 0.
(** The arguments of [SystemProgram.createAccount]. *)
Record create_account := mk_create_account {
  ca_from : N; ca_new : N; ca_lamports : N; ca_space : Z; ca_owner : N }.

(** CreateAccount of the system program: the payer, an account of the system program
    without data, is debited; the new account must not be in use (no lamports, no data,
    not assigned to a program); it gets at most 10 MiB of zeros. *)
Definition system_create (i : create_account) (l : ledger) : res ledger :=
  let x := l (ca_new i) in
  let f := l (ca_from i) in
  if (a_lamports x =? 0) && (a_owner x =? system_id) && bool_decide (a_data x = []) &&
     (0 <=? ca_space i)%Z && (ca_space i <=? 10485760)%Z &&
     negb (ca_from i =? ca_new i) && (a_owner f =? system_id) && bool_decide (a_data f = []) &&
     (ca_lamports i <=? a_lamports f)
  then Ok (set_account (ca_new i) (mk_account (ca_owner i) (ca_lamports i) (replicate (Z.to_nat (ca_space i)) 0))
          (set_account (ca_from i) (mk_account (a_owner f) (a_lamports f - ca_lamports i) (a_data f)) l))
  else Err PE_Runtime.

(** The instructions of a transaction: of the system program, or of this program. *)
Inductive tx_ix := Create (i : create_account) | Program (i : instruction).

Section Bindings.
Context (cs : nat) (same_id : bytes -> bytes -> bool) (rent_exempt : N -> nat -> bool) (pid : N).

(** A transaction runs its instructions one after the other; when one fails, nothing of it
    remains.  The payer signs; the other new accounts must be among the signers. *)
Fixpoint tx_steps (signers : list N) (ixs : list tx_ix) (l : ledger) : res ledger :=
  match ixs with
  | [] => Ok l
  | Create i :: ixs =>
      if existsb (N.eqb (ca_new i)) signers then
        let? l := system_create i l in tx_steps signers ixs l
      else Err PE_Runtime
  | Program i :: ixs =>
      match execute cs same_id rent_exempt pid (i_metas i) (i_data i) l with
      | (Ok _, l) => tx_steps signers ixs l
      | (Err e, _) => Err e
      | (Panic p, _) => Panic p
      | (Diverge, _) => Diverge
      end
  end.
Definition tx_run (tx : list N * list tx_ix) (l : ledger) : res unit * ledger :=
  match tx_steps (fst tx) (snd tx) l with
  | Ok l' => (Ok tt, l')
  | Err e => (Err e, l)
  | Panic p => (Panic p, l)
  | Diverge => (Diverge, l)
  end.

(** bindings.ts:53-107: the accounts, in the order event queue, bids, asks, market.
    Numbers of JavaScript are [Z]. *)
Definition js_create_accounts (min_balance : Z -> N) (payer : N) (a : accounts)
    (info_len events orders : Z) : list create_account :=
  let q := js_queue_allocation_size events info_len in
  let s := js_slab_allocation_size orders info_len in
  let n := Z.of_nat js_market_len in
  [mk_create_account payer (ac_queue a) (min_balance q) q pid;
   mk_create_account payer (ac_bids a) (min_balance s) s pid;
   mk_create_account payer (ac_asks a) (min_balance s) s pid;
   mk_create_account payer (ac_market a) (min_balance n) n pid].
(** bindings.ts:34-127 [createMarket]: the signers and the instructions. *)
Definition js_create_market_tx (min_balance : Z -> N) (payer : N) (a : accounts) (authority : bytes)
    (info_len events orders : Z) (id_len min tick : N) : list N * list tx_ix :=
  ([ac_queue a; ac_bids a; ac_asks a; ac_market a],
   map Create (js_create_accounts min_balance payer a info_len events orders) ++
   [Program (js_create_market a authority (Z.to_N info_len) id_len min tick 0)]).
End Bindings.
