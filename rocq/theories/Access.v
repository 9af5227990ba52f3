(** * Access.v: who may send an instruction (used by C75)

    The documentation of the instructions (instruction.rs:17-91) lists a "caller
    authority" that must sign; js/src/bindings.ts:23 calls it "the required signer for all
    market instructions".  The program does not look at signatures. *)
From Verif Require Import Machine Bytes OrderBook Market Layout Borsh Ledger.

(** solana-program [AccountMeta]: an account named by an instruction, and whether its
    owner must have signed the transaction. *)
Record signed_meta := mk_signed_meta { sm_meta : meta; sm_signer : bool }.
(** Solana (external): a transaction in which an account marked as signer did not sign is
    not run ([None]).  Otherwise the program runs: it gets [AccountInfo]s whose
    [is_signer] says who signed, but neither entrypoint.rs:17-36 nor processor.rs:19-76
    nor the six processors read that field, so [execute] does not take it. *)
Definition submit (cs : nat) (same_id : bytes -> bytes -> bool) (rent_exempt : N -> nat -> bool) (pid : N)
    (signed : list N) (ms : list signed_meta) (data : bytes) (l : ledger)
    : option (res (option summary) * ledger) :=
  if forallb (fun m => negb (sm_signer m) || existsb (N.eqb (mt_key (sm_meta m))) signed) ms
  then Some (execute cs same_id rent_exempt pid (map sm_meta ms) data l) else None.

(** instruction.rs:108-227 and bonfida-utils [get_instruction]: no processor's [Accounts]
    has a field marked [#[cons(signer)]], and the register is pushed with
    [is_signer: false]: the builders ask for no signature. *)
Definition unsigned (ms : list meta) : list signed_meta := map (fun m => mk_signed_meta m false) ms.

(** ** What the documentation says *)
(** The position of the caller authority among the accounts, as documented
    (instruction.rs:41,51,64,76,89). *)
Definition documented_authority (tag : N) : option nat :=
  if tag =? ix_create_market then None
  else if tag =? ix_consume_events then Some 3%nat
  else Some 4%nat.
(** The account in that position signed. *)
Definition authority_signed (signed : list N) (ks : list N) (data : bytes) : Prop :=
  match data with
  | [] => True
  | t :: _ =>
      match documented_authority t with
      | Some n => exists k, ks !! n = Some k /\ k ∈ signed
      | None => True
      end
  end.
