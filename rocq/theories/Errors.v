(** * Errors.v: what a client sees of a failure (program/src/error.rs) *)
From Verif Require Import Machine Bytes Layout Borsh Ledger.

(** The values of [ProgramError] (solana_program, external) that occur. *)
Inductive program_error :=
| Custom (code : N)
| NotEnoughAccountKeys | InvalidInstructionData | InvalidArgument | InvalidAccountData
| AccountAlreadyInitialized | AccountNotRentExempt.
(** error.rs:63-67, [From<AoError> for ProgramError]: the position of the variant.  The
    model's [error] has the variants of [AoError] that the program returns and, with the
    prefix [PE_], the values of [ProgramError] that it returns directly.  [PE_Runtime] is
    the runtime's, not the program's. *)
Definition to_program_error (e : error) : option program_error :=
  match ao_code e with
  | Some n => Some (Custom n)
  | None =>
      match e with
      | PE_InvalidInstructionData => Some InvalidInstructionData
      | PE_NotEnoughAccountKeys => Some NotEnoughAccountKeys
      | PE_InvalidArgument => Some InvalidArgument
      | PE_InvalidAccountData => Some InvalidAccountData
      | PE_AccountAlreadyInitialized => Some AccountAlreadyInitialized
      | PE_AccountNotRentExempt => Some AccountNotRentExempt
      | _ => None
      end
  end.
(** The program returned with this error. *)
Definition fails {A} (r : res A) (x : program_error) : Prop :=
  exists e, r = Err e /\ to_program_error e = Some x.
