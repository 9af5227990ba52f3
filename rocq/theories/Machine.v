(** * Machine.v: results, state, fixed-width integers, arrays, loops, fp_math

    The vocabulary the model is written in.  Nothing here models a file of /repo,
    except [fp32_div], [fp32_mul_floor] and [fp32_mul_ceil] (external crate
    bonfida-utils 0.4.4, module fp_math, imported by
    program/src/state/orderbook.rs:15) and the error enumeration
    (program/src/error.rs). *)
From stdpp Require Export prelude.
From Coq Require Export NArith ZArith Lia.
From Coq Require Import ZifyBool ZifyNat ZifyN.
Global Open Scope N_scope.

(** ** Powers of two, as literals so that [lia] sees them *)
Notation p16 := 65536%N.
Notation p31 := 2147483648%N.
Notation p32 := 4294967296%N.
Notation p63 := 9223372036854775808%N.
Notation p64 := 18446744073709551616%N.
Notation p127 := 170141183460469231731687303715884105728%N.
Notation p128 := 340282366920938463463374607431768211456%N.
Notation u64_max := 18446744073709551615%N.

(** ** Outcomes *)

(** program/src/error.rs:10-61 (only the variants that the code can produce are
    listed; the numeric code of a variant is its position in that enum, see
    [ao_code] in Ledger.v), followed by the [ProgramError] values used. *)
Inductive error :=
| WrongBidsAccount | WrongAsksAccount | WrongEventQueueAccount
| EventQueueFull | OrderNotFound | WouldSelfTrade | SlabOutOfSpace
| MarketStillActive | WrongEventQueueOwner | WrongBidsOwner | WrongAsksOwner
| WrongMarketOwner | InvalidLimitPrice | NumericalOverflow | AccountTagMismatch
| PE_InvalidInstructionData | PE_NotEnoughAccountKeys | PE_InvalidArgument
| PE_InvalidAccountData | PE_AccountAlreadyInitialized | PE_AccountNotRentExempt
| PE_Runtime          (* rejected by the Solana runtime after the program returned *).

(** Why a Rust program aborts. *)
Inductive panic :=
| POverflow        (* arithmetic overflow or underflow (debug profile) *)
| PIndex           (* slice index out of bounds *)
| PUnwrap          (* unwrap on None or Err *)
| PAssert          (* assert! *)
| PDivZero         (* division or remainder by zero *)
| PBorrow          (* RefCell already borrowed *)
| PCast.           (* bytemuck size or alignment mismatch *)

(** [Diverge] is the model running out of fuel.  It is not an outcome of the
    program: theorems exclude it explicitly. *)
Inductive res (A : Type) :=
| Ok (a : A)
| Err (e : error)
| Panic (p : panic)
| Diverge.
Global Arguments Ok {A} a.
Global Arguments Err {A} e.
Global Arguments Panic {A} p.
Global Arguments Diverge {A}.

Definition is_ok {A} (r : res A) : bool := match r with Ok _ => true | _ => false end.

(** ** State-passing computations.  The state is returned on failure as well, so
    partial mutation before an error is visible. *)
Definition M (S A : Type) : Type := S -> res A * S.

Definition ret {S A} (a : A) : M S A := fun s => (Ok a, s).
Definition fail {S A} (e : error) : M S A := fun s => (Err e, s).
Definition panic_with {S A} (p : panic) : M S A := fun s => (Panic p, s).
Definition bind {S A B} (m : M S A) (f : A -> M S B) : M S B :=
  fun s =>
    match m s with
    | (Ok a, s') => f a s'
    | (Err e, s') => (Err e, s')
    | (Panic p, s') => (Panic p, s')
    | (Diverge, s') => (Diverge, s')
    end.
Definition get {S} : M S S := fun s => (Ok s, s).
Definition put {S} (s' : S) : M S unit := fun _ => (Ok tt, s').
Definition modify {S} (f : S -> S) : M S unit := fun s => (Ok tt, f s).
Definition lift {S A} (r : res A) : M S A := fun s => (r, s).

(** Run a computation on a component of the state. *)
Definition zoom {S T A} (proj : S -> T) (inj : T -> S -> S) (m : M T A) : M S A :=
  fun s => let '(r, t) := m (proj s) in (r, inj t s).

Definition rbind {A B} (m : res A) (f : A -> res B) : res B :=
  match m with
  | Ok a => f a
  | Err e => Err e
  | Panic p => Panic p
  | Diverge => Diverge
  end.

Declare Scope m_scope.
Delimit Scope m_scope with m.
Notation "'let!' x ':=' m 'in' k" := (bind m (fun x => k))
  (at level 200, x binder, m at level 100, k at level 200,
   format "'[v' 'let!'  x  ':='  m  'in' '/' k ']'").
Notation "'do!' m 'in' k" := (bind m (fun _ => k))
  (at level 200, m at level 100, k at level 200,
   format "'[v' 'do!'  m  'in' '/' k ']'").
Notation "'let?' x ':=' m 'in' k" := (rbind m (fun x => k))
  (at level 200, x binder, m at level 100, k at level 200,
   format "'[v' 'let?'  x  ':='  m  'in' '/' k ']'").

(** [Option::unwrap], [ok_or] *)
Definition unwrap {A} (o : option A) : res A :=
  match o with Some a => Ok a | None => Panic PUnwrap end.
Definition ok_or {A} (o : option A) (e : error) : res A :=
  match o with Some a => Ok a | None => Err e end.

(** ** Fixed-width arithmetic *)

(** Unchecked Rust [+ - *] on u32/u64.  The debug profile panics, the release
    profile wraps.  The model panics; theorems show it never happens. *)
Definition add_w (w : N) (a b : N) : res N :=
  if a + b <? w then Ok (a + b) else Panic POverflow.
Definition sub_w (a b : N) : res N :=
  if b <=? a then Ok (a - b) else Panic POverflow.
Definition mul_w (w : N) (a b : N) : res N :=
  if a * b <? w then Ok (a * b) else Panic POverflow.

(** [!x] on u32 and u64 *)
Definition not32 (x : N) : N := (p32 - 1) - x.
Definition not64 (x : N) : N := (p64 - 1) - x.
(** [x as u32] *)
Definition as_u32 (x : N) : N := x mod p32.
Definition as_u64 (x : N) : N := x mod p64.
(** [u128::leading_zeros] *)
Definition lz128 (x : N) : N := 128 - N.size x.

(** ** Arrays (slices).  The length guard keeps evaluation cheap on huge indices. *)
Definition getN {A} (l : list A) (i : N) : option A :=
  if i <? N.of_nat (length l) then l !! N.to_nat i else None.
Definition idx {A} (l : list A) (i : N) : res A :=
  match getN l i with Some a => Ok a | None => Panic PIndex end.
Definition setN {A} (l : list A) (i : N) (a : A) : list A :=
  if i <? N.of_nat (length l) then <[N.to_nat i := a]> l else l.
Definition upd {A} (l : list A) (i : N) (a : A) : res (list A) :=
  if i <? N.of_nat (length l) then Ok (setN l i a) else Panic PIndex.

(** ** Loops.  [loop n step a] runs at most [n] iterations. *)
Inductive step (A R : Type) := Continue (a : A) | Done (r : R).
Global Arguments Continue {A R} a.
Global Arguments Done {A R} r.

Fixpoint loop_pos {A R} (n : positive) (f : A -> step A R) (a : A) : step A R :=
  match n with
  | xH => f a
  | xO n =>
      match loop_pos n f a with
      | Continue a' => loop_pos n f a'
      | Done r => Done r
      end
  | xI n =>
      match f a with
      | Continue a' =>
          match loop_pos n f a' with
          | Continue a'' => loop_pos n f a''
          | Done r => Done r
          end
      | Done r => Done r
      end
  end.
Definition loop {A R} (n : N) (f : A -> step A R) (a : A) : step A R :=
  match n with N0 => Continue a | Npos p => loop_pos p f a end.

(** ** fp_math (bonfida-utils 0.4.4, external: modelled from its documented
    behaviour; a is an integer, b a 32-bit fixed point number; computation in
    u128, result downcast to u64 with a check). *)
Definition to_u64 (x : N) : option N := if x <? p64 then Some x else None.
Definition fp32_div (a b : N) : option N :=
  if b =? 0 then None else to_u64 (a * p32 / b).
Definition fp32_mul_floor (a b : N) : option N := to_u64 (a * b / p32).
Definition fp32_mul_ceil (a b : N) : option N := to_u64 ((a * b + (p32 - 1)) / p32).

Definition unwrap_or (o : option N) (d : N) : N := default d o.
