(** * Bytes.v: little-endian byte strings

    Used for the bytemuck casts of program/src/state/event_queue.rs and for the
    account layouts and Borsh encodings of Layout.v.  A byte is an [N] below 256. *)
From Verif Require Import Machine.

(** The [n] little-endian bytes of [v] (truncated to [n] bytes). *)
Fixpoint le_enc (n : nat) (v : N) : list N :=
  match n with
  | O => []
  | S n => (v mod 256) :: le_enc n (v / 256)
  end.

(** The number denoted by little-endian bytes. *)
Fixpoint le_dec (l : list N) : N :=
  match l with
  | [] => 0
  | b :: l => b + 256 * le_dec l
  end.

Definition zeros (n : nat) : list N := replicate n 0.

(** [slice l off len]: the bytes [off, off+len). *)
Definition slice {A} (l : list A) (off len : nat) : list A := take len (drop off l).

(** All elements are bytes. *)
Definition bytes_ok (l : list N) : Prop := Forall (fun b => b < 256) l.
