(** * Check.v: model of the structural check the code runs on slabs in its tests
    (program/src/state/critbit.rs:495-600 [check_invariants], under [cfg(test)]) *)
From Verif Require Import Machine Critbit.

(** Two's complement: the value of a u128 read as an i128, and back. *)
Definition as_i128 (x : N) : Z :=
  if x <? 2 ^ 127 then Z.of_N x else (Z.of_N x - Z.of_N p128)%Z.
Definition as_u128 (z : Z) : N := Z.to_N (z mod Z.of_N p128)%Z.

(** critbit.rs:527-528, 541-542: [(((((1u128) << 127) as i128) >> last_prefix_len) as u128) << 1]. *)
Definition prefix_mask (last : N) : N :=
  (N.shiftl (as_u128 (Z.shiftr (as_i128 (N.shiftl 1 127)) (Z.of_N last))) 1) mod p128.
(** critbit.rs:517, 524, 539: [(key & ((1u128 << 127) >> last_prefix_len)) != 0]. *)
Definition bit_set (key last : N) : bool :=
  negb (N.land key (N.shiftr (N.shiftl 1 127) last) =? 0).

(** [assert!]. *)
Definition assert_that (b : bool) : res unit := if b then Ok tt else Panic PAssert.

Section Check.
Context {C : Type}.

(** critbit.rs:500-567 [check_rec]; tests are built with overflow checks, so a shift by 128
    or more panics ([shift_ok]); the two counters are returned.  They are u64 and
    bounded by the number of slots, so their additions are exact. *)
Fixpoint check_rec (fuel : nat) (s : slab C) (h last last_prefix : N) (last_critbit : bool)
    : res (N * N) :=
  match fuel with
  | O => Diverge
  | S fuel =>
      if is_inner h then
        let? n := idx (inner_nodes s) (not32 h) in
        let? _ := assert_that (last <? in_plen n) in
        let? _ := shift_ok last in
        let? _ := assert_that (Bool.eqb last_critbit (bit_set (in_key n) last)) in
        let? _ := assert_that (N.land last_prefix (prefix_mask last) =? N.land (in_key n) (prefix_mask last)) in
        let? l := check_rec fuel s (in_c0 n) (in_plen n) (in_key n) false in
        let? r := check_rec fuel s (in_c1 n) (in_plen n) (in_key n) true in
        Ok (fst l + fst r, 1 + snd l + snd r)
      else
        let? lf := idx (leaf_nodes s) h in
        let? _ := shift_ok last in
        let? _ := assert_that (Bool.eqb last_critbit (bit_set (lf_key lf) last)) in
        let? _ := assert_that (N.land last_prefix (prefix_mask last) =? N.land (lf_key lf) (prefix_mask last)) in
        Ok (1, 0)
  end.

(** critbit.rs:495-600 [check_invariants]. *)
Definition check_invariants (s : slab C) : res unit :=
  let? cnt :=
    match root s with
    | None => Ok (0, 0)
    | Some r =>
        if is_inner r then
          let? n := idx (inner_nodes s) (not32 r) in
          let? a := check_rec walk_fuel s (in_c0 n) (in_plen n) (in_key n) false in
          let? b := check_rec walk_fuel s (in_c1 n) (in_plen n) (in_key n) true in
          Ok (fst a + fst b, 1 + snd a + snd b)
        else Ok (1, 0)
    end in
  let? _ := assert_that (snd cnt + inner_node_free_list_len (hdr s) =? inner_node_bump_index (hdr s)) in
  let? _ := assert_that (leaf_count (hdr s) + leaf_free_list_len (hdr s) =? leaf_bump_index (hdr s)) in
  assert_that (fst cnt =? leaf_count (hdr s)).
End Check.
