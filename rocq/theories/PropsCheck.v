(** * PropsCheck.v: what passing the structural check means (C58)

    Vocabulary: CheckSpec.v ([slab_typed], [reads_as]). *)
From Coq Require Import Sorting.Sorted.
From stdpp Require Import gmap.
From Verif Require Import Machine Critbit DataSpec PropsData Check CheckSpec CheckProofs CheckSound.

(** Whatever is in a slab (it need not come from any sequence of operations), if the check
    passes and a lone order's slot is inside the slab, then every read answers as a list
    of orders sorted by id would. *)
Theorem C58_sound : forall (C : Type) (s : slab C),
  slab_typed s -> check_invariants s = Ok tt ->
  (is_inner (root_node (hdr s)) = false -> leaf_count (hdr s) <> 0 ->
   root_node (hdr s) < N.of_nat (length (leaf_nodes s))) ->
  exists os, reads_as s os.
Proof. intros C s T H Hr. destruct (check_tree s T H Hr) as [ot Ht]. by eapply tree_reads. Qed.
Print Assumptions C58_sound.
(** The check ends on every slab, even one whose links form a cycle. *)
Theorem C58_ends : forall (C : Type) (s : slab C), check_invariants s <> Diverge.
Proof. exact @check_ends. Qed.
Print Assumptions C58_ends.

(** A slab written by hand, with its nodes where no sequence of insertions puts them. *)
Definition chk_slab : slab N :=
  mk_slab (mk_header 1 2 4 0 77 2 (not32 0) 3)
    [mk_leaf 12 5; mk_leaf 3 1; mk_leaf 999 999; mk_leaf 9 40]
    [mk_inner 1 124 1 (not32 1); mk_inner 15 125 3 0; mk_inner 7 200 8 8]
    [120; 30; 0; 90].
(** The same with its first link closed into a cycle. *)
Definition chk_cycle : slab N :=
  set_inner_nodes chk_slab [mk_inner 1 124 (not32 0) (not32 1); mk_inner 15 125 3 0; mk_inner 7 200 8 8].
(** A prefix length repeated on a path. *)
Definition chk_flat : slab N :=
  set_inner_nodes chk_slab [mk_inner 1 124 1 (not32 1); mk_inner 15 124 3 0; mk_inner 7 200 8 8].
(** A lone order in a slot that does not exist. *)
Definition chk_lone : slab N := set_hdr chk_slab (mk_header 1 2 2 0 77 0 9 1).
(** The list of free slots starts at a slot in use. *)
Definition chk_free : slab N := set_hdr chk_slab (mk_header 1 0 4 0 77 2 (not32 0) 3).

Example C58_sound_example :
  slab_typed chk_slab /\ check_invariants chk_slab = Ok tt /\
  reads_as chk_slab [(mk_leaf 3 1, 30); (mk_leaf 9 40, 90); (mk_leaf 12 5, 120)] /\
  (* the check rejects a cycle and a prefix that does not grow, and ends on them *)
  check_invariants chk_cycle = Panic PAssert /\ check_invariants chk_flat = Panic PAssert /\
  (* it does not look at a lone order, so the theorem's third hypothesis is needed *)
  (slab_typed chk_lone /\ check_invariants chk_lone = Ok tt /\ find_by_key chk_lone 3 = Panic PIndex) /\
  (* nor at the free slots: this slab passes and reads the same, and inserting order 10
     makes order 12 disappear *)
  (check_invariants chk_free = Ok tt /\ traverse chk_free = traverse chk_slab /\
   let '(r, s') := slab_exec (SInsert 10 7 100) chk_free in
   r = Ok ANew /\ find_by_key s' 12 = Ok None).
Proof.
  assert (T : forall h, root_node h < p32 -> slab_typed (set_hdr chk_slab h)).
  { intros h Hh. split; [done|]. split; [by repeat constructor|]. split; [by repeat constructor|].
    cbn. lia. }
  split; [by apply (T (hdr chk_slab))|]. split; [by vm_compute|].
  split.
  { split; [cbn; repeat constructor|]. do 4 (split; [by vm_compute|]). split.
    - intros k Hk. destruct (decide (k = 3)) as [->|N3].
      { left. exists 1, (mk_leaf 3 1), 30. split_and!; try by vm_compute. left. }
      destruct (decide (k = 9)) as [->|N9].
      { left. exists 3, (mk_leaf 9 40), 90. split_and!; try by vm_compute. right; left. }
      destruct (decide (k = 12)) as [->|N12].
      { left. exists 0, (mk_leaf 12 5), 120. split_and!; try by vm_compute. right; right; left. }
      right. assert (Hni : k ∉ [3; 9; 12]) by (rewrite !not_elem_of_cons; split_and!; try done; apply not_elem_of_nil).
      split; [|done].
      destruct (C58_sound _ chk_slab (T (hdr chk_slab) eq_refl) eq_refl ltac:(done)) as (os&_&_&Ht&_&_&Hf&_).
      assert (Eos : os = [(mk_leaf 3 1, 30); (mk_leaf 9 40, 90); (mk_leaf 12 5, 120)]).
      { assert (Hv : traverse chk_slab = Ok [(mk_leaf 3 1, 30); (mk_leaf 9 40, 90); (mk_leaf 12 5, 120)])
          by (vm_compute; reflexivity). congruence. }
      subst os. destruct (Hf k Hk) as [(h&l&c&_&_&_&<-&Hin)|[Hn _]]; [|done].
      exfalso. apply Hni. apply (elem_of_list_fmap_1 (fun o => lf_key (fst o))) in Hin. exact Hin.
    - exists 1, 0, (mk_leaf 12 5). by vm_compute. }
  split; [by vm_compute|]. split; [by vm_compute|].
  split; [split; [by apply T|by vm_compute]|]. by vm_compute.
Qed.

(** critbit.rs:107-113 tests [h & INNER_FLAG]; the model tests bit 31 ([is_inner]). *)
Lemma is_inner_flag : forall h, is_inner h = negb (N.land h INNER_FLAG =? 0).
Proof.
  intros h. unfold is_inner. change INNER_FLAG with (2 ^ 31).
  destruct (N.eqb_spec (N.land h (2 ^ 31)) 0) as [E|E]; cbn [negb].
  - apply (f_equal (fun n => N.testbit n 31)) in E. rewrite N.land_spec, N.pow2_bits_true, andb_true_r in E. by rewrite E, N.bits_0.
  - destruct (N.testbit h 31) eqn:T; [done|]. destruct E. apply N.bits_inj. intros i. rewrite N.land_spec, N.bits_0.
    destruct (N.eq_dec i 31) as [->|Hi]; [by rewrite T|]. rewrite (N.pow2_bits_false 31 i) by congruence. apply andb_false_r.
Qed.
