(** * ScheduleProofs.v: a transaction depends on the accounts it names only (C74) *)
From Verif Require Import Machine MachineProofs Bytes Critbit EventQueue OrderBook Market Layout Borsh Ledger LedgerSpec LedgerProofs
  ScheduleSpec.
From Coq Require Import ZifyBool ZifyNat ZifyN.

Definition agree (K : list N) (l l' : ledger) : Prop := forall k, k ∈ K -> l k = l' k.
(** The outcome and the accounts of [K] afterwards depend on the accounts of [K]; the
    others stay, and so do all owners. *)
Record local {A} (K : list N) (x : M ledger A) : Prop := {
  lo_same : forall l l', agree K l l' -> fst (x l) = fst (x l') /\ agree K (snd (x l)) (snd (x l'));
  lo_frame : forall l k, k ∉ K -> snd (x l) k = l k;
  lo_owner : forall l k, a_owner (snd (x l) k) = a_owner (l k);
}.
Section Rules.
Context (K : list N).
Notation local := (local K).
Lemma lo_ret {A} (a : A) : local (ret a). Proof. by split. Qed.
Lemma lo_fail {A} e : local (fail e : M ledger A). Proof. by split. Qed.
Lemma lo_panic {A} p : local (panic_with p : M ledger A). Proof. by split. Qed.
Lemma lo_lift {A} (r : res A) : local (lift r). Proof. by split. Qed.
Lemma lo_bind {A B} (x : M ledger A) (f : A -> M ledger B) :
  local x -> (forall a, local (f a)) -> local (bind x f).
Proof.
  intros [S1 F1 O1] Hf. split.
  - intros l l' H. destruct (S1 l l' H) as [E1 E2]. unfold bind.
    destruct (x l) as [r s], (x l') as [r' s']. cbn in *. subst r'. destruct r; cbn; [|done..].
    by apply (Hf a).
  - intros l k Hk. specialize (F1 l k Hk). unfold bind. destruct (x l) as [[a|e|p|] s]; cbn in *; try done.
    rewrite <- F1. by apply (Hf a).
  - intros l k. specialize (O1 l k). unfold bind. destruct (x l) as [[a|e|p|] s]; cbn in *; try done.
    rewrite <- O1. by apply (Hf a).
Qed.
Lemma lo_get {A} (f : ledger -> M ledger A) :
  (forall l, local (f l)) -> (forall l l', agree K l l' -> f l = f l') -> local (bind get f).
Proof.
  intros Hf He. split.
  - intros l l' H. unfold bind, get. rewrite (He l l' H). by apply (Hf l').
  - intros l k Hk. unfold bind, get. by apply (Hf l).
  - intros l k. unfold bind, get. by apply (Hf l).
Qed.
Lemma lo_set_data k d : k ∈ K -> local (set_data k d).
Proof.
  intros Hk. unfold set_data, modify. split; cbn.
  - intros l l' H. split; [done|]. intros j Hj. unfold set_account. destruct (j =? k) eqn:E; [by rewrite H|by apply H].
  - intros l j Hj. rewrite set_account_ne; [done|]. by intros ->.
  - intros l j. unfold set_account. by destruct (N.eqb_spec j k) as [->|].
Qed.
Lemma lo_set_lamports k d : k ∈ K -> local (set_lamports k d).
Proof.
  intros Hk. unfold set_lamports, modify. split; cbn.
  - intros l l' H. split; [done|]. intros j Hj. unfold set_account. destruct (j =? k) eqn:E; [by rewrite H|by apply H].
  - intros l j Hj. rewrite set_account_ne; [done|]. by intros ->.
  - intros l j. unfold set_account. by destruct (N.eqb_spec j k) as [->|].
Qed.
Lemma lo_borrow h k : k ∈ K -> local (borrow h k).
Proof.
  intros Hk. unfold borrow. apply lo_get.
  - intros l. destruct (existsb _ _); [apply lo_panic|apply lo_ret].
  - intros l l' H. by rewrite (H k Hk).
Qed.
Lemma lo_borrow_lamports h k : k ∈ K -> local (borrow_lamports h k).
Proof.
  intros Hk. unfold borrow_lamports. apply lo_get.
  - intros l. destruct (existsb _ _); [apply lo_panic|apply lo_ret].
  - intros l l' H. by rewrite (H k Hk).
Qed.
Lemma lo_owner_check k o e : k ∈ K -> local (check_account_owner k o e).
Proof.
  intros Hk. unfold check_account_owner. apply lo_get.
  - intros l. destruct (_ =? _); [apply lo_ret|apply lo_fail].
  - intros l l' H. by rewrite (H k Hk).
Qed.
Lemma lo_rent re k : k ∈ K -> local (check_rent_exempt re k).
Proof.
  intros Hk. unfold check_rent_exempt. apply lo_get.
  - intros l. destruct (re _ _); [apply lo_ret|apply lo_fail].
  - intros l l' H. by rewrite (H k Hk).
Qed.
Lemma lo_key k o e : local (check_account_key k o e).
Proof. unfold check_account_key. destruct (_ =? _); [apply lo_ret|apply lo_fail]. Qed.
End Rules.

Ltac lo_step :=
  match goal with
  | |- local _ (ret _) => apply lo_ret
  | |- local _ (fail _) => apply lo_fail
  | |- local _ (panic_with _) => apply lo_panic
  | |- local _ (lift _) => apply lo_lift
  | |- local _ (set_data _ _) => apply lo_set_data; auto
  | |- local _ (set_lamports _ _) => apply lo_set_lamports; auto
  | |- local _ (borrow _ _) => apply lo_borrow; auto
  | |- local _ (borrow_lamports _ _) => apply lo_borrow_lamports; auto
  | |- local _ (check_account_owner _ _ _) => apply lo_owner_check; auto
  | |- local _ (check_account_key _ _ _) => apply lo_key
  | |- local _ (check_rent_exempt _ _) => apply lo_rent; auto
  | |- local _ (bind get _) => fail 1
  | |- local _ (bind _ _) => apply lo_bind; [|intros ?]
  | |- local _ (match ?x with _ => _ end) => destruct x
  end.
Ltac lo_all := repeat (cbv zeta; lo_step).

Section Processors.
Context (cs : nat) (same_id : bytes -> bytes -> bool) (rent_exempt : N -> nat -> bool) (pid : N) (K : list N).
Definition inside (a : accounts) : Prop := ac_market a ∈ K /\ ac_queue a ∈ K /\ ac_bids a ∈ K /\ ac_asks a ∈ K.
Lemma lo_checks a : inside a -> local K (perform_checks pid a).
Proof. intros (?&?&?&?). unfold perform_checks. lo_all. Qed.
Lemma lo_accounts a ms : local K (check_accounts a ms).
Proof. unfold check_accounts. lo_all. Qed.
Lemma lo_open_market k t : k ∈ K -> local K (open_market k t).
Proof. intros ?. unfold open_market. lo_all. Qed.
Lemma lo_open_book h a : inside a -> local K (open_book cs h a).
Proof. intros (?&?&?&?). unfold open_book. lo_all. Qed.
Lemma lo_new_order a p : inside a -> local K (new_order_l cs same_id pid a p).
Proof.
  intros Hi. pose proof Hi as (?&?&?&?). unfold new_order_l.
  lo_all; first [by apply lo_checks|by apply lo_open_market|apply lo_accounts|by apply lo_open_book].
Qed.
Lemma lo_with_book a f : inside a -> local K (with_book cs pid a f).
Proof.
  intros Hi. pose proof Hi as (?&?&?&?). unfold with_book.
  lo_all; first [by apply lo_checks|by apply lo_open_market|apply lo_accounts|by apply lo_open_book].
Qed.
Lemma lo_consume km kq n : km ∈ K -> kq ∈ K -> local K (consume_events_l cs pid km kq n).
Proof. intros ? ?. unfold consume_events_l. lo_all. by apply lo_open_market. Qed.
Lemma lo_close a t : inside a -> t ∈ K -> local K (close_market cs pid a t).
Proof.
  intros Hi Ht. pose proof Hi as (?&?&?&?). unfold close_market, sides_empty.
  lo_all; try first [by apply lo_open_market|apply lo_accounts].
  apply lo_get; [intros l1; lo_all|]. intros l1 l2 Hl. by rewrite (Hl (ac_market a)).
Qed.
Lemma lo_create a p : inside a -> local K (create_market cs rent_exempt pid a p).
Proof. intros (?&?&?&?). unfold create_market. lo_all. Qed.
Lemma lo_decode {A} (r : reader A) d : local K (decode r d).
Proof. unfold decode. lo_all. Qed.
Lemma parse_inside ks a : (forall k, k ∈ ks -> k ∈ K) -> parse_accounts ks = Ok a -> inside a.
Proof.
  intros Hs. destruct ks as [|k1 [|k2 [|k3 [|k4 ks]]]]; cbn; try done. intros [= <-].
  repeat split; cbn; apply Hs; set_solver.
Qed.
Lemma lo_parse {A B} (r : res A) (f : A -> M ledger B) :
  (forall a, r = Ok a -> local K (f a)) -> local K (bind (lift r) f).
Proof. intros H. destruct r; [|by split..]. unfold bind, lift. by apply H. Qed.
Lemma lo_instr ks data : (forall k, k ∈ ks -> k ∈ K) -> local K (process_instruction cs same_id rent_exempt pid ks data).
Proof.
  intros Hs. unfold process_instruction. destruct data as [|t d]; [apply lo_panic|].
  assert (Ha : forall B (f : accounts -> M ledger B), (forall a, inside a -> local K (f a)) ->
    local K (bind (lift (parse_accounts ks)) f)).
  { intros B f Hf. apply lo_parse. intros a E. apply Hf. by eapply parse_inside. }
  destruct (t =? _); [|destruct (t =? _); [|destruct (t =? _); [|destruct (t =? _); [|destruct (t =? _); [|destruct (t =? _)]]]]].
  - apply Ha. intros a Hi. lo_all; [apply lo_decode|by apply lo_create].
  - apply Ha. intros a Hi. lo_all; [apply lo_decode|by apply lo_new_order].
  - apply lo_parse. intros a E. destruct ks as [|k1 [|k2 ks]]; cbn in E; try done. injection E as <-.
    lo_all; [apply lo_decode|]. apply lo_consume; apply Hs; set_solver.
  - apply Ha. intros a Hi. lo_all; [apply lo_decode|by apply lo_with_book].
  - apply lo_parse. intros a E. destruct ks as [|k1 [|k2 [|k3 [|k4 [|k5 ks]]]]]; cbn in E; try done. injection E as <-.
    lo_all. apply lo_close; [repeat split|]; cbn; apply Hs; set_solver.
  - apply Ha. intros a Hi. lo_all; [apply lo_decode|by apply lo_with_book].
  - apply lo_fail.
Qed.
Lemma split_last_in ks i r : split_last ks = Some (i, r) -> ks = i ++ [r].
Proof.
  revert i. induction ks as [|k ks IH]; intros i; [done|]. cbn. destruct ks as [|k' ks]; [by intros [= <- <-]|].
  destruct (split_last (k' :: ks)) as [[i' r']|]; [|done]. intros [= <- <-]. by rewrite (IH i' eq_refl).
Qed.
Lemma lo_entry ks data : (forall k, k ∈ ks -> k ∈ K) -> local K (entrypoint cs same_id rent_exempt pid ks data).
Proof.
  intros Hs. unfold entrypoint. apply lo_parse. intros [i r] E.
  assert (Hi : ks = i ++ [r]).
  { destruct (split_last ks) as [[i' r']|] eqn:Es; [|done]. injection E as -> ->. by apply split_last_in. }
  subst ks. cbn [fst snd]. lo_all; try (apply Hs; set_solver). apply lo_instr. set_solver.
Qed.
End Processors.

Section Execute.
Context (cs : nat) (same_id : bytes -> bytes -> bool) (rent_exempt : N -> nat -> bool) (pid : N).
Notation run1 := (run1 cs same_id rent_exempt pid).
Notation run_list := (run_list cs same_id rent_exempt pid).
Notation run_schedule := (run_schedule cs same_id rent_exempt pid).
Lemma total_agree ks l l' : agree ks l l' -> total_lamports ks l = total_lamports ks l'.
Proof.
  intros H. unfold total_lamports. induction ks as [|k ks IH]; [done|]. cbn. rewrite IH, (H k); [done|set_solver|].
  intros j Hj. apply H. set_solver.
Qed.
Lemma runtime_agree ms l1 l1' l2 l2' : agree (map mt_key ms) l1 l2 -> agree (map mt_key ms) l1' l2' ->
  runtime_ok pid ms l1 l1' = runtime_ok pid ms l2 l2'.
Proof.
  intros H H'. unfold runtime_ok. set (ks := remove_dups (map mt_key ms)).
  assert (Hk : forall k, k ∈ ks -> k ∈ map mt_key ms) by (intros k; apply elem_of_remove_dups).
  f_equal.
  - assert (Hall : forall k, k ∈ ks -> account_ok pid ms l1 l1' k = account_ok pid ms l2 l2' k).
    { intros k Hin. unfold account_ok. by rewrite (H k), (H' k) by auto. }
    clearbody ks. clear Hk. induction ks as [|k ks IH]; [done|]. cbn. rewrite IH, Hall; [done|set_solver|].
    intros j Hj. apply Hall. set_solver.
  - by rewrite (total_agree ks l1' l2'), (total_agree ks l1 l2) by (intros k Hin; auto).
Qed.
(** What an instruction sees and does. *)
Notation exec1 := (execute cs same_id rent_exempt pid).
Lemma execute_same ms data K l l' : (forall k, k ∈ map mt_key ms -> k ∈ K) -> agree K l l' ->
  fst (exec1 ms data l) = fst (exec1 ms data l') /\ agree K (snd (exec1 ms data l)) (snd (exec1 ms data l')).
Proof.
  intros HK H. unfold execute.
  destruct (lo_same _ _ (lo_entry cs same_id rent_exempt pid K (map mt_key ms) data HK) l l' H) as [E1 E2].
  destruct (entrypoint cs same_id rent_exempt pid (map mt_key ms) data l) as [r l1].
  destruct (entrypoint cs same_id rent_exempt pid (map mt_key ms) data l') as [r' l1'].
  cbn in E1, E2. subst r'. destruct r as [r|e|p|]; [|done..].
  rewrite (runtime_agree ms l l1 l' l1') by (intros k Hk; auto). by destruct (runtime_ok _ _ _ _).
Qed.
Lemma execute_frame ms data l k : k ∉ map mt_key ms \/ writable ms k = false -> snd (exec1 ms data l) k = l k.
Proof.
  intros Hk. unfold execute.
  destruct (lo_entry cs same_id rent_exempt pid (map mt_key ms) (map mt_key ms) data ltac:(done)) as [_ Hf Ho].
  specialize (Hf l k). specialize (Ho l k).
  destruct (entrypoint _ _ _ _ _ _ l) as [[r|e|p|] l1]; try done.
  destruct (runtime_ok _ _ _ _) eqn:E; [|done]. cbn in *.
  destruct (decide (k ∈ map mt_key ms)) as [Hin|Hin]; [|auto]. destruct Hk as [|Hk]; [done|].
  unfold runtime_ok in E. apply andb_prop in E as [E _]. rewrite forallb_forall in E.
  specialize (E k (proj1 (elem_of_list_In _ _) (proj2 (elem_of_remove_dups _ _) Hin))).
  unfold account_ok in E.
  rewrite Hk, andb_false_r, !orb_false_r in E. apply andb_prop in E as [E _]. apply andb_prop in E as [E1 E2].
  apply bool_decide_eq_true in E1. apply N.eqb_eq in E2. destruct (l1 k), (l k). cbn in *. by subst.
Qed.
Lemma granted_keys t i : map mt_key (granted t i) = map mt_key (i_metas i).
Proof. unfold granted. rewrite map_map. by apply map_ext. Qed.
Lemma granted_write t i k : may_write t k = false -> writable (granted t i) k = false.
Proof.
  intros H. unfold writable, granted. induction (i_metas i) as [|m ms IH]; [done|]. cbn. rewrite IH.
  destruct (N.eqb_spec (mt_key m) k) as [->|]; [|done]. by rewrite H.
Qed.
(** What a transaction sees and does. *)
Lemma run_list_same t is K : (forall i k, i ∈ is -> k ∈ map mt_key (i_metas i) -> k ∈ K) -> forall l l', agree K l l' ->
  fst (run_list t is l) = fst (run_list t is l') /\
  match snd (run_list t is l), snd (run_list t is l') with
  | Some l1, Some l2 => agree K l1 l2
  | None, None => True
  | _, _ => False
  end.
Proof.
  induction is as [|i is IH]; intros HK l l' H; [done|]. cbn [ScheduleSpec.run_list].
  destruct (execute_same (granted t i) (i_data i) K l l') as [E1 E2]; [|done|].
  { rewrite granted_keys. intros k Hk. by apply (HK i); [set_solver|]. }
  destruct (exec1 (granted t i) (i_data i) l) as [r l1], (exec1 (granted t i) (i_data i) l') as [r' l1'].
  cbn in E1, E2. subst r'. destruct r as [r|e|p|]; [|done..].
  destruct (IH ltac:(intros j k Hj; apply HK; set_solver) l1 l1' E2) as [E3 E4].
  destruct (run_list t is l1), (run_list t is l1'). cbn in *. by subst.
Qed.
Lemma run_list_frame t is k : (forall i, i ∈ is -> k ∉ map mt_key (i_metas i)) \/ may_write t k = false ->
  forall l l', snd (run_list t is l) = Some l' -> l' k = l k.
Proof.
  induction is as [|i is IH]; intros Hk l l'; cbn [ScheduleSpec.run_list]; [by intros [= <-]|].
  pose proof (execute_frame (granted t i) (i_data i) l k) as Hf.
  destruct (exec1 (granted t i) (i_data i) l) as [[r|e|p|] l1]; [|done..].
  intros H. rewrite (IH ltac:(destruct Hk as [Hk|Hk]; [left; intros j Hj; apply Hk; by apply elem_of_list_further|by right]) l1 l').
  - apply Hf. rewrite granted_keys. destruct Hk as [Hk|Hk]; [left; apply Hk, elem_of_list_here|right; by apply granted_write].
  - by destruct (run_list t is l1).
Qed.
Lemma names_in t i k : i ∈ t -> k ∈ map mt_key (i_metas i) -> k ∈ names t.
Proof.
  intros Hi Hk. unfold names, metas. apply elem_of_list_fmap in Hk as (m&->&Hm). apply elem_of_list_fmap.
  exists m. split; [done|]. apply elem_of_list_In, in_flat_map. exists i. by rewrite <- !elem_of_list_In.
Qed.
Lemma run1_same i l l' : agree (names i) l l' ->
  fst (run1 i l) = fst (run1 i l') /\ agree (names i) (snd (run1 i l)) (snd (run1 i l')).
Proof.
  intros H. unfold ScheduleSpec.run1.
  destruct (run_list_same i i (names i) (names_in i) l l' H) as [E1 E2].
  destruct (run_list i i l) as [rs o], (run_list i i l') as [rs' o']. cbn in *. subst rs'.
  by destruct o, o'.
Qed.
Lemma run1_frame i l k : k ∉ names i \/ may_write i k = false -> snd (run1 i l) k = l k.
Proof.
  intros Hk. unfold ScheduleSpec.run1.
  pose proof (run_list_frame i i k ltac:(destruct Hk as [Hk|Hk]; [left; intros j Hj Hjk; by apply Hk, (names_in i j)|by right]) l) as Hf.
  destruct (run_list i i l) as [rs [l'|]]; cbn in *; auto.
Qed.
Lemma run1_ext i l l' : same_ledger l l' -> fst (run1 i l) = fst (run1 i l') /\ same_ledger (snd (run1 i l)) (snd (run1 i l')).
Proof.
  intros H. destruct (run1_same i l l' ltac:(intros k _; apply H)) as [E1 E2]. split; [done|].
  intros k. destruct (decide (k ∈ names i)); [by apply E2|]. by rewrite !run1_frame by (by left).
Qed.
Lemma conflict_sym i j : conflict i j -> conflict j i.
Proof. intros (k & ? & ? & ?). exists k. naive_solver. Qed.
Lemma untouched i j l : ~ conflict i j -> agree (names j) (snd (run1 i l)) l.
Proof.
  intros H k Hk. apply run1_frame. destruct (decide (k ∈ names i)) as [Hi|Hi]; [right|by left].
  destruct (may_write i k) eqn:E; [|done]. exfalso. apply H. exists k. auto.
Qed.
Lemma run1_commute i j l : ~ conflict i j ->
  fst (run1 j (snd (run1 i l))) = fst (run1 j l) /\ fst (run1 i (snd (run1 j l))) = fst (run1 i l) /\
  same_ledger (snd (run1 j (snd (run1 i l)))) (snd (run1 i (snd (run1 j l)))).
Proof.
  intros H. assert (H' : ~ conflict j i) by (intros Hc; by apply H, conflict_sym).
  pose proof (untouched i j l H) as U. pose proof (untouched j i l H') as U'.
  destruct (run1_same j _ _ U) as [E1 E2]. destruct (run1_same i _ _ U') as [E3 E4].
  split; [done|split; [done|]]. intros k.
  destruct (decide (k ∈ names j)) as [Kj|Kj]; destruct (decide (k ∈ names i)) as [Ki|Ki].
  - assert (may_write i k = false /\ may_write j k = false) as [W1 W2].
    { destruct (may_write i k) eqn:E, (may_write j k) eqn:E'; try done; exfalso; apply H; exists k; auto. }
    by rewrite !run1_frame by (by right).
  - rewrite (E2 k Kj). symmetry. apply run1_frame. by left.
  - rewrite (run1_frame j) by (by left). symmetry. by apply E4.
  - by rewrite !run1_frame by (by left).
Qed.

Lemma run_ext s l l' : same_ledger l l' ->
  fst (run_schedule s l) = fst (run_schedule s l') /\ same_ledger (snd (run_schedule s l)) (snd (run_schedule s l')).
Proof.
  revert l l'. induction s as [|[n i] s IH]; intros l l' H; [done|]. cbn.
  destruct (run1_ext i l l' H) as [E1 E2].
  destruct (run1 i l) as [r l1], (run1 i l') as [r' l1']. cbn in *. subst r'.
  destruct (IH l1 l1' E2) as [E3 E4]. destruct (run_schedule s l1), (run_schedule s l1'). cbn in *. by subst.
Qed.
(** Moving a transaction to the front. *)
Lemma run_front u n i v l : (forall y, y ∈ u -> ~ conflict i (snd y)) ->
  Permutation (fst (run_schedule (u ++ (n, i) :: v) l)) (fst (run_schedule ((n, i) :: u ++ v) l)) /\
  same_ledger (snd (run_schedule (u ++ (n, i) :: v) l)) (snd (run_schedule ((n, i) :: u ++ v) l)).
Proof.
  revert l. induction u as [|[m j] u IH]; intros l H; [done|].
  destruct (run1_commute i j l ltac:(apply (H (m, j)); set_solver)) as (E1 & E2 & E3).
  specialize (IH (snd (run1 j l)) ltac:(intros y Hy; apply H; set_solver)).
  cbn [run_schedule app] in *.
  destruct (run1 j l) as [rj lj] eqn:Ej. destruct (run1 i l) as [ri li] eqn:Ei. cbn [fst snd] in *.
  destruct (run1 i lj) as [ri' lij] eqn:Eij. destruct (run1 j li) as [rj' lji] eqn:Eji. cbn [fst snd] in *. subst ri' rj'.
  destruct (run_ext (u ++ v) _ _ E3) as [E4 E5].
  destruct (run_schedule (u ++ (n, i) :: v) lj) as [rs1 l1]. destruct (run_schedule (u ++ v) lij) as [rs2 l2].
  destruct (run_schedule (u ++ v) lji) as [rs3 l3]. cbn [fst snd] in *. subst rs3. destruct IH as [P S].
  split.
  - rewrite P. apply perm_swap.
  - intros k. rewrite S. by rewrite E5.
Qed.
Lemma before_cons x y z s : before x y s -> before x y (z :: s).
Proof. intros (s1 & s2 & s3 & ->). by exists (z :: s1), s2, s3. Qed.
Lemma before_in x y s : before x y s -> x ∈ s /\ y ∈ s.
Proof. intros (s1 & s2 & s3 & ->). set_solver. Qed.
Lemma nodup_split {A} (u1 v1 u2 v2 : list A) x : NoDup (u1 ++ x :: v1) -> u1 ++ x :: v1 = u2 ++ x :: v2 -> u1 = u2 /\ v1 = v2.
Proof.
  intros Hn E. revert u2 E Hn. induction u1 as [|a u1 IH]; intros [|b u2] E Hn; cbn in E.
  - by injection E.
  - injection E as -> ->. exfalso. cbn in Hn. apply NoDup_cons in Hn as [Hn _]. apply Hn. set_solver.
  - injection E as -> E. exfalso. cbn in Hn. apply NoDup_cons in Hn as [Hn _]. apply Hn. set_solver.
  - injection E as -> E. cbn in Hn. apply NoDup_cons in Hn as [_ Hn]. destruct (IH u2 E Hn). by subst.
Qed.
Lemma before_asym x y s : NoDup s -> before x y s -> before y x s -> False.
Proof.
  intros Hn (s1 & s2 & s3 & E) (t1 & t2 & t3 & E'). rewrite E in E', Hn.
  assert (E2 : s1 ++ x :: s2 ++ y :: s3 = (t1 ++ y :: t2) ++ x :: t3) by (rewrite E', <- app_assoc; done).
  destruct (nodup_split _ _ _ _ _ Hn E2) as [-> E3]. rewrite <- E3 in E'.
  rewrite <- app_assoc in Hn. cbn in Hn.
  apply NoDup_app in Hn as (_ & _ & Hn). apply NoDup_cons in Hn as [Hn _]. apply Hn. set_solver.
Qed.
(** Dropping an element that is neither. *)
Lemma before_drop x y z u v : x <> z -> y <> z -> before x y (u ++ z :: v) -> before x y (u ++ v).
Proof.
  intros Hx Hy. revert x y Hx Hy. induction u as [|a u IH]; intros x y Hx Hy (s1 & s2 & s3 & E).
  - destruct s1 as [|b s1]; cbn in E; injection E as E1 E2; [by subst|]. rewrite E2. by exists s1, s2, s3.
  - destruct s1 as [|b s1]; cbn in E; injection E as -> E.
    + assert (Hin : y ∈ u ++ v).
      { assert (y ∈ u ++ z :: v) by (rewrite E; set_solver). set_solver. }
      apply elem_of_list_split in Hin as (w1 & w2 & Ew). exists [], w1, w2. cbn. by rewrite Ew.
    + cbn. apply before_cons. apply IH; [done..|]. by exists s1, s2, s3.
Qed.
Lemma run_reordered s s' l : NoDup s -> reordered s s' ->
  Permutation (fst (run_schedule s l)) (fst (run_schedule s' l)) /\
  same_ledger (snd (run_schedule s l)) (snd (run_schedule s' l)).
Proof.
  revert s' l. induction s as [|[n i] s IH]; intros s' l Hn [Hp Hb].
  - apply Permutation_nil_l in Hp as <-. done.
  - assert (Hin : (n, i) ∈ s') by (rewrite <- Hp; set_solver).
    apply elem_of_list_split in Hin as (u & v & ->).
    assert (Hn' : NoDup (u ++ (n, i) :: v)) by (by rewrite <- Hp).
    assert (Hp' : Permutation s (u ++ v)) by (by eapply Permutation_cons_app_inv).
    apply NoDup_cons in Hn as [Hni Hn].
    assert (Hu : forall y, y ∈ u -> ~ conflict i (snd y)).
    { intros y Hy Hc.
      assert (Hys : y ∈ s) by (rewrite Hp'; set_solver). apply elem_of_list_split in Hys as (w1 & w2 & Ew).
      apply (before_asym (n, i) y (u ++ (n, i) :: v) Hn').
      - apply Hb; [|done]. exists [], w1, w2. by rewrite Ew.
      - apply elem_of_list_split in Hy as (u1 & u2 & ->). exists u1, u2, v. by rewrite <- app_assoc. }
    destruct (run_front u n i v l Hu) as [P S].
    assert (Hr : reordered s (u ++ v)).
    { split; [done|]. intros x y Hxy Hc. apply (before_drop x y (n, i)).
      - intros ->. apply Hni. by apply before_in in Hxy as [? ?].
      - intros ->. apply Hni. by apply before_in in Hxy as [? ?].
      - apply Hb; [|done]. by apply before_cons. }
    cbn [run_schedule] in P, S |- *. destruct (run1 i l) as [r l1]. specialize (IH (u ++ v) l1 Hn Hr) as [P1 S1].
    destruct (run_schedule (u ++ v) l1) as [rs1 l2]. destruct (run_schedule s l1) as [rs2 l3]. cbn [fst snd] in *.
    split; [by rewrite P, P1|]. intros k. by rewrite S, S1.
Qed.
End Execute.
