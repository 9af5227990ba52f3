(** * ScheduleSpec.v: transactions that do not share what they write (used by C74)

    Solana runs transactions in parallel when no account that one of them may write is
    named by another. *)
From Verif Require Import Machine Bytes OrderBook Market Layout Borsh Ledger.

(** A transaction: instructions that are executed one after the other, all or none. *)
Definition transaction := list instruction.
Definition metas (t : transaction) : list meta := flat_map i_metas t.
Definition names (t : transaction) : list N := map mt_key (metas t).
(** Marked writable at least once in the transaction. *)
Definition may_write (t : transaction) (k : N) : bool :=
  existsb (fun m => (mt_key m =? k) && mt_writable m) (metas t).
(** Two transactions conflict when one of them may write an account that both name. *)
Definition conflict (t u : transaction) : Prop :=
  exists k, k ∈ names t /\ k ∈ names u /\ (may_write t k = true \/ may_write u k = true).
(** An instruction on market [a] with register [reg], built by the crate's builders. *)
Definition market_instruction (a : accounts) (reg : N) (i : instruction) : Prop :=
  (exists p, i = build_new_order a reg p) \/ (exists id, i = build_cancel_order a reg id) \/
  (exists ids, i = build_mass_cancel_orders a reg ids) \/
  (exists n, i = build_consume_events (ac_market a) (ac_queue a) reg n).
(** A transaction of such instructions. *)
Definition market_transaction (a : accounts) (reg : N) (t : transaction) : Prop :=
  t <> [] /\ forall i, i ∈ t -> market_instruction a reg i.
(** A schedule: transactions with labels, one after the other. *)
Definition schedule := list (nat * transaction).
Definition before (x y : nat * transaction) (s : schedule) : Prop :=
  exists s1 s2 s3, s = s1 ++ x :: s2 ++ y :: s3.
(** [s'] has the transactions of [s] in an order that may differ only where there is no
    conflict. *)
Definition reordered (s s' : schedule) : Prop :=
  Permutation s s' /\
  forall x y, before x y s -> conflict (snd x) (snd y) -> before x y s'.

Section Run.
Context (cs : nat) (same_id : bytes -> bytes -> bool) (rent_exempt : N -> nat -> bool) (pid : N).
(** Within a transaction an account is writable for all instructions or for none (the
    runtime merges the flags). *)
Definition granted (t : transaction) (i : instruction) : list meta :=
  map (fun m => mk_meta (mt_key m) (may_write t (mt_key m))) (i_metas i).
(** The answers up to the first instruction that fails; the ledger when none did. *)
Fixpoint run_list (t : transaction) (is : list instruction) (l : ledger)
    : list (res (option summary)) * option ledger :=
  match is with
  | [] => ([], Some l)
  | i :: is =>
      match execute cs same_id rent_exempt pid (granted t i) (i_data i) l with
      | (Ok r, l1) => let '(rs, o) := run_list t is l1 in (Ok r :: rs, o)
      | (r, _) => ([r], None)
      end
  end.
Definition run1 (t : transaction) (l : ledger) : list (res (option summary)) * ledger :=
  let '(rs, o) := run_list t t l in (rs, match o with Some l' => l' | None => l end).
(** The answers by label, and the ledger at the end. *)
Fixpoint run_schedule (s : schedule) (l : ledger) : list (nat * list (res (option summary))) * ledger :=
  match s with
  | [] => ([], l)
  | (n, t) :: s =>
      let '(r, l1) := run1 t l in
      let '(rs, l2) := run_schedule s l1 in
      ((n, r) :: rs, l2)
  end.
End Run.
(** The same accounts. *)
Definition same_ledger (l l' : ledger) : Prop := forall k, l k = l' k.
