(** * ReleaseWorld.v: what happens on a ledger where the release build is deployed

    LedgerSpec.v says what can happen on a ledger where the program with overflow checks is
    deployed ([ledger_step]).  [ledger_step_r] is the same for the program without them
    (Release.v); the proof below shows that the two allow the same sequences of steps. *)
From Verif Require Import Machine Bytes Critbit EventQueue OrderBook Market Spec MarketProofs MarketFacts
  Layout LayoutProofs Borsh BorshProofs Ledger LedgerSpec LedgerProofs WorldProofs FollowProofs Release ReleaseProofs
  LedgerFacts LedgerFacts2 PropsLayout PropsLedger ReleaseFacts.
From Coq Require Import ZifyBool ZifyNat ZifyN.

Section ReleaseWorld.
Context (cs : nat) (same_id : bytes -> bytes -> bool) (rent_exempt : N -> nat -> bool) (pid : N).

(** One step on a ledger where the release build is deployed: a successful call of its
    [process_instruction] (program/src/processor.rs:21-77), or what others do, as in
    [ledger_step]. *)
Inductive ledger_step_r : ledger -> label -> ledger -> Prop :=
| stepr_call l ks data r l' :
    process_instruction_r cs same_id rent_exempt pid ks data l = (Ok r, l') ->
    runtime_rule pid l l' -> Forall (fun k => k < 256 ^ 32) ks -> bytes_ok data ->
    ledger_step_r l (Call ks data r) l'
| stepr_other l lb l' :
    match lb with Call _ _ _ => False | _ => True end ->
    ledger_step cs same_id rent_exempt pid l lb l' -> ledger_step_r l lb l'.

(** The steps [tr], oldest first, each allowed by [step], lead from [l0] to the ledger. *)
Inductive steps_of (step : ledger -> label -> ledger -> Prop) (l0 : ledger) : list label -> ledger -> Prop :=
| steps_none : steps_of step l0 [] l0
| steps_more tr l lb l' : steps_of step l0 tr l -> step l lb l' -> steps_of step l0 (tr ++ [lb]) l'.

(** What the deployment provides: when a market is created, its queue, bids and asks
    accounts are zeroed and the latter two have the size of a slab; and all the lamports
    together are less than 2^63 (there are about 6 * 10^17). *)
Definition provided (l : ledger) (lb : label) : Prop :=
  (forall a p, creates a p lb ->
     zeroed l (ac_queue a) /\ zeroed l (ac_bids a) /\ zeroed l (ac_asks a) /\
     exists nb xb na xa, slab_room cs (length (a_data (l (ac_bids a)))) nb xb /\
       slab_room cs (length (a_data (l (ac_asks a)))) na xa) /\
  (forall ks, NoDup ks -> total_lamports ks l < p63).

(** ** Proof *)
Context (Hcs : cs <> 0%nat) (Hrent : forall n, rent_exempt 0 n = false).
Notation opens := (opens cs pid).
Notation records := (records pid).
Notation wf_ledger := (wf_ledger cs pid).
Notation step := (ledger_step cs same_id rent_exempt pid).

(** Every market on the ledger is in a state that at most [n] requests lead to. *)
Definition healthy (n : nat) (l : ledger) : Prop :=
  wf_ledger l /\ forall a, records l a -> exists c m log,
    opens l a m /\ config_ok c /\ history same_id c log m /\ (length log <= n)%nat.

Lemma step_records l lb l' a : wf_ledger l -> step l lb l' -> records l' a ->
  (records l a /\ ~ closes (ac_market a) lb) \/ exists p, creates a p lb /\ create_typed p /\ creatable cs pid rent_exempt l a p /\ created l a p l' /\
    a_owner (l (ac_market a)) = pid /\ forall k, k ∈ keys a -> k < 256 ^ 32.
Proof.
  intros W Hs Hr. destruct Hs as [l ks data r l' Hc Hrt Hks Hd|l k l' Hsm Hk Hm Hok|l gone l' He Hok _].
  - destruct (call_effect _ _ _ _ _ _ _ _ _ W Hd Hc)
      as [a' p more -> -> Hp -> Hcr Hl'|a' o more -> -> Ht Hr' Hta|a' t more d m' -> -> -> Hr' _ _ _ _ _ _ Hl'].
    + assert (Hk' : forall k, k ∈ keys a' -> k < 256 ^ 32).
      { intros k Hk. apply (proj1 (Forall_forall _ _) Hks). set_solver. }
      destruct (create_wf cs rent_exempt pid Hrent l a' p l' W Hk' Hp Hcr Hl' Hrt) as [W' Ha'].
      destruct (decide (ac_market a ∈ keys a')) as [Hin|Hin].
      * right. pose proof (records_keys_market cs pid l' a' a W' Ha' Hr Hin) as ->. exists p.
        split_and!; try done; [by exists more|].
        apply Hrt. left. rewrite Hl', N.eqb_refl. cbn. intros E.
        pose proof (cr_market_tag _ _ _ _ _ _ Hcr) as Ht. by rewrite <- E in Ht.
      * left. split; [|cbn; intros [_ ?]; done].
        apply (records_same pid l l'); [..|done]; by rewrite (created_other cs rent_exempt pid _ _ _ _ _ Hl' Hin).
    + left. split; [by apply (tame_records cs pid l a' l' a W Hr' Hta)|].
      destruct o; cbn; intros [_ ?]; done.
    + left. destruct (close_wf cs rent_exempt pid Hrent l a' t l' W Hr' Hl') as [_ Hold]. destruct (Hold a Hr) as [Hr0 Hne].
      split; [done|]. cbn. intros [E _]. apply Hne. apply (records_unique pid l a a'); [done..|by rewrite E].
  - left. split; [by apply (own_records pid l k l')|tauto].
  - left. split; [by eapply (env_records cs _ pid Hrent l l')|tauto].
Qed.

Lemma healthy_step n l lb l' : healthy n l -> step l lb l' -> provided l lb -> healthy (S n) l'.
Proof.
  intros [W H] Hs [Hp _]. split; [by apply (step_wf cs same_id rent_exempt pid Hrent l lb l' W Hs)|].
  intros a Hr. destruct (step_records _ _ _ _ W Hs Hr) as [[Hr0 Hncl]|(p & Hc & Ht & Hcr & Hl' & Ho & Hk)].
  - destruct (H a Hr0) as (c & m & log & Ho & Hc & Hh & Hn).
    pose proof (step_follow cs same_id rent_exempt pid Hcs Hrent l lb l' a m W Hs Ho Hncl) as Hf.
    destruct (market_call cs (ac_market a) lb) as [[o r]|].
    + destruct Hf as (m' & Hty & Hpr & Ho'). exists c, m', (log ++ [mk_entry o (Ok r) (emitted m m')]).
      split_and!; try done.
      * apply steps_snoc; [done|by apply (op_bytes_op_typed cs)|]. unfold exec. by rewrite Hpr.
      * rewrite app_length. cbn. lia.
    + exists c, m, log. split_and!; try done. lia.
  - destruct (Hp a p Hc) as (Zq & Zb & Za & nb & xb & na & xa & Rb & Ra).
    pose proof (cr_queue_size _ _ _ _ _ _ Hcr) as Hq. apply C42_accepted_sizes in Hq as (ne & Hn & Hn').
    exists (new_config cs p nb na ne xb xa), (init_market (new_config cs p nb na ne xb xa)), [].
    split_and!; [by apply (created_opens cs same_id rent_exempt pid Hcs l a p l')| |constructor|cbn; lia].
    pose proof (cr_min _ _ _ _ _ _ Hcr). pose proof (cr_tick _ _ _ _ _ _ Hcr).
    eapply new_config_ok; try done; try lia; apply W.
Qed.

Lemma total_funds l a t : (forall ks, NoDup ks -> total_lamports ks l < p63) -> NoDup (keys a) ->
  a_lamports (l t) + balances l a < p64.
Proof.
  intros H Hd. pose proof (H (keys a) Hd) as H1. pose proof (H [t] (NoDup_singleton t)) as H2.
  unfold total_lamports, balances, keys in *. cbn [fold_right] in *. change p64 with (2 * p63). lia.
Qed.

Lemma step_from_r n l lb l' : N.of_nat n < p63 -> healthy n l -> provided l lb ->
  ledger_step_r l lb l' -> step l lb l'.
Proof.
  intros Hn [W H] [_ Hf] Hs. destruct Hs as [l ks data r l' Hc Hrt Hks Hd|]; [|done].
  apply step_call; [|exact Hrt|exact Hks|exact Hd].
  destruct (process_instruction_ref cs same_id rent_exempt pid ks data l) as [E|E]; [|rewrite <- E; exact Hc].
  exfalso. revert E. apply (any_noov cs same_id rent_exempt pid l (w_ok _ _ _ W) (hd 0 ks)) with (nth 4 ks 0); [..|reflexivity|reflexivity|exact Hd].
  - intros a _ Hr. destruct (H a Hr) as (c & m & log & Ho & Hc' & Hh & Hl). exists c, m. split; [done|].
    split; [done|]. exists log. split; [done|]. lia.
  - intros a _ Hr. apply total_funds; [done|]. destruct (H a Hr) as (c & m & log & Ho & _). by destruct Ho.
Qed.
Lemma step_to_r l lb l' : step l lb l' -> ledger_step_r l lb l'.
Proof.
  intros Hs. pose proof Hs as Hs0. destruct Hs as [l ks data r l' Hc Hrt Hks Hd|l k l' Hsm Hk Hm Hok|l gone l' He Hok _].
  - apply stepr_call; [|exact Hrt|exact Hks|exact Hd]. destruct (process_instruction_ref cs same_id rent_exempt pid ks data l) as [E|E]; [rewrite Hc in E; discriminate|rewrite E; exact Hc].
  - by apply stepr_other; [|exact Hs0].
  - by apply stepr_other; [|exact Hs0].
Qed.

Lemma steps_healthy l0 tr l : ledger_ok l0 -> (forall k, a_owner (l0 k) <> pid) -> N.of_nat (length tr) < p63 ->
  steps_of (fun l lb l' => ledger_step_r l lb l' /\ provided l lb) l0 tr l ->
  steps_of (fun l lb l' => step l lb l' /\ provided l lb) l0 tr l /\ healthy (length tr) l.
Proof.
  intros Hok Hno Hlen Hs. induction Hs as [|tr l lb l' Hs IH [Hst Hp]].
  - split; [constructor|]. split.
    + split; [done|..]; intros a; intros; by destruct (Hno (ac_market a)); destruct H.
    + intros a [Ho _]. by destruct (Hno (ac_market a)).
  - rewrite app_length in *. cbn [length] in *. destruct IH as [IH Hh]; [lia|].
    assert (Hst' : step l lb l') by (eapply (step_from_r (length tr)); try done; lia).
    split; [by eapply steps_more|]. rewrite Nat.add_1_r. by eapply healthy_step.
Qed.
Lemma steps_of_trace l0 tr l : steps_of step l0 tr l <-> trace cs same_id rent_exempt pid l0 tr l.
Proof. split; (induction 1; [constructor|by econstructor]). Qed.
Lemma steps_of_mono (s1 s2 : ledger -> label -> ledger -> Prop) l0 tr l : (forall l lb l', s1 l lb l' -> s2 l lb l') ->
  steps_of s1 l0 tr l -> steps_of s2 l0 tr l.
Proof. intros H. induction 1; [constructor|]. eapply steps_more; [done|]. by apply H. Qed.
End ReleaseWorld.
