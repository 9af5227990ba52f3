(** * ReleaseFacts.v: where the checked build cannot overflow (C84) *)
From Verif Require Import Machine Bytes Critbit EventQueue OrderBook Market Spec MachineProofs MarketProofs MarketFacts HistoryProps
  Layout LayoutProofs Borsh BorshProofs Ledger LedgerSpec LedgerProofs WorldProofs FollowProofs Release ReleaseProofs
  DataSpec LedgerFacts LedgerFacts2 PropsMarket PropsOrder PropsLedger.
From Coq Require Import ZifyBool ZifyNat ZifyN.

Definition noov {A} (r : res A) : Prop := r <> Panic POverflow.

Section Market.
Context {C : Type} (same_id : C -> C -> bool).
Lemma excluded_stale (s : slab C) k : stale_slot s k \/ ~ stale_slot s k.
Proof.
  unfold stale_slot. destruct (decide (leaf_count (hdr s) = 1)) as [H|H]; [|by right; intros []].
  destruct (getN (leaf_nodes s) 0) as [[k' q]|]; [|right; intros (_&q&[=])].
  destruct (decide (k' = k)) as [->|Hk]; [left; eauto|right; intros (_&q'&[=])]. done.
Qed.
Lemma exec_noov c m o : reachable same_id c m -> op_typed o -> noov (fst (exec same_id o m)).
Proof.
  intros Hr Ht. destruct o as [p|id|ids|n].
  - destruct (exec same_id (NewOrder p) m) as [r m'] eqn:E.
    destruct (C27_outcomes _ _ _ _ _ _ _ Hr Ht E) as [(sm&->)|(_&[->|[->| ->]])]; done.
  - destruct (decide (id ∈ map o_id (resting m (side_of_id id)))) as [Hi|Hi].
    + apply elem_of_list_fmap in Hi as (o&Hid&Ho). rewrite Hid.
      assert (Hs : side_of_id (o_id o) = side_of_id id) by by rewrite Hid.
      destruct (C29_cancel C same_id c m (side_of_id id) o Hr) as (m'&->&_); done.
    + destruct (C30_cancel_absent C same_id c m id Hr Hi) as [H1 H2].
      destruct (excluded_stale (tree (m_book m) (side_of_id id)) id) as [H|H]; [rewrite H2|rewrite H1]; done.
  - destruct (C31_mass_cancel C same_id c m ids Hr) as [(_&_&_&_&m'&->&_)|(_&r&->&[->|[->| ->]])]; done.
  - destruct (C32_consume C same_id c m n Hr) as (m'&->&_). done.
Qed.
End Market.

(** ** accounts *)
Section Ledger.
Context (cs : nat) (same_id : bytes -> bytes -> bool) (rent_exempt : N -> nat -> bool) (pid : N).
Notation instr := (process_instruction cs same_id rent_exempt pid).
Notation opens := (opens cs pid).

Lemma bind_noov {S A B} (m : M S A) (f : A -> M S B) s : noov (fst (m s)) ->
  (forall x s', m s = (Ok x, s') -> noov (fst (f x s'))) -> noov (fst (bind m f s)).
Proof.
  intros H1 H2. unfold bind. destruct (m s) as [[x|e|p|] s'] eqn:E; cbn in *; try done; [by apply H2|].
  intros [= ->]. by apply H1.
Qed.
Lemma borrow_noov held k l : noov (fst (borrow held k l)).
Proof. unfold borrow, bind, get. by destruct (existsb _ _). Qed.
Lemma borrow_lamports_noov held k l : noov (fst (borrow_lamports held k l)).
Proof. unfold borrow_lamports, bind, get. by destruct (existsb _ _). Qed.
Lemma owner_noov k o e l : noov (fst (check_account_owner k o e l)).
Proof. unfold check_account_owner, bind, get. by destruct (_ =? _). Qed.
Lemma rent_noov k l : noov (fst (check_rent_exempt rent_exempt k l)).
Proof. unfold check_rent_exempt, bind, get. by destruct (rent_exempt _ _). Qed.
(** Opening a transaction adds no overflow of its own. *)
Lemma execute_noov ms ks reg data l : map mt_key ms = ks ++ [reg] ->
  noov (fst (instr ks data l)) -> noov (fst (execute cs same_id rent_exempt pid ms data l)).
Proof.
  intros Hk H. unfold execute. assert (E : noov (fst (entrypoint cs same_id rent_exempt pid (map mt_key ms) data l))).
  { unfold entrypoint. rewrite Hk. apply bind_noov.
    - assert (Hs : split_last (ks ++ [reg]) = Some (ks, reg)).
      { clear. induction ks as [|k ks IH]; [done|]. cbn. destruct (ks ++ [reg]) eqn:E; [by destruct ks|]. by rewrite IH. }
      by rewrite Hs.
    - intros x s' E. assert (Hs : split_last (ks ++ [reg]) = Some (ks, reg)).
      { clear. induction ks as [|k ks IH]; [done|]. cbn. destruct (ks ++ [reg]) eqn:E; [by destruct ks|]. by rewrite IH. }
      rewrite Hs in E. injection E as <- <-. apply bind_noov; [done|]. intros r l1 _.
      apply bind_noov; [apply borrow_noov|]. intros d l2 _. cbv zeta. apply bind_noov; [by destruct (_ <? _)%nat|]. done. }
  destruct (entrypoint _ _ _ _ _ _ _) as [[r| | |] l']; try done. by destruct (runtime_ok _ _ _ _).
Qed.
Lemma op_noov c l a m o more : ledger_ok l -> opens l a m -> reachable same_id c m -> op_bytes_typed cs o ->
  noov (fst (instr (op_keys a o ++ more) (op_data o) l)).
Proof.
  intros Hok Ho Hr Ht. destruct (C51_answer cs same_id rent_exempt pid l a m o more Hok Ho Ht) as (l'&->&_).
  apply (exec_noov same_id c); [done|]. by apply (op_bytes_op_typed cs).
Qed.
Lemma queue_noov buf t : (8 + queue_header_len <= length buf)%nat -> noov (queue_from_buffer cs buf t).
Proof.
  intros H. unfold queue_from_buffer. destruct (Nat.ltb_spec (length buf) (8 + queue_header_len)); [lia|].
  unfold read_tag. destruct (Nat.ltb_spec (length buf) 8); [unfold queue_header_len in *; lia|]. rewrite rb_ok.
  destruct (negb _); [done|]. cbv zeta. unfold cast_slice. destruct (cs =? 0)%nat; [done|]. by destruct (_ =? 0)%nat.
Qed.
Lemma market_noov buf t : noov (market_from_buffer buf t).
Proof.
  unfold market_from_buffer, read_tag. destruct (_ <? _)%nat; [done|]. rewrite rb_ok. destruct (negb _); [done|].
  cbv zeta. by destruct (negb _).
Qed.
Lemma create_noov a p l : noov (fst (create_market cs rent_exempt pid a p l)).
Proof.
  unfold create_market. do 3 (apply bind_noov; [apply owner_noov|intros ? ? _]).
  do 4 (apply bind_noov; [apply rent_noov|intros ? ? _]). destruct (_ || _); [done|].
  match goal with |- noov (fst (_ ?L)) => set (l0 := L) end.
  apply bind_noov; [apply borrow_noov|]. intros qd l1 E1.
  unfold borrow, bind, get in E1. cbn in E1. injection E1 as <- <-.
  apply bind_noov; [by destruct (is_ok _)|]. intros u l2 E2.
  destruct (queue_check_size cs _) as [[]| | |] eqn:Eq; [|done..]. injection E2 as _ <-.
  assert (Hlen : (8 + queue_header_len <= length (a_data (l0 (ac_queue a))))%nat).
  { unfold queue_check_size in Eq. destruct (Nat.ltb_spec (length (a_data (l0 (ac_queue a)))) (queue_header_len + 8 + 5 * event_size cs)); [done|]. lia. }
  clearbody l0. apply bind_noov; [apply borrow_noov|]. intros md l3 E3. unfold borrow, bind, get in E3. cbn in E3. injection E3 as <- <-.
  apply bind_noov; [unfold lift, market_check_size; by destruct (negb _)|]. intros ? l4 E4.
  unfold lift in E4. injection E4 as _ <-.
  apply bind_noov; [apply market_noov|]. intros r l5 E5. unfold lift in E5. injection E5 as _ <-.
  apply bind_noov; [done|]. intros ? l6 E6. unfold set_data, modify in E6. injection E6 as _ <-.
  apply bind_noov; [apply borrow_noov|]. intros qd l7 E7. unfold borrow, bind, get in E7. cbn in E7.
  destruct (N.eqb_spec (ac_queue a) (ac_market a)) as [|Hne]; [done|]. cbn in E7. injection E7 as <- <-.
  unfold set_account at 1. destruct (N.eqb_spec (ac_queue a) (ac_market a)); [done|].
  apply bind_noov; [by apply queue_noov|]. intros r1 l8 _.
  apply bind_noov; [done|]. intros ? ? _. apply bind_noov; [apply borrow_noov|]. intros ad ? _.
  apply bind_noov; [apply borrow_noov|]. intros bd ? _.
  apply bind_noov.
  { unfold lift, slab_initialize, idx. cbn. destruct (getN ad 0); [|done]. rewrite rb_ok. destruct (negb _); [done|].
    destruct (getN bd 0); [|done]. rewrite rb_ok. by destruct (negb _). }
  intros r2 ? _. by apply bind_noov.
Qed.
Lemma create_instr_noov ks d l : noov (fst (instr ks (ix_create_market :: d) l)).
Proof.
  unfold process_instruction. cbn [N.eqb ix_create_market]. apply bind_noov.
  { unfold lift, parse_accounts. by destruct ks as [|? [|? [|? [|? ?]]]]. }
  intros a ? _. apply bind_noov; [unfold decode, lift; by destruct (try_from_slice rd_create d)|]. intros p ? _.
  apply bind_noov; [apply create_noov|done].
Qed.
Lemma close_target_noov l a m t : opens l a m -> t ∈ keys a -> noov (fst (close_market cs pid a t l)).
Proof.
  intros [Hd Hown Hm Hb Ha Hq] Ht. destruct (keys_distinct _ Hd) as (D1&D2&D3&D4&D5&D6).
  unfold close_market, sides_empty.
  rewrite (bind_run _ _ _ tt l) by (apply check_owner_run, Hown, elem_keys; by left).
  rewrite (bind_run _ _ _ _ _ (open_market_run _ _ _ Hm)).
  set (l1 := set_account (ac_market a) (l (ac_market a)) l).
  assert (El1 : forall k, l1 k = l k) by (intros; by apply set_account_id).
  rewrite (bind_run _ _ _ _ _ (check_accounts_run l1 a _ _)).
  apply bind_noov; [apply borrow_noov|]. intros bd l2 E2. unfold borrow, bind, get in E2.
  destruct (existsb _ _); [done|]. injection E2 as <- <-.
  apply bind_noov; [apply borrow_noov|]. intros ad l2 E2. unfold borrow, bind, get in E2.
  destruct (existsb _ _); [done|]. injection E2 as <- <-.
  rewrite !El1, Hb, Ha. cbn [unwrap_err]. rewrite bind_ok. rewrite bind_ok. cbv beta. destruct (negb _); [done|].
  apply bind_noov; [apply borrow_noov|]. intros qd l2 E2. unfold borrow, bind, get in E2.
  destruct (existsb _ _); [done|]. injection E2 as <- <-.
  rewrite El1, Hq. rewrite bind_ok. cbv beta iota. destruct (negb _); [done|].
  apply bind_noov; [done|]. intros ? ? _. do 4 (apply bind_noov; [done|intros ? ? _]).
  do 4 (apply bind_noov; [apply borrow_lamports_noov|intros ? ? _]).
  apply bind_noov; [apply borrow_lamports_noov|]. intros lt l3 E3. unfold borrow_lamports, bind, get in E3.
  assert (X : existsb (N.eqb t) [ac_market a; ac_bids a; ac_asks a; ac_queue a] = true).
  { apply existsb_exists. exists t. split; [|apply N.eqb_refl]. apply elem_keys in Ht. cbn. naive_solver. }
  rewrite X in E3. done.
Qed.
Lemma close_noov c l a m t more d : ledger_ok l -> opens l a m -> reachable same_id c m ->
  a_lamports (l t) + balances l a < p64 -> noov (fst (instr (keys a ++ t :: more) (ix_close_market :: d) l)).
Proof.
  intros Hok Ho Hr Hs.
  assert (noov (fst (close_market cs pid a t l))).
  { destruct (decide (t ∈ keys a)) as [Ht|Ht]; [by eapply close_target_noov|].
    pose proof (close_run cs pid l a t m Hok Ho) as H. destruct (_ && _); [|by rewrite H].
    destruct (H Ht Hs) as (l'&->&_). done. }
  destruct a as [km kq kb ka]. unfold process_instruction. cbn [N.eqb Pos.eqb ix_close_market ix_create_market ix_new_order ix_consume_events ix_cancel_order].
  apply bind_noov; [done|]. intros x l1 E. injection E as <- <-. by apply bind_noov.
Qed.
(** What opens in the release build opens in the checked one. *)
Lemma slab_open_iff buf t s : N.of_nat cs < p32 ->
  slab_from_buffer_r cs buf t = Ok s <-> slab_from_buffer cs buf t = Ok s.
Proof.
  intros Hcs. destruct (slab_from_buffer_ref cs buf t) as [E|E]; [|by rewrite E].
  rewrite E. split; [|done]. intros H. exfalso.
  assert (Hl : (length buf < slab_header_len + 8 + (leaf_len + cs))%nat).
  { unfold slab_from_buffer in E. destruct (Nat.ltb_spec (length buf) (slab_header_len + 8 + (leaf_len + cs))); [done|].
    cbv zeta in E. destruct (negb _); [done|]. unfold cast_slice in E. destruct (cs =? 0)%nat; [done|]. by destruct (_ =? 0)%nat. }
  clear E. unfold slab_from_buffer_r in H. cbv zeta in H. unfold slab_header_len, leaf_len, inner_len in *.
  destruct (N.ltb_spec (N.of_nat (length buf)) (8 + N.of_nat 32)) as [|Hge].
  { unfold sub_r in H. rewrite ?rb_ok in H. destruct (idx buf 0) as [v0| | |]; try done. rewrite rb_ok in H. by destruct (negb _). }
  rewrite sub_r_le, rb_ok in H by lia. rewrite sub_r_le, rb_ok in H by lia.
  unfold sub_r in H. destruct (N.leb_spec (N.of_nat (24 + cs)) (N.of_nat (length buf) - N.of_nat 32 - 8)); [lia|].
  rewrite rb_ok in H. destruct (idx buf 0) as [v0| | |]; try done. rewrite rb_ok in H. destruct (negb _); [done|].
  set (n := N.of_nat (length buf)) in *. set (a := n - N.of_nat 32 - 8 + p64 - N.of_nat (24 + cs)) in *.
  set (d := N.of_nat (24 + cs + 32)) in *.
  assert (Hd : d * 2147483648 <= a) by (unfold d, a, n; lia).
  assert (Hq : 2147483648 <= a / d) by (apply N.div_le_lower_bound; [unfold d; lia|lia]).
  destruct (N.ltb_spec (n - 8 - N.of_nat 32) ((a / d + 1) * N.of_nat 24)) as [|Hc]; [done|].
  unfold n in *. lia.
Qed.
Lemma queue_open_iff buf t q : queue_from_buffer_r cs buf t = Ok q <-> queue_from_buffer cs buf t = Ok q.
Proof.
  destruct (queue_from_buffer_ref cs buf t) as [E|E]; [|by rewrite E].
  rewrite E. split; [|done]. intros H. exfalso.
  destruct (decide (8 + queue_header_len <= length buf)%nat) as [Hl|Hl]; [by apply (queue_noov _ t) in Hl|].
  unfold queue_from_buffer_r in H. cbv zeta in H. unfold sub_r in H. rewrite ?rb_ok in H.
  destruct (read_tag buf); try done. rewrite rb_ok in H. destruct (negb _); [done|].
  destruct (N.ltb_spec (N.of_nat (length buf)) (8 + N.of_nat queue_header_len)); [done|lia].
Qed.

(** ** any instruction *)
Context (l : ledger) (Hok : ledger_ok l).
Context (km : N) (Hmk : forall a, ac_market a = km -> records pid l a -> exists c m, opens l a m /\ reachable same_id c m).
Context (target : N) (Hfunds : forall a, ac_market a = km -> records pid l a -> a_lamports (l target) + balances l a < p64).
Lemma rec_op_noov a o : ac_market a = km -> op_bytes_typed cs o -> records pid l a -> noov (fst (instr (op_keys a o ++ []) (op_data o) l)).
Proof. intros Hk Ht Hr. destruct (Hmk a Hk Hr) as (c&m&Ho&Hm). by apply (op_noov c l a m). Qed.
Lemma noov_bind_inv {S A B} (m : M S A) (f : A -> M S B) s : noov (fst (bind m f s)) -> noov (fst (m s)).
Proof. unfold bind, noov. destruct (m s) as [[x|e|p|] s']; try done. by intros H [= ->]. Qed.
Lemma cases_noov {S A B} (m : M S A) (f : A -> M S B) s : noov (fst (m s)) ->
  (forall x s', m s = (Ok x, s') -> noov (fst (bind m f s))) -> noov (fst (bind m f s)).
Proof.
  intros H1 H2. destruct (m s) as [[x|e|p|] s'] eqn:E; [by eapply H2|unfold bind; rewrite E..]; try done.
  intros [= ->]. by apply H1.
Qed.
Lemma open_market_noov k t l1 : noov (fst (open_market k t l1)).
Proof.
  unfold open_market. apply bind_noov; [apply borrow_noov|]. intros d ? _. apply bind_noov; [apply market_noov|]. intros r ? _. by apply bind_noov.
Qed.
Lemma key_noov k e x (l1 : ledger) : noov (fst (check_account_key k e x l1)).
Proof. unfold check_account_key. by destruct (_ =? _). Qed.
(** The checks before the book is opened do not overflow; when they pass, the accounts are
    those of a market. *)
Lemma checked_noov {A} a (f : market_state -> M ledger A) (P : M ledger unit) :
  noov (fst (P l)) -> (forall x l1, P l = (Ok x, l1) -> l1 = l /\ a_owner (l (ac_market a)) = pid) ->
  (records pid l a -> noov (fst ((do! P in let! ms := open_market (ac_market a) tag_market in
     do! check_accounts a ms in f ms) l))) ->
  noov (fst ((do! P in let! ms := open_market (ac_market a) tag_market in do! check_accounts a ms in f ms) l)).
Proof.
  intros HP1 HP2 H. apply cases_noov; [done|]. intros x l1 E1. destruct (HP2 _ _ E1) as [-> Hown].
  rewrite (bind_run _ _ _ _ _ E1) in *. apply cases_noov; [apply open_market_noov|]. intros ms l2 E2.
  rewrite (bind_run _ _ _ _ _ E2) in *. destruct (open_market_inv l _ _ _ (proj1 (Hok _)) E2) as [Hm _].
  apply cases_noov.
  { unfold check_accounts. apply bind_noov; [apply key_noov|]. intros ? ? _. apply bind_noov; [apply key_noov|]. intros ? ? _. apply key_noov. }
  intros y l3 E3. apply H. split; [done|]. exists ms, (a_data (l (ac_market a))). split; [done|].
  assert (E4 : bind (check_accounts a ms) ret l2 = (Ok y, l3)) by by rewrite (bind_run _ _ _ _ _ E3).
  by apply check_accounts_inv in E4 as (-> & -> & -> & _).
Qed.
Lemma checks_noov a l1 : noov (fst (perform_checks pid a l1)).
Proof. unfold perform_checks. do 3 (apply bind_noov; [apply owner_noov|intros ? ? _]). apply owner_noov. Qed.
Lemma checks_keep a x l1 : perform_checks pid a l = (Ok x, l1) -> l1 = l /\ a_owner (l (ac_market a)) = pid.
Proof.
  intros E. assert (E' : bind (perform_checks pid a) ret l = (Ok x, l1)) by by rewrite (bind_run _ _ _ _ _ E).
  apply perform_checks_inv in E' as [H E']. injection E' as _ <-. split; [done|]. apply H, elem_keys. by left.
Qed.
Lemma any_new_order a p : ac_market a = km -> new_order_typed cs p -> noov (fst (new_order_l cs same_id pid a p l)).
Proof.
  intros Hk Ht. unfold new_order_l. apply checked_noov; [apply checks_noov|apply checks_keep|]. intros Hr.
  pose proof (rec_op_noov a (NewOrder p) Hk Ht Hr) as H. rewrite op_instr_eq in H by done. by apply noov_bind_inv in H.
Qed.
Lemma any_cancel a id : ac_market a = km -> id < p128 -> noov (fst (cancel_order_l cs pid a id l)).
Proof.
  intros Hk Ht. unfold cancel_order_l, with_book. apply checked_noov; [apply checks_noov|apply checks_keep|]. intros Hr.
  pose proof (rec_op_noov a (CancelOrder id) Hk Ht Hr) as H. rewrite op_instr_eq in H by done. by apply noov_bind_inv in H.
Qed.
Lemma any_mass a ids : ac_market a = km -> Forall (fun id => id < p128) ids /\ N.of_nat (length ids) < p32 -> noov (fst (mass_cancel_l cs pid a ids l)).
Proof.
  intros Hk Ht. unfold mass_cancel_l, with_book. apply checked_noov; [apply checks_noov|apply checks_keep|]. intros Hr.
  pose proof (rec_op_noov a (MassCancelOrders ids) Hk Ht Hr) as H. rewrite op_instr_eq in H by done. by apply noov_bind_inv in H.
Qed.
Lemma any_consume kq n : n < p64 -> noov (fst (consume_events_l cs pid km kq n l)).
Proof.
  intros Ht.
  assert (D : forall a, ac_market a = km -> ac_queue a = kq -> records pid l a -> noov (fst (consume_events_l cs pid km kq n l))).
  { intros a Hk <- Hr. pose proof (rec_op_noov a (ConsumeEvents n) Hk Ht Hr) as H. rewrite op_instr_eq in H by done. rewrite Hk in H. by apply noov_bind_inv in H. }
  unfold consume_events_l in *. apply cases_noov; [apply owner_noov|]. intros x l1 E1.
  pose proof E1 as E1'. apply check_owner_inv in E1' as [Hown ->]. rewrite (bind_run _ _ _ _ _ E1) in *.
  apply cases_noov; [apply owner_noov|]. intros x2 l1 E2.
  pose proof E2 as E2'. apply check_owner_inv in E2' as [_ ->]. rewrite (bind_run _ _ _ _ _ E2) in *.
  apply cases_noov; [apply open_market_noov|]. intros ms l2 E3.
  destruct (open_market_inv l _ _ _ (proj1 (Hok _)) E3) as [Hm _]. rewrite (bind_run _ _ _ _ _ E3) in *.
  apply cases_noov; [apply key_noov|]. intros x3 l3 E4. unfold check_account_key in E4.
  destruct (N.eqb_spec kq (ms_event_queue ms)) as [->|]; [|done].
  apply (D (mk_accounts km (ms_event_queue ms) (ms_bids ms) (ms_asks ms))); [done..|].
  split; [done|]. by exists ms, (a_data (l km)).
Qed.
Lemma any_close a : ac_market a = km -> noov (fst (close_market cs pid a target l)).
Proof.
  intros Hk. unfold close_market, sides_empty. apply checked_noov; [apply owner_noov|intros x l1 E; by apply check_owner_inv in E as [? ->]|]. intros Hr.
  destruct (Hmk a Hk Hr) as (c&m&Ho&Hm). pose proof (close_noov c l a m target [] [] Hok Ho Hm (Hfunds a Hk Hr)) as H.
  unfold process_instruction in H. cbn [N.eqb Pos.eqb ix_close_market ix_create_market ix_new_order ix_consume_events ix_cancel_order] in H.
  destruct a as [k1 kq kb ka]. cbn [keys app parse_close ac_market ac_queue ac_bids ac_asks] in H. rewrite bind_ok in H. by apply noov_bind_inv in H.
Qed.
Lemma decode_noov {A} (r : reader A) d (l1 : ledger) : noov (fst (decode r d l1)).
Proof. unfold decode, lift. by destruct (try_from_slice r d). Qed.
Lemma decode_ok {A} (r : reader A) w P d x l1 : codec r w P -> bytes_ok d -> decode r d l = (Ok x, l1) -> P x /\ l1 = l.
Proof.
  intros Hc Hd E. assert (E' : bind (decode r d) ret l = (Ok x, l1)) by by rewrite (bind_run _ _ _ _ _ E).
  destruct (decode_inv _ _ _ _ _ _ _ _ Hc Hd E') as (y&_&HP&[= -> ->]). done.
Qed.
Lemma any_noov ks data : hd 0 ks = km -> nth 4 ks 0 = target -> bytes_ok data -> noov (fst (instr ks data l)).
Proof.
  intros Hks Htg Hd. destruct data as [|t d]; [done|]. destruct (N.eqb_spec t ix_create_market) as [->|Ht].
  { apply create_instr_noov. }
  apply Forall_cons in Hd as [_ Hd]. change (bytes_ok d) in Hd. unfold process_instruction.
  destruct (N.eqb_spec t ix_create_market) as [|_]; [done|].
  assert (PA : forall ks, noov (fst (lift (parse_accounts ks) l))) by (intros [|? [|? [|? [|? ?]]]]; done).
  assert (PC : forall ks, noov (fst (lift (parse_close ks) l))) by (intros [|? [|? [|? [|? [|? ?]]]]]; done).
  assert (PE : forall ks, noov (fst (lift (parse_consume ks) l))) by (intros [|? [|? ?]]; done).
  assert (QA : forall a, parse_accounts ks = Ok a -> ac_market a = km) by (intros a; destruct ks as [|? [|? [|? [|? ?]]]]; try done; by intros [= <-]).
  assert (QC : forall a, parse_close ks = Ok a -> ac_market (fst a) = km /\ snd a = target) by (intros a; destruct ks as [|? [|? [|? [|? [|? ?]]]]]; try done; by intros [= <-]).
  destruct (t =? ix_new_order).
  { apply bind_noov; [apply PA|]. intros a l1 E. unfold lift in E. injection E as Hp <-. apply QA in Hp. apply bind_noov; [apply decode_noov|].
    intros p l1 E. apply (decode_ok _ _ _ _ _ _ (new_order_codec cs) Hd) in E as [HP ->]. apply bind_noov; [by apply any_new_order|done]. }
  destruct (t =? ix_consume_events).
  { apply bind_noov; [apply PE|]. intros [k1 kq] l1 E. unfold lift in E. injection E as Hp <-. assert (k1 = km) as -> by (destruct ks as [|? [|? ?]]; cbn in *; congruence). apply bind_noov; [apply decode_noov|].
    intros p l1 E. apply (decode_ok _ _ _ _ _ _ consume_codec Hd) in E as [HP ->]. apply bind_noov; [by apply any_consume|done]. }
  destruct (t =? ix_cancel_order).
  { apply bind_noov; [apply PA|]. intros a l1 E. unfold lift in E. injection E as Hp <-. apply QA in Hp. apply bind_noov; [apply decode_noov|].
    intros p l1 E. apply (decode_ok _ _ _ _ _ _ cancel_codec Hd) in E as [HP ->]. apply bind_noov; [by apply any_cancel|done]. }
  destruct (t =? ix_close_market).
  { apply bind_noov; [apply PC|]. intros a l1 E. unfold lift in E. injection E as Hp <-. apply QC in Hp as [Hp Hp2]. rewrite Hp2. apply bind_noov; [by apply any_close|done]. }
  destruct (t =? ix_mass_cancel_orders); [|done].
  apply bind_noov; [apply PA|]. intros a l1 E. unfold lift in E. injection E as Hp <-. apply QA in Hp. apply bind_noov; [apply decode_noov|].
  intros p l1 E. apply (decode_ok _ _ _ _ _ _ mass_cancel_codec Hd) in E as [HP ->]. apply bind_noov; [by apply any_mass|done].
Qed.
End Ledger.
