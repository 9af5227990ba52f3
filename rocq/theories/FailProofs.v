(** * FailProofs.v: which problem an instruction reports (C73) *)
From Verif Require Import Machine MachineProofs Bytes Critbit EventQueue OrderBook Market Spec Layout LayoutProofs Borsh BorshProofs
  Ledger LedgerSpec LedgerProofs WorldProofs PropsLayout LedgerFacts LedgerFacts2 Errors FailSpec FailErrors.
From Coq Require Import ZifyBool ZifyNat ZifyN.

Section FailProofs.
Context (cs : nat) (same_id : bytes -> bytes -> bool) (rent_exempt : N -> nat -> bool) (pid : N).
Notation pinstr := (process_instruction cs same_id rent_exempt pid).

Lemma first_cons b x ps : first_problem ((b, x) :: ps) = if b then Some x else first_problem ps.
Proof. by destruct b. Qed.
Lemma fails_err {A} e x : to_program_error e = Some x -> fails (Err e : res A) x.
Proof. intros H. by exists e. Qed.

Lemma market_open d tag : length d = 120%nat ->
  market_from_buffer d tag =
    if le_dec (take 8 d) =? tag then Ok (market_state_of_bytes (drop 8 d), write_tag tag_market d)
    else Err AccountTagMismatch.
Proof.
  intros Hl. unfold market_from_buffer, read_tag.
  destruct (length d <? 8)%nat eqn:E; [lia|]. rewrite (rbind_ok _ _ _ eq_refl). cbv beta.
  destruct (le_dec (take 8 d) =? tag); cbn [negb]; [|done].
  rewrite write_tag_drop by lia. assert (Hd : length (drop 8 d) = 112%nat) by (rewrite drop_length; lia).
  rewrite Hd. by change (negb (112 =? market_state_len)%nat) with false.
Qed.
Lemma recorded_eq l k :
  let ms := market_state_of_bytes (drop 8 (a_data (l k))) in
  ms_event_queue ms = recorded_key l k 0 /\ ms_bids ms = recorded_key l k 1 /\ ms_asks ms = recorded_key l k 2.
Proof.
  cbv zeta. unfold market_state_of_bytes, recorded_key, slice.
  cbn [ms_event_queue ms_bids ms_asks].
  change (8 + 32 * 0)%nat with (8 + 0)%nat. change (8 + 32 * 1)%nat with (8 + 32)%nat.
  change (8 + 32 * 2)%nat with (8 + 64)%nat. by rewrite <- !drop_drop.
Qed.

Lemma owner_run {A} l k e (f : M ledger A) :
  (do! check_account_owner k pid e in f) l = if foreign pid l k then (Err e, l) else f l.
Proof.
  unfold check_account_owner, foreign, bind, get, ret, fail.
  by destruct (a_owner (l k) =? pid).
Qed.
Lemma key_run {A} l k k' e (f : M ledger A) :
  (do! check_account_key k k' e in f) l = if negb (k' =? k) then (Err e, l) else f l.
Proof. unfold check_account_key, bind, ret, fail. rewrite (N.eqb_sym k' k). by destruct (k =? k'). Qed.
Lemma checks_bind {A} l a (f : M ledger A) :
  (do! perform_checks pid a in f) l =
  (do! check_account_owner (ac_market a) pid WrongMarketOwner in
   do! check_account_owner (ac_queue a) pid WrongEventQueueOwner in
   do! check_account_owner (ac_bids a) pid WrongBidsOwner in
   do! check_account_owner (ac_asks a) pid WrongAsksOwner in f) l.
Proof.
  unfold perform_checks, check_account_owner, bind, get, ret, fail.
  by repeat match goal with |- context [if ?b then _ else _] => destruct b end.
Qed.
Lemma accounts_bind {A} l a ms (f : M ledger A) :
  (do! check_accounts a ms in f) l =
  (do! check_account_key (ac_queue a) (ms_event_queue ms) WrongEventQueueAccount in
   do! check_account_key (ac_bids a) (ms_bids ms) WrongBidsAccount in
   do! check_account_key (ac_asks a) (ms_asks ms) WrongAsksAccount in f) l.
Proof.
  unfold check_accounts, check_account_key, bind, ret, fail.
  by repeat match goal with |- context [if ?b then _ else _] => destruct b end.
Qed.
Lemma market_run {A} l k (f : market_state -> M ledger A) :
  length (a_data (l k)) = 120%nat -> exists l',
  (let! ms := open_market k tag_market in f ms) l =
    if negb (account_tag l k =? 128) then (Err AccountTagMismatch, l)
    else f (market_state_of_bytes (drop 8 (a_data (l k)))) l'.
Proof.
  intros Hl. unfold open_market. unfold borrow. cbn [existsb].
  unfold bind, get, ret, lift, set_data, modify. rewrite market_open by done. unfold account_tag, tag_market.
  destruct (le_dec (take 8 (a_data (l k))) =? 128); cbn [negb]; [eexists; reflexivity|by exists l].
Qed.

(** The part of the processors that looks at the accounts. *)
Lemma trade_run {A} l a (f : market_state -> M ledger A) r l' :
  length (a_data (l (ac_market a))) = 120%nat ->
  (do! perform_checks pid a in
   let! ms := open_market (ac_market a) tag_market in
   do! check_accounts a ms in f ms) l = (r, l') ->
  match first_problem (trade_problems pid l a) with
  | Some x => fails r x
  | None => records pid l a
  end.
Proof.
  intros Hl H. rewrite checks_bind in H. unfold trade_problems. rewrite !first_cons.
  rewrite owner_run in H. destruct (foreign pid l (ac_market a)) eqn:E1; [by injection H as <- _; apply fails_err|].
  rewrite owner_run in H. destruct (foreign pid l (ac_queue a)) eqn:E2; [by injection H as <- _; apply fails_err|].
  rewrite owner_run in H. destruct (foreign pid l (ac_bids a)) eqn:E3; [by injection H as <- _; apply fails_err|].
  rewrite owner_run in H. destruct (foreign pid l (ac_asks a)) eqn:E4; [by injection H as <- _; apply fails_err|].
  destruct (market_run l (ac_market a) (fun ms => do! check_accounts a ms in f ms) Hl) as [l1 E].
  rewrite E in H. clear E.
  destruct (negb (account_tag l (ac_market a) =? 128)) eqn:E5; [by injection H as <- _; apply fails_err|].
  rewrite accounts_bind in H. destruct (recorded_eq l (ac_market a)) as (R1&R2&R3).
  rewrite R1, R2, R3 in H.
  rewrite key_run in H. destruct (negb (recorded_key l (ac_market a) 0 =? ac_queue a)) eqn:E6; [by injection H as <- _; apply fails_err|].
  rewrite key_run in H. destruct (negb (recorded_key l (ac_market a) 1 =? ac_bids a)) eqn:E7; [by injection H as <- _; apply fails_err|].
  rewrite key_run in H. destruct (negb (recorded_key l (ac_market a) 2 =? ac_asks a)) eqn:E8; [by injection H as <- _; apply fails_err|].
  unfold first_problem. cbn [List.find option_map]. split.
  - unfold foreign in E1. lia.
  - do 2 eexists. rewrite market_open by done. unfold account_tag in E5. unfold tag_market at 1.
    replace (le_dec (take 8 (a_data (l (ac_market a)))) =? 128) with true by lia. split; [done|].
    rewrite R1, R2, R3. lia.
Qed.
Lemma consume_run l a n r l' :
  length (a_data (l (ac_market a))) = 120%nat ->
  consume_events_l cs pid (ac_market a) (ac_queue a) n l = (r, l') ->
  match first_problem (consume_problems pid l a) with
  | Some x => fails r x
  | None => True
  end.
Proof.
  intros Hl H. unfold consume_events_l in H. unfold consume_problems. rewrite !first_cons.
  rewrite owner_run in H. destruct (foreign pid l (ac_market a)) eqn:E1; [by injection H as <- _; apply fails_err|].
  rewrite owner_run in H. destruct (foreign pid l (ac_queue a)) eqn:E2; [by injection H as <- _; apply fails_err|].
  match type of H with (let! ms := _ in @?f ms) l = _ =>
    destruct (market_run l (ac_market a) f Hl) as [l1 E]; cbv beta in E; rewrite E in H; clear E end.
  destruct (negb (account_tag l (ac_market a) =? 128)) eqn:E5; [by injection H as <- _; apply fails_err|].
  destruct (recorded_eq l (ac_market a)) as (R1&_&_). rewrite R1, key_run in H.
  destruct (negb (recorded_key l (ac_market a) 0 =? ac_queue a)) eqn:E6; [by injection H as <- _; apply fails_err|].
  done.
Qed.
Lemma close_run l a t r l' :
  length (a_data (l (ac_market a))) = 120%nat ->
  close_market cs pid a t l = (r, l') ->
  match first_problem (close_problems pid l a) with
  | Some x => fails r x
  | None => records pid l a
  end.
Proof.
  intros Hl H. unfold close_market, sides_empty in H. unfold close_problems. rewrite !first_cons.
  rewrite owner_run in H. destruct (foreign pid l (ac_market a)) eqn:E1; [by injection H as <- _; apply fails_err|].
  match type of H with (let! ms := _ in @?f ms) l = _ =>
    destruct (market_run l (ac_market a) f Hl) as [l1 E]; cbv beta in E; rewrite E in H; clear E end.
  destruct (negb (account_tag l (ac_market a) =? 128)) eqn:E5; [by injection H as <- _; apply fails_err|].
  rewrite accounts_bind in H. destruct (recorded_eq l (ac_market a)) as (R1&R2&R3).
  rewrite R1, R2, R3 in H.
  rewrite key_run in H. destruct (negb (recorded_key l (ac_market a) 0 =? ac_queue a)) eqn:E6; [by injection H as <- _; apply fails_err|].
  rewrite key_run in H. destruct (negb (recorded_key l (ac_market a) 1 =? ac_bids a)) eqn:E7; [by injection H as <- _; apply fails_err|].
  rewrite key_run in H. destruct (negb (recorded_key l (ac_market a) 2 =? ac_asks a)) eqn:E8; [by injection H as <- _; apply fails_err|].
  unfold first_problem. cbn [List.find option_map]. split.
  - unfold foreign in E1. lia.
  - do 2 eexists. rewrite market_open by done. unfold account_tag in E5. unfold tag_market at 1.
    replace (le_dec (take 8 (a_data (l (ac_market a)))) =? 128) with true by lia. split; [done|].
    rewrite R1, R2, R3. lia.
Qed.

(** create_market *)
Lemma rent_run {A} l k (f : M ledger A) :
  (do! check_rent_exempt rent_exempt k in f) l =
  if negb (rent_exempt (a_lamports (l k)) (length (a_data (l k)))) then (Err PE_AccountNotRentExempt, l) else f l.
Proof. unfold check_rent_exempt, bind, get, ret, fail. by destruct (rent_exempt _ _). Qed.
Lemma queue_open l k n : ledger_ok l -> cs <> 0%nat -> (5 <= n)%nat ->
  length (a_data (l k)) = queue_allocation_size cs n ->
  if account_tag l k =? 0 then exists r, queue_from_buffer cs (a_data (l k)) tag_uninitialized = Ok r
  else queue_from_buffer cs (a_data (l k)) tag_uninitialized = Err AccountTagMismatch.
Proof.
  intros Hok Hcs Hn Hl. unfold account_tag. set (d := a_data (l k)) in *.
  assert (Hrt : read_tag d = Ok (le_dec (take 8 d))).
  { unfold read_tag. destruct (length d <? 8)%nat eqn:E; [|done]. rewrite Hl in E. unfold queue_allocation_size in E. lia. }
  destruct (N.eqb_spec (le_dec (take 8 d)) 0) as [E|E].
  - rewrite E in Hrt. destruct (C42_open cs n _ _ Hcs Hl (proj1 (Hok _)) Hrt) as (q & Hq & _). by eexists.
  - unfold queue_from_buffer. destruct (length d <? 8 + queue_header_len)%nat eqn:E1.
    { rewrite Hl in E1. unfold queue_allocation_size, queue_header_len in *. lia. }
    rewrite (rbind_ok _ _ _ Hrt). cbv beta. unfold tag_uninitialized.
    by destruct (N.eqb_spec (le_dec (take 8 d)) 0).
Qed.
Lemma create_run_all l a p r l' : ledger_ok l -> NoDup (keys a) -> cs <> 0%nat ->
  (exists n, (5 <= n)%nat /\ length (a_data (l (ac_queue a))) = queue_allocation_size cs n) ->
  a_data (l (ac_bids a)) <> [] -> a_data (l (ac_asks a)) <> [] ->
  create_market cs rent_exempt pid a p l = (r, l') ->
  match first_problem (create_problems rent_exempt pid l a p) with
  | Some x => fails r x
  | None => r = Ok tt
  end.
Proof.
  intros Hok Hd Hcs (n & Hn & Hl) Hb Ha H. unfold create_market in H. unfold create_problems. rewrite !first_cons.
  destruct (keys_distinct _ Hd) as (D1&D2&D3&D4&D5&D6).
  rewrite owner_run in H. destruct (foreign pid l (ac_queue a)) eqn:E1; [by injection H as <- _; apply fails_err|].
  rewrite owner_run in H. destruct (foreign pid l (ac_bids a)) eqn:E2; [by injection H as <- _; apply fails_err|].
  rewrite owner_run in H. destruct (foreign pid l (ac_asks a)) eqn:E3; [by injection H as <- _; apply fails_err|].
  rewrite rent_run in H. destruct (rent_exempt (a_lamports (l (ac_asks a))) _) eqn:R1; cbn [negb] in *;
    [rewrite orb_false_r|rewrite orb_true_r; by injection H as <- _; apply fails_err].
  rewrite rent_run in H. destruct (rent_exempt (a_lamports (l (ac_bids a))) _) eqn:R2; cbn [negb] in *;
    [rewrite orb_false_r|rewrite orb_true_r; by injection H as <- _; apply fails_err].
  rewrite rent_run in H. destruct (rent_exempt (a_lamports (l (ac_queue a))) _) eqn:R3; cbn [negb] in *;
    [rewrite orb_false_r|rewrite orb_true_r; by injection H as <- _; apply fails_err].
  rewrite rent_run in H. destruct (rent_exempt (a_lamports (l (ac_market a))) _) eqn:R4; cbn [negb] in *;
    [|by injection H as <- _; apply fails_err].
  destruct ((cp_min p =? 0) || (cp_tick p =? 0)) eqn:E4; [by injection H as <- _; apply fails_err|].
  assert (Qs : queue_check_size cs (a_data (l (ac_queue a))) = Ok tt) by (apply C42_accepted_sizes; by exists n).
  rewrite (bind_run _ _ _ _ _ (borrow_run [] (ac_queue a) l ltac:(nh))) in H. rewrite Qs in H. cbn [is_ok] in H.
  rewrite (bind_run _ _ _ tt l) in H by done.
  rewrite (bind_run _ _ _ _ _ (borrow_run [] (ac_market a) l ltac:(nh))) in H.
  unfold market_check_size in H. change (8 + market_state_len)%nat with 120%nat in H.
  destruct (length (a_data (l (ac_market a))) =? 120)%nat eqn:Lm; cbn [negb] in *;
    [|by injection H as <- _; apply fails_err].
  apply Nat.eqb_eq in Lm. rewrite bind_ok, market_open in H by done. change tag_uninitialized with 0 in H at 1.
  unfold account_tag at 1. destruct (le_dec (take 8 (a_data (l (ac_market a)))) =? 0) eqn:Tm; cbn [negb];
    [|by injection H as <- _; apply fails_err].
  rewrite bind_ok, bind_set in H.
  match type of H with bind _ _ ?L = _ => set (l1 := L) in H end.
  assert (L1 : forall k, k <> ac_market a -> l1 k = l k) by (intros; by apply set_account_ne).
  rewrite (bind_run _ _ _ _ _ (borrow_run [ac_market a] (ac_queue a) l1 ltac:(nh))) in H. rewrite L1 in H by done.
  pose proof (queue_open l (ac_queue a) n Hok Hcs Hn Hl) as Hq.
  destruct (account_tag l (ac_queue a) =? 0) eqn:Tq; cbn [negb];
    [destruct Hq as [[q qd] Hq]; rewrite Hq, bind_ok, bind_set in H
    |rewrite Hq in H; by injection H as <- _; apply fails_err].
  match type of H with bind _ _ ?L = _ => set (l2 := L) in H end.
  assert (L2 : forall k, k <> ac_market a -> k <> ac_queue a -> l2 k = l k).
  { intros. unfold l2. rewrite set_account_ne by done. by apply L1. }
  rewrite (bind_run _ _ _ _ _ (borrow_run [ac_market a; ac_queue a] (ac_asks a) l2 ltac:(nh))) in H.
  rewrite (bind_run _ _ _ _ _ (borrow_run [ac_market a; ac_queue a; ac_asks a] (ac_bids a) l2 ltac:(nh))) in H.
  rewrite !L2 in H by done. unfold slab_initialize in H.
  destruct (a_data (l (ac_asks a))) as [|x xs]; [done|]. destruct (a_data (l (ac_bids a))) as [|y ys]; [done|].
  cbn [idx lookup list_lookup N.to_nat hd] in *. change tag_uninitialized with 0 in H.
  change (idx (x :: xs) 0) with (Ok x) in H. unfold rbind at 1 in H.
  destruct (x =? 0); cbn [negb orb] in *; [|by injection H as <- _; apply fails_err].
  change (idx (y :: ys) 0) with (Ok y) in H. unfold rbind at 1 in H.
  destruct (y =? 0); cbn [negb orb] in *; [|by injection H as <- _; apply fails_err].
  rewrite bind_ok, bind_set in H. by injection H as <- _.
Qed.
(** The queue account's size is looked at before the market account; a wrong one is a
    failed [unwrap]. *)
Lemma create_queue_size l a p r l' :
  (forall n, (5 <= n)%nat -> length (a_data (l (ac_queue a))) <> queue_allocation_size cs n) ->
  create_market cs rent_exempt pid a p l = (r, l') ->
  match first_problem (take 5 (create_problems rent_exempt pid l a p)) with
  | Some x => fails r x
  | None => r = Panic PUnwrap
  end.
Proof.
  intros Hq H. unfold create_market in H. unfold create_problems. cbn [take]. rewrite !first_cons.
  rewrite owner_run in H. destruct (foreign pid l (ac_queue a)) eqn:E1; [by injection H as <- _; apply fails_err|].
  rewrite owner_run in H. destruct (foreign pid l (ac_bids a)) eqn:E2; [by injection H as <- _; apply fails_err|].
  rewrite owner_run in H. destruct (foreign pid l (ac_asks a)) eqn:E3; [by injection H as <- _; apply fails_err|].
  rewrite rent_run in H. destruct (rent_exempt (a_lamports (l (ac_asks a))) _) eqn:R1; cbn [negb] in *;
    [rewrite orb_false_r|rewrite orb_true_r; by injection H as <- _; apply fails_err].
  rewrite rent_run in H. destruct (rent_exempt (a_lamports (l (ac_bids a))) _) eqn:R2; cbn [negb] in *;
    [rewrite orb_false_r|rewrite orb_true_r; by injection H as <- _; apply fails_err].
  rewrite rent_run in H. destruct (rent_exempt (a_lamports (l (ac_queue a))) _) eqn:R3; cbn [negb] in *;
    [rewrite orb_false_r|rewrite orb_true_r; by injection H as <- _; apply fails_err].
  rewrite rent_run in H. destruct (rent_exempt (a_lamports (l (ac_market a))) _) eqn:R4; cbn [negb] in *;
    [|by injection H as <- _; apply fails_err].
  destruct ((cp_min p =? 0) || (cp_tick p =? 0)); [by injection H as <- _; apply fails_err|].
  rewrite (bind_run _ _ _ _ _ (borrow_run [] (ac_queue a) l ltac:(nh))) in H.
  destruct (queue_check_size cs (a_data (l (ac_queue a)))) as [[]| | |] eqn:E; cbn [is_ok] in H; try by injection H as <- _.
  apply C42_accepted_sizes in E as (n & Hn & E). by apply Hq in E.
Qed.

(** ** Instructions *)
Lemma map_err {A B} (x : M ledger A) (f : A -> B) l r l' :
  (let! s := x in ret (f s)) l = (r, l') -> exists r0 l0, x l = (r0, l0) /\
  (forall p, fails r0 p -> fails r p) /\ (forall s, r0 = Ok s -> r = Ok (f s)).
Proof.
  unfold bind. destruct (x l) as [r0 l0]. intros H. exists r0, l0. split; [done|].
  split; [intros p (e & -> & ?); injection H as <- _; by exists e|]. intros s ->. by injection H as <- _.
Qed.
Lemma op_reason l a o more r l' :
  length (a_data (l (ac_market a))) = 120%nat -> op_bytes_typed cs o ->
  pinstr (op_keys a o ++ more) (op_data o) l = (r, l') ->
  match first_problem (op_problems pid l a o) with Some x => fails r x | None => True end.
Proof.
  intros Hl Ht. rewrite op_instr_eq by done. intros H.
  destruct o as [p|id|ids|n]; apply map_err in H as (r0 & l0 & E & Hf & _);
    cbn [op_problems]; [unfold new_order_l in E|unfold cancel_order_l, with_book in E|unfold mass_cancel_l, with_book in E|].
  4: { apply (consume_run _ _ _ _ _ Hl) in E. destruct (first_problem _); auto. }
  all: apply trade_run in E; [|done]; destruct (first_problem _); auto.
Qed.
Lemma close_reason l a t more d r l' :
  length (a_data (l (ac_market a))) = 120%nat ->
  pinstr (keys a ++ t :: more) (ix_close_market :: d) l = (r, l') ->
  match first_problem (close_problems pid l a) with Some x => fails r x | None => records pid l a end.
Proof.
  intros Hl. rewrite close_instr_eq. intros H. apply map_err in H as (r0 & l0 & E & Hf & _).
  apply (close_run _ _ _ _ _ Hl) in E. destruct (first_problem _); auto.
Qed.
Lemma create_reason l a p more r l' : ledger_ok l -> create_typed p -> NoDup (keys a) -> cs <> 0%nat ->
  (exists n, (5 <= n)%nat /\ length (a_data (l (ac_queue a))) = queue_allocation_size cs n) ->
  a_data (l (ac_bids a)) <> [] -> a_data (l (ac_asks a)) <> [] ->
  pinstr (keys a ++ more) (ix_create_market :: wr_create p) l = (r, l') ->
  match first_problem (create_problems rent_exempt pid l a p) with Some x => fails r x | None => r = Ok None end.
Proof.
  intros Hok Hp Hd Hcs Hq Hb Ha. rewrite create_instr_eq by done. intros H.
  apply (map_err _ (fun _ => None)) in H as (r0 & l0 & E & Hf & Hs).
  apply create_run_all in E; try done. destruct (first_problem _); [by apply Hf|by apply (Hs tt)].
Qed.

(** The tag, the accounts and the parameters. *)
Lemma decode_run {A B} (rr : reader A) d (f : A -> M ledger B) l :
  (let! x := decode rr d in f x) l =
  match try_from_slice rr d with Some x => f x l | None => (Err PE_InvalidInstructionData, l) end.
Proof. unfold decode, bind, lift, ok_or. by destruct (try_from_slice rr d). Qed.
Lemma not_among {A} L (r : res A) x :
  among L r -> ~ In x (codes L) -> ~ fails r x.
Proof. intros Hr Hx (e & -> & E). apply Hx. eapply codes_in; [by apply Hr|done]. Qed.
Lemma raises_front {A} L (x : M ledger A) l r l' : raises L x -> x l = (r, l') -> among L r.
Proof. intros Hx E e ->. apply (Hx l). by rewrite E. Qed.
Lemma map_raises {A B} L (x : M ledger A) (f : A -> B) : raises L x -> raises L (let! s := x in ret (f s)).
Proof. intros H. by apply r_bind. Qed.
Lemma parsed {A} (x : M ledger A) L l r l' : x l = (r, l') -> raises L x ->
  ~ In NotEnoughAccountKeys (codes L) -> ~ In InvalidInstructionData (codes L) ->
  ~ fails r NotEnoughAccountKeys /\ ~ fails r InvalidInstructionData.
Proof. intros E Hx H1 H2. pose proof (raises_front _ _ _ _ _ Hx E). split; by eapply not_among. Qed.
Lemma dispatch ks t d l r l' :
  pinstr ks (t :: d) l = (r, l') ->
  if 5 <? t then fails r InvalidInstructionData
  else if (length ks <? accounts_needed t)%nat then fails r NotEnoughAccountKeys
  else if negb (decodable cs t d) then fails r InvalidInstructionData
  else ~ fails r NotEnoughAccountKeys /\ ~ fails r InvalidInstructionData.
Proof.
  intros H. unfold process_instruction in H. change ix_create_market with 0 in H. change ix_new_order with 1 in H.
  change ix_consume_events with 2 in H. change ix_cancel_order with 3 in H. change ix_close_market with 4 in H.
  change ix_mass_cancel_orders with 5 in H.
  assert (Hc : t = 0 \/ t = 1 \/ t = 2 \/ t = 3 \/ t = 4 \/ t = 5 \/ 5 < t) by lia.
  assert (N4 : forall B (f : accounts -> M ledger B) r l',
    (let! a := lift (parse_accounts ks) in f a) l = (r, l') ->
    if (length ks <? 4)%nat then fails r NotEnoughAccountKeys else exists a, f a l = (r, l')).
  { intros B f r0 l0 E. destruct ks as [|k1 [|k2 [|k3 [|k4 ks]]]]; cbn [parse_accounts length Nat.ltb Nat.leb] in E |- *;
      try (injection E as <- _; by apply fails_err). rewrite bind_ok in E. by eexists. }
  destruct Hc as [->|[->|[->|[->|[->|[->|Hc]]]]]].
  - cbn [N.eqb N.ltb N.compare] in *. change (5 <? 0) with false. cbv iota.
    change (accounts_needed 0) with 4%nat. apply N4 in H. destruct (_ <? _)%nat; [done|].
    destruct H as [a H]. rewrite decode_run in H. unfold decodable. change (0 =? 0) with true. cbv iota.
    destruct (try_from_slice rd_create d); cbn [negb]; [|injection H as <- _; by apply fails_err].
    eapply parsed; [exact H|apply (map_raises _ _ (fun _ => None)), e_create_l|cbv; intuition discriminate..].
  - change (1 =? 0) with false in H. change (1 =? 1) with true in H. cbv iota in H. change (5 <? 1) with false. cbv iota.
    change (accounts_needed 1) with 4%nat. apply N4 in H. destruct (_ <? _)%nat; [done|].
    destruct H as [a H]. rewrite decode_run in H. unfold decodable. change (1 =? 0) with false. change (1 =? 1) with true. cbv iota.
    destruct (try_from_slice (rd_new_order cs) d); cbn [negb]; [|injection H as <- _; by apply fails_err].
    eapply parsed; [exact H|apply (map_raises _ _ Some), e_new_order_l|cbv; intuition discriminate..].
  - change (2 =? 0) with false in H. change (2 =? 1) with false in H. change (2 =? 2) with true in H. cbv iota in H.
    change (5 <? 2) with false. cbv iota. change (accounts_needed 2) with 2%nat.
    destruct ks as [|k1 [|k2 ks]]; cbn [parse_consume length Nat.ltb Nat.leb] in *;
      try (injection H as <- _; by apply fails_err). rewrite bind_ok, decode_run in H.
    unfold decodable. change (2 =? 0) with false. change (2 =? 1) with false. change (2 =? 2) with true. cbv iota.
    destruct (try_from_slice rd_consume d); cbn [negb]; [|injection H as <- _; by apply fails_err].
    eapply parsed; [exact H|apply (map_raises _ _ (fun _ => None)), e_consume_l|cbv; intuition discriminate..].
  - change (3 =? 0) with false in H. change (3 =? 1) with false in H. change (3 =? 2) with false in H.
    change (3 =? 3) with true in H. cbv iota in H. change (5 <? 3) with false. cbv iota.
    change (accounts_needed 3) with 4%nat. apply N4 in H. destruct (_ <? _)%nat; [done|].
    destruct H as [a H]. rewrite decode_run in H. unfold decodable. change (3 =? 0) with false. change (3 =? 1) with false.
    change (3 =? 2) with false. change (3 =? 3) with true. cbv iota.
    destruct (try_from_slice rd_cancel d); cbn [negb]; [|injection H as <- _; by apply fails_err].
    eapply parsed; [exact H|apply (map_raises _ _ Some), e_with_book, e_cancel|cbv; intuition discriminate..].
  - change (4 =? 0) with false in H. change (4 =? 1) with false in H. change (4 =? 2) with false in H.
    change (4 =? 3) with false in H. change (4 =? 4) with true in H. cbv iota in H. change (5 <? 4) with false. cbv iota.
    change (accounts_needed 4) with 5%nat.
    destruct ks as [|k1 [|k2 [|k3 [|k4 [|k5 ks]]]]]; cbn [parse_close length Nat.ltb Nat.leb] in *;
      try (injection H as <- _; by apply fails_err). rewrite bind_ok in H.
    change (decodable cs 4 d) with true. cbn [negb].
    eapply parsed; [exact H|apply (map_raises _ _ (fun _ => None)), e_close_l|cbv; intuition discriminate..].
  - change (5 =? 0) with false in H. change (5 =? 1) with false in H. change (5 =? 2) with false in H.
    change (5 =? 3) with false in H. change (5 =? 4) with false in H. change (5 =? 5) with true in H. cbv iota in H.
    change (5 <? 5) with false. cbv iota.
    change (accounts_needed 5) with 4%nat. apply N4 in H. destruct (_ <? _)%nat; [done|].
    destruct H as [a H]. rewrite decode_run in H. unfold decodable. change (5 =? 0) with false. change (5 =? 1) with false.
    change (5 =? 2) with false. change (5 =? 3) with false. change (5 =? 4) with false. cbv iota.
    destruct (try_from_slice rd_mass_cancel d); cbn [negb]; [|injection H as <- _; by apply fails_err].
    eapply parsed; [exact H|apply (map_raises _ _ Some), e_with_book, e_mass|cbv; intuition discriminate..].
  - replace (5 <? t) with true by lia.
    replace (t =? 0) with false in H by lia. replace (t =? 1) with false in H by lia. replace (t =? 2) with false in H by lia.
    replace (t =? 3) with false in H by lia. replace (t =? 4) with false in H by lia. replace (t =? 5) with false in H by lia.
    injection H as <- _. by apply fails_err.
Qed.
End FailProofs.
