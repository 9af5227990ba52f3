(** * FailErrors.v: the errors that a computation can end with (C73) *)
From Verif Require Import Machine MachineProofs Bytes Critbit EventQueue OrderBook Market Spec Layout Borsh Ledger LedgerSpec
  Errors FailSpec.

(** The result is not an error, or an error of the list. *)
Definition among {A} (L : list error) (r : res A) : Prop := forall e, r = Err e -> In e L.
Definition raises {S A} (L : list error) (x : M S A) : Prop := forall s, among L (fst (x s)).

Section Rules.
Context {S : Type} (L : list error).
Lemma a_ok {A} (a : A) : among L (Ok a). Proof. done. Qed.
Lemma a_err {A} e : In e L -> among L (Err e : res A). Proof. intros H e' E. by injection E as <-. Qed.
Lemma a_panic {A} p : among L (Panic p : res A). Proof. done. Qed.
Lemma a_diverge {A} : among L (Diverge : res A). Proof. done. Qed.
Lemma a_rbind {A B} (r : res A) (f : A -> res B) :
  among L r -> (forall a, among L (f a)) -> among L (rbind r f).
Proof. intros Hr Hf. destruct r as [a|e|p|]; [apply Hf| |done..]. apply a_err. by apply Hr. Qed.
Lemma a_ok_or {A} (o : option A) e : In e L -> among L (ok_or o e).
Proof. intros H. destruct o; [apply a_ok|by apply a_err]. Qed.
Lemma a_unwrap {A} (o : option A) : among L (unwrap o). Proof. by destruct o. Qed.
Lemma a_unwrap_err {A} (r : res A) : among L (unwrap_err r). Proof. by destruct r. Qed.
Lemma a_idx {A} (l : list A) i : among L (idx l i).
Proof. unfold idx. by destruct (getN l i). Qed.
Lemma a_upd {A} (l : list A) i a : among L (upd l i a).
Proof. unfold upd. by destruct (_ <? _). Qed.
Lemma a_add w a b : among L (add_w w a b). Proof. unfold add_w. by destruct (_ <? _). Qed.
Lemma a_sub a b : among L (sub_w a b). Proof. unfold sub_w. by destruct (_ <=? _). Qed.
Lemma a_shift n : among L (shift_ok n). Proof. unfold shift_ok. by destruct (_ <? _). Qed.
Lemma a_walk_down n k : among L (walk_down n k). Proof. intros e E. by apply walk_down_no_err in E. Qed.
Lemma a_cast n l : among L (cast_slice n l).
Proof. unfold cast_slice. repeat case_match; done. Qed.
Lemma a_read_tag b : among L (read_tag b).
Proof. unfold read_tag. by destruct (_ <? _)%nat. Qed.

Lemma r_ret {A} (a : A) : raises L (ret a : M S A). Proof. done. Qed.
Lemma r_fail {A} e : In e L -> raises L (fail e : M S A). Proof. intros H s. by apply a_err. Qed.
Lemma r_panic {A} p : raises L (panic_with p : M S A). Proof. done. Qed.
Lemma r_get : raises L (get : M S S). Proof. done. Qed.
Lemma r_put s : raises L (put s : M S unit). Proof. done. Qed.
Lemma r_modify f : raises L (modify f : M S unit). Proof. done. Qed.
Lemma r_lift {A} (r : res A) : among L r -> raises L (lift r : M S A). Proof. by intros H s. Qed.
Lemma r_bind {A B} (x : M S A) (f : A -> M S B) :
  raises L x -> (forall a, raises L (f a)) -> raises L (bind x f).
Proof.
  intros Hx Hf s. specialize (Hx s). unfold bind. destruct (x s) as [[a|e|p|] s']; cbn in *; try done.
  - apply Hf.
  - apply a_err. by apply Hx.
Qed.
Lemma r_zoom {T A} (f : S -> T) g (x : M T A) : raises L x -> raises L (zoom f g x : M S A).
Proof. intros H s. unfold zoom. specialize (H (f s)). by destruct (x (f s)). Qed.
End Rules.
Lemma among_more {A} L L' (r : res A) : (forall e, In e L -> In e L') -> among L r -> among L' r.
Proof. intros H Hr e E. auto. Qed.
Lemma raises_more {S A} L L' (x : M S A) : (forall e, In e L -> In e L') -> raises L x -> raises L' x.
Proof. intros H Hr s. eapply among_more; eauto. Qed.
Lemma r_none {S A} L (x : M S A) : raises [] x -> raises L x.
Proof. apply raises_more. by intros e []. Qed.
Lemma a_none {A} L (r : res A) : among [] r -> among L r.
Proof. apply among_more. by intros e []. Qed.

Ltac r_in := clear; cbv; tauto.
Ltac r_step :=
  match goal with
  | |- raises _ (ret _) => apply r_ret
  | |- raises _ (panic_with _) => apply r_panic
  | |- raises _ get => apply r_get
  | |- raises _ (put _) => apply r_put
  | |- raises _ (modify _) => apply r_modify
  | |- raises _ (fail _) => apply r_fail; r_in
  | |- raises _ (lift _) => apply r_lift
  | |- raises _ (zoom _ _ _) => apply r_zoom
  | |- raises _ (bind _ _) => apply r_bind; [|intros ?]
  | |- among _ (Ok _) => apply a_ok
  | |- among _ (Panic _) => apply a_panic
  | |- among _ Diverge => apply a_diverge
  | |- among _ (Err _) => apply a_err; r_in
  | |- among _ (ok_or _ _) => apply a_ok_or; r_in
  | |- among _ (unwrap _) => apply a_unwrap
  | |- among _ (unwrap_err _) => apply a_unwrap_err
  | |- among _ (idx _ _) => apply a_idx
  | |- among _ (upd _ _ _) => apply a_upd
  | |- among _ (add_w _ _ _) => apply a_add
  | |- among _ (sub_w _ _) => apply a_sub
  | |- among _ (shift_ok _) => apply a_shift
  | |- among _ (walk_down _ _) => apply a_walk_down
  | |- among _ (cast_slice _ _) => apply a_cast
  | |- among _ (read_tag _) => apply a_read_tag
  | |- among _ (rbind _ _) => apply a_rbind; [|intros ?]
  | |- raises _ (match ?x with _ => _ end) => let E := fresh "E" in destruct x eqn:E
  | |- among _ (match ?x with _ => _ end) => destruct x
  end.
Ltac r_all := repeat (cbv zeta; r_step).

Section Slab.
Context {C : Type}.
Notation slab := (slab C).
Lemma e_write_leaf i l : raises [] (@write_leaf C i l). Proof. unfold write_leaf. r_all. Qed.
Lemma e_write_inner i l : raises [] (@write_inner C i l). Proof. unfold write_inner. r_all. Qed.
Lemma e_put_hdr h : raises [] (@put_hdr C h). Proof. unfold put_hdr. r_all. Qed.
Lemma e_allocate_leaf : raises [SlabOutOfSpace] (@allocate_leaf C).
Proof. unfold allocate_leaf. r_all; try apply r_none, e_put_hdr. Qed.
Lemma e_free_leaf h : raises [] (@free_leaf C h).
Proof. unfold free_leaf. r_all; try apply e_put_hdr; try apply e_write_leaf. Qed.
Lemma e_allocate_inner : raises [] (@allocate_inner_node C).
Proof. unfold allocate_inner_node. r_all; try apply e_put_hdr. Qed.
Lemma e_free_inner h : raises [] (@free_inner_node C h).
Proof. unfold free_inner_node. r_all; try apply e_put_hdr; try apply e_write_inner. Qed.
Lemma e_insert_walk fuel (s : slab) h pr k : among [] (insert_walk fuel s h pr k).
Proof.
  revert h pr. induction fuel as [|n IH]; intros h pr; [done|]. cbn [insert_walk]. r_all.
  apply IH.
Qed.
Lemma e_insert_leaf l : raises [SlabOutOfSpace] (@insert_leaf C l).
Proof.
  unfold insert_leaf. r_all; try first [apply e_allocate_leaf|apply r_none; first
    [apply e_write_leaf|apply e_write_inner|apply e_put_hdr|apply e_allocate_inner]|apply a_none, e_insert_walk].
Qed.
Lemma e_set_callback h c : raises [] (@set_callback_info C h c).
Proof. unfold set_callback_info. r_all. Qed.
Lemma e_remove_walk fuel (s : slab) gp pr ch b k : among [] (remove_walk fuel s gp pr ch b k).
Proof.
  revert gp pr ch b. induction fuel as [|n IH]; intros gp pr ch b; [done|]. cbn [remove_walk]. r_all.
  apply IH.
Qed.
Lemma e_remove k : raises [] (@remove_by_key C k).
Proof.
  unfold remove_by_key. r_all; try first
    [apply e_write_leaf|apply e_write_inner|apply e_put_hdr|apply e_free_leaf|apply e_free_inner|apply e_remove_walk].
  all: unfold get_callback_info; r_all.
Qed.
Lemma e_min_max_walk fuel (s : slab) b h : among [] (min_max_walk fuel s b h).
Proof. revert h. induction fuel as [|n IH]; intros h; [done|]. cbn [min_max_walk]. r_all; try apply IH. Qed.
Lemma e_min_max (s : slab) b : among [] (find_min_max s b).
Proof. unfold find_min_max. r_all; try apply e_min_max_walk. Qed.
Lemma e_push_back ev m t : raises [EventQueueFull] (@push_back C ev m t).
Proof. unfold push_back. r_all. Qed.
Lemma e_gen_id p sd : raises [] (@gen_order_id C p sd).
Proof. unfold gen_order_id, gen_seq_num. r_all. Qed.
Lemma e_pop n : raises [] (@pop_n C n).
Proof. unfold pop_n. r_all. Qed.
End Slab.

Section Book.
Context {C : Type} (same_id : C -> C -> bool).
Definition new_order_errors : list error := [EventQueueFull; WouldSelfTrade; NumericalOverflow].
Lemma e_push_out sd i b c : raises [EventQueueFull] (@push_out C sd i b c).
Proof. unfold push_out, on_evq. r_all; try apply e_push_back. Qed.
Lemma e_find_bbo (b : book C) sd : among [] (find_bbo b sd).
Proof. destruct sd; apply e_min_max. Qed.
Lemma e_match_step p m l : raises new_order_errors (match_step same_id p m l).
Proof.
  unfold match_step, on_tree, on_evq. r_all; try first
    [apply a_none, e_find_bbo|apply r_none, e_remove|apply r_none, e_write_leaf].
  all: first [eapply raises_more; [|apply e_push_out]|eapply raises_more; [|apply e_push_back]]; r_in.
Qed.
Lemma e_match_loop p m : raises new_order_errors (match_loop same_id p m).
Proof.
  intros b. unfold match_loop. set (f := fun lb : locals * book C => _).
  assert (Hf : forall n lb, match loop_nat n f lb with Done r => among new_order_errors (fst r) | Continue _ => True end).
  { induction n as [|n IH]; intros lb; [done|]. cbn [loop_nat]. unfold f at 1.
    pose proof (e_match_step p m (fst lb) (snd lb)) as Hs.
    destruct (match_step same_id p m (fst lb) (snd lb)) as [[[]|e|x|] b']; cbn in *; try done; try apply IH.
    apply a_err. by apply Hs. }
  rewrite loop_loop_nat. specialize (Hf (N.to_nat (N.succ (match_limit p))) (mk_locals (match_limit p) (max_base_qty p) (max_quote_qty p) true, b)).
  destruct (loop_nat _ _ _) as [[? ?]|r]; done.
Qed.
Lemma e_try_insert sd lf : raises [] (@try_insert C sd lf).
Proof.
  intros b. unfold try_insert. destruct (on_tree sd (insert_leaf lf) b) as [[[]|e|x|] b']; try done. by destruct e.
Qed.
Lemma e_no_post p b q : raises [] (@no_post C p b q).
Proof. unfold no_post. r_all. Qed.
Lemma e_post_leaf p lf : raises [EventQueueFull] (@post_leaf C p lf).
Proof.
  unfold post_leaf, on_tree. r_all; try first
    [apply r_none, e_try_insert|apply r_none, e_remove|apply e_push_out|apply a_none, e_min_max].
Qed.
Lemma e_new_order p m : raises new_order_errors (new_order same_id p m).
Proof.
  unfold new_order, on_tree, on_evq. r_all; try first
    [apply e_match_loop|apply r_none, e_no_post|apply r_none, e_gen_id|apply r_none, e_set_callback
    |eapply raises_more; [|apply e_post_leaf]; r_in].
Qed.
Lemma e_cancel id : raises [OrderNotFound; NumericalOverflow] (@process_cancel_order C id).
Proof. unfold process_cancel_order, on_book, on_tree. r_all; try apply r_none, e_remove. Qed.
Lemma e_mass_loop ids tb tq : raises [OrderNotFound] (@mass_cancel_loop C ids tb tq).
Proof.
  revert tb tq. induction ids as [|id ids IH]; intros tb tq; cbn [mass_cancel_loop]; [r_all|].
  unfold on_book, on_tree. r_all; [apply r_none, e_remove|apply IH].
Qed.
Lemma e_mass ids : raises [OrderNotFound] (@process_mass_cancel C ids).
Proof. unfold process_mass_cancel. r_all; try apply e_mass_loop. Qed.
End Book.

Section Ledger.
Context (cs : nat) (same_id : bytes -> bytes -> bool) (rent_exempt : N -> nat -> bool) (pid : N).
Lemma e_slab_open b t : among [AccountTagMismatch] (slab_from_buffer cs b t).
Proof. unfold slab_from_buffer. r_all. Qed.
Lemma e_queue_open b t : among [AccountTagMismatch] (queue_from_buffer cs b t).
Proof. unfold queue_from_buffer. r_all. Qed.
Lemma e_market_open b t : among [AccountTagMismatch] (market_from_buffer b t).
Proof. unfold market_from_buffer. r_all. Qed.
Lemma e_borrow h k : raises [] (borrow h k). Proof. unfold borrow. r_all. Qed.
Lemma e_borrow_lamports h k : raises [] (borrow_lamports h k). Proof. unfold borrow_lamports. r_all. Qed.
Lemma e_set_data k d : raises [] (set_data k d). Proof. unfold set_data. r_all. Qed.
Lemma e_set_lamports k d : raises [] (set_lamports k d). Proof. unfold set_lamports. r_all. Qed.
Lemma e_owner L k o e : In e L -> raises L (check_account_owner k o e).
Proof. intros. unfold check_account_owner. apply r_bind; [apply r_get|intros l]. destruct (_ =? _); [apply r_ret|by apply r_fail]. Qed.
Lemma e_key L k o e : In e L -> raises L (check_account_key k o e).
Proof. intros. unfold check_account_key. destruct (_ =? _); [apply r_ret|by apply r_fail]. Qed.
Lemma e_check_rent k : raises [PE_AccountNotRentExempt] (check_rent_exempt rent_exempt k).
Proof. unfold check_rent_exempt. r_all. Qed.
Lemma e_open_market k t : raises [AccountTagMismatch] (open_market k t).
Proof. unfold open_market. r_all; try apply r_none; [apply e_borrow|apply e_market_open|apply e_set_data]. Qed.
Ltac l_more lem := first [eapply raises_more; [|apply lem]|eapply among_more; [|apply lem]]; r_in.
Ltac l_all := unfold perform_checks, check_accounts; r_all; try first
  [apply r_none; first [apply e_borrow|apply e_borrow_lamports|apply e_set_data|apply e_set_lamports]
  |apply e_owner; r_in|apply e_key; r_in|l_more e_open_market|l_more e_slab_open|l_more e_queue_open
  |l_more e_market_open|l_more e_check_rent].
Definition account_errors : list error :=
  [WrongMarketOwner; WrongEventQueueOwner; WrongBidsOwner; WrongAsksOwner; AccountTagMismatch;
   WrongEventQueueAccount; WrongBidsAccount; WrongAsksAccount].
Lemma e_open_book h a : raises [AccountTagMismatch] (open_book cs h a).
Proof. unfold open_book. l_all. Qed.
(** The result of a computation on another state. *)
Lemma run_in {S A} L L' (x : M S A) s r s' : x s = (r, s') -> raises L x ->
  (forall e, In e L -> In e L') -> among L' r.
Proof. intros E Hx H e ->. specialize (Hx s e). rewrite E in Hx. auto. Qed.

Lemma e_new_order_l a p : raises (account_errors ++ [InvalidLimitPrice; WouldSelfTrade; EventQueueFull; NumericalOverflow])
  (new_order_l cs same_id pid a p).
Proof.
  unfold new_order_l. l_all; try l_more e_open_book.
  match goal with E : new_order _ _ _ _ = _ |- _ => eapply run_in; [exact E|apply e_new_order|r_in] end.
Qed.
Lemma e_with_book L a f : raises L f -> raises (account_errors ++ L) (with_book cs pid a f).
Proof.
  intros Hf. unfold with_book.
  assert (Ha : forall {A} (x : M ledger A), raises account_errors x -> raises (account_errors ++ L) x).
  { intros A x. apply raises_more. intros e He. apply in_or_app. by left. }
  apply r_bind; [apply Ha; l_all|intros _]. apply r_bind; [apply Ha; l_all|intros ms].
  apply r_bind; [apply Ha; l_all|intros _]. apply r_bind; [apply Ha; l_more e_open_book|intros [[[bd ad] bs] asl]].
  destruct (f _) as [r m'] eqn:E. apply r_bind; [apply r_none, e_set_data|intros _].
  apply r_bind; [apply r_none, e_set_data|intros _]. apply r_lift. eapply run_in; [exact E|exact Hf|].
  intros e He. apply in_or_app. by right.
Qed.
Lemma e_consume_l km kq n : raises [WrongMarketOwner; WrongEventQueueOwner; AccountTagMismatch; WrongEventQueueAccount]
  (consume_events_l cs pid km kq n).
Proof.
  unfold consume_events_l. l_all.
  match goal with E : pop_n _ _ = _ |- _ => eapply run_in; [exact E|apply e_pop|r_in] end.
Qed.
Lemma e_close_l a t :
  raises [WrongMarketOwner; AccountTagMismatch; WrongEventQueueAccount; WrongBidsAccount; WrongAsksAccount; MarketStillActive]
  (close_market cs pid a t).
Proof. unfold close_market, sides_empty. l_all. Qed.
Lemma e_create_l a p :
  raises [WrongEventQueueOwner; WrongBidsOwner; WrongAsksOwner; PE_AccountNotRentExempt; PE_InvalidArgument;
          PE_InvalidAccountData; AccountTagMismatch; PE_AccountAlreadyInitialized]
  (create_market cs rent_exempt pid a p).
Proof. unfold create_market, market_check_size, slab_initialize. l_all. Qed.

(** ** Instructions *)
Definition codes (L : list error) : list program_error := omap to_program_error L.
Lemma codes_in L e x : In e L -> to_program_error e = Some x -> In x (codes L).
Proof. intros He Hx. unfold codes. apply elem_of_list_In, elem_of_list_omap. exists e. by rewrite elem_of_list_In. Qed.
Definition errors_of (t : N) : list error :=
  if t =? 0 then [PE_NotEnoughAccountKeys; PE_InvalidInstructionData; WrongEventQueueOwner; WrongBidsOwner; WrongAsksOwner;
     PE_AccountNotRentExempt; PE_InvalidArgument; PE_InvalidAccountData; AccountTagMismatch; PE_AccountAlreadyInitialized]
  else if t =? 1 then PE_NotEnoughAccountKeys :: PE_InvalidInstructionData :: account_errors ++
     [InvalidLimitPrice; WouldSelfTrade; EventQueueFull; NumericalOverflow]
  else if t =? 2 then [PE_NotEnoughAccountKeys; PE_InvalidInstructionData; WrongMarketOwner; WrongEventQueueOwner; AccountTagMismatch;
     WrongEventQueueAccount]
  else if t =? 3 then PE_NotEnoughAccountKeys :: PE_InvalidInstructionData :: account_errors ++ [OrderNotFound; NumericalOverflow]
  else if t =? 4 then [PE_NotEnoughAccountKeys; WrongMarketOwner; AccountTagMismatch; WrongEventQueueAccount; WrongBidsAccount;
     WrongAsksAccount; MarketStillActive]
  else if t =? 5 then PE_NotEnoughAccountKeys :: PE_InvalidInstructionData :: account_errors ++ [OrderNotFound]
  else [PE_InvalidInstructionData].
Lemma possible_errors t : possible t = codes (errors_of t).
Proof.
  unfold possible, errors_of. by repeat match goal with |- context [if ?b then _ else _] => destruct b end.
Qed.
Lemma a_parse ks : among [PE_NotEnoughAccountKeys] (parse_accounts ks).
Proof. unfold parse_accounts. r_all. Qed.
Lemma a_parse_consume ks : among [PE_NotEnoughAccountKeys] (parse_consume ks).
Proof. unfold parse_consume. r_all. Qed.
Lemma a_parse_close ks : among [PE_NotEnoughAccountKeys] (parse_close ks).
Proof. unfold parse_close. r_all. Qed.
Lemma e_decode {A} (r : reader A) d : raises [PE_InvalidInstructionData] (decode r d).
Proof. unfold decode. r_all. Qed.
Lemma errors_instr ks t d : raises (errors_of t) (process_instruction cs same_id rent_exempt pid ks (t :: d)).
Proof.
  unfold process_instruction, errors_of.
  change ix_create_market with 0. change ix_new_order with 1. change ix_consume_events with 2.
  change ix_cancel_order with 3. change ix_close_market with 4. change ix_mass_cancel_orders with 5.
  destruct (t =? 0); [|destruct (t =? 1); [|destruct (t =? 2); [|destruct (t =? 3); [|destruct (t =? 4); [|destruct (t =? 5)]]]]].
  all: r_all; try first [l_more a_parse|l_more a_parse_consume|l_more a_parse_close|l_more @e_decode].
  - l_more e_create_l.
  - l_more e_new_order_l.
  - l_more e_consume_l.
  - unfold cancel_order_l. apply (raises_more (account_errors ++ [OrderNotFound; NumericalOverflow])); [r_in|apply e_with_book, e_cancel].
  - l_more e_close_l.
  - unfold mass_cancel_l. apply (raises_more (account_errors ++ [OrderNotFound])); [r_in|apply e_with_book, e_mass].
Qed.
Lemma instr_possible ks t d l r l' x :
  process_instruction cs same_id rent_exempt pid ks (t :: d) l = (r, l') -> fails r x -> In x (possible t).
Proof.
  intros H (e & -> & Hx). rewrite possible_errors. apply (codes_in _ e); [|done].
  apply (errors_instr ks t d l). by rewrite H.
Qed.
End Ledger.
