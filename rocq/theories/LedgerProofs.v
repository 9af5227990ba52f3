(** * LedgerProofs.v: what the account-level processors do to a ledger *)
From Verif Require Import Machine Bytes Critbit EventQueue OrderBook Market Spec MachineProofs
  QueueProofs Layout LayoutProofs Borsh BorshProofs TypedProps Ledger LedgerSpec.
From Coq Require Import ZifyBool ZifyNat ZifyN.

(** ** Steps of a computation *)
Lemma bind_inv {S A B} (m : M S A) (f : A -> M S B) s b s' :
  bind m f s = (Ok b, s') -> exists a s1, m s = (Ok a, s1) /\ f a s1 = (Ok b, s').
Proof. unfold bind. destruct (m s) as [[a| | |] s1]; try done. intros H. by exists a, s1. Qed.
Lemma bind_run {S A B} (m : M S A) (f : A -> M S B) s a s1 :
  m s = (Ok a, s1) -> bind m f s = f a s1.
Proof. unfold bind. by intros ->. Qed.
Lemma bind_ok {S A B} (x : A) (f : A -> M S B) s : bind (lift (Ok x)) f s = f x s.
Proof. done. Qed.
Lemma bind_get {S B} (f : S -> M S B) s : bind get f s = f s s.
Proof. done. Qed.
Lemma bind_set {B} k d (f : unit -> M ledger B) l :
  bind (set_data k d) f l =
  f tt (set_account k (mk_account (a_owner (l k)) (a_lamports (l k)) d) l).
Proof. done. Qed.
Lemma lift_inv {S A} (r : res A) (s : S) a s' : lift r s = (Ok a, s') -> r = Ok a /\ s' = s.
Proof. by intros [= -> ->]. Qed.
Lemma ret_inv {S A} (x : A) (s : S) a s' : ret x s = (Ok a, s') -> a = x /\ s' = s.
Proof. by intros [= -> ->]. Qed.
Lemma get_inv {S} (s : S) a s' : get s = (Ok a, s') -> a = s /\ s' = s.
Proof. by intros [= -> ->]. Qed.

(** ** Ledgers *)
Definition with_data (x : account) (d : bytes) : account :=
  mk_account (a_owner x) (a_lamports x) d.
Lemma with_data_id x : with_data x (a_data x) = x.
Proof. by destruct x. Qed.
Lemma set_account_eq k x l : set_account k x l k = x.
Proof. unfold set_account. by rewrite N.eqb_refl. Qed.
Lemma set_account_ne k k' x l : k' <> k -> set_account k x l k' = l k'.
Proof. unfold set_account. intros. by destruct (N.eqb_spec k' k). Qed.
Lemma set_account_id k x l k' : x = l k -> set_account k x l k' = l k'.
Proof. intros ->. unfold set_account. by destruct (N.eqb_spec k' k) as [->|]. Qed.
Lemma set_data_run k d l : set_data k d l = (Ok tt, set_account k (with_data (l k) d) l).
Proof. done. Qed.
Lemma set_data_inv k d l u l' :
  set_data k d l = (Ok u, l') -> l' = set_account k (with_data (l k) d) l.
Proof. by intros [= _ <-]. Qed.
Lemma set_lamports_inv k d l u l' :
  set_lamports k d l = (Ok u, l') ->
  l' = set_account k (mk_account (a_owner (l k)) d (a_data (l k))) l.
Proof. by intros [= _ <-]. Qed.
Lemma not_held k held : k ∉ held <-> existsb (N.eqb k) held = false.
Proof.
  induction held as [|x held IH]; [split; [done|intros _; apply not_elem_of_nil]|].
  rewrite not_elem_of_cons, IH. cbn. destruct (N.eqb_spec k x); cbn; naive_solver.
Qed.
Lemma borrow_run held k l : k ∉ held -> borrow held k l = (Ok (a_data (l k)), l).
Proof. intros H. apply not_held in H. unfold borrow, bind, get. by rewrite H. Qed.
Lemma borrow_inv held k l d l' :
  borrow held k l = (Ok d, l') -> k ∉ held /\ d = a_data (l k) /\ l' = l.
Proof.
  unfold borrow, bind, get. rewrite not_held. destruct (existsb _ _); [done|]. by intros [= <- <-].
Qed.
Lemma borrow_lamports_run held k l : k ∉ held -> borrow_lamports held k l = (Ok (a_lamports (l k)), l).
Proof. intros H. apply not_held in H. unfold borrow_lamports, bind, get. by rewrite H. Qed.
Lemma borrow_lamports_inv held k l d l' :
  borrow_lamports held k l = (Ok d, l') -> k ∉ held /\ d = a_lamports (l k) /\ l' = l.
Proof.
  unfold borrow_lamports, bind, get. rewrite not_held. destruct (existsb _ _); [done|]. by intros [= <- <-].
Qed.
Lemma check_key_run k k' e l : k = k' -> check_account_key k k' e l = (Ok tt, l).
Proof. intros ->. unfold check_account_key. by rewrite N.eqb_refl. Qed.
Lemma check_key_inv k k' e l u l' :
  check_account_key k k' e l = (Ok u, l') -> k = k' /\ l' = l.
Proof. unfold check_account_key. destruct (N.eqb_spec k k'); [|done]. by intros [= _ <-]. Qed.
Lemma check_owner_run k o e l : a_owner (l k) = o -> check_account_owner k o e l = (Ok tt, l).
Proof. intros <-. unfold check_account_owner, bind, get. by rewrite N.eqb_refl. Qed.
Lemma check_owner_inv k o e l u l' :
  check_account_owner k o e l = (Ok u, l') -> a_owner (l k) = o /\ l' = l.
Proof.
  unfold check_account_owner, bind, get. destruct (N.eqb_spec (a_owner (l k)) o); [|done].
  by intros [= _ <-].
Qed.
Lemma check_rent_run re k l :
  re (a_lamports (l k)) (length (a_data (l k))) = true -> check_rent_exempt re k l = (Ok tt, l).
Proof. intros H. unfold check_rent_exempt, bind, get. by rewrite H. Qed.
Lemma check_rent_inv re k l u l' :
  check_rent_exempt re k l = (Ok u, l') ->
  re (a_lamports (l k)) (length (a_data (l k))) = true /\ l' = l.
Proof.
  unfold check_rent_exempt, bind, get. destruct (re _ _); [|done]. by intros [= _ <-].
Qed.

(** Walk forward and backward through a processor. *)
Ltac nh := repeat (apply not_elem_of_cons; split; [done|]); apply not_elem_of_nil.
Ltac run1 lem := erewrite bind_run by (apply lem; first [done|nh]); cbv beta iota.
Ltac eqb1 := match goal with |- context [?x =? ?y] => destruct (N.eqb_spec x y) end.
Ltac eqbs := repeat (eqb1; try congruence).
Section Inversion.
Context {B : Type} (b : B) (l l' : ledger).
Lemma b_owner k o e f : bind (check_account_owner k o e) f l = (Ok b, l') ->
  a_owner (l k) = o /\ f tt l = (Ok b, l').
Proof. intros H. apply bind_inv in H as ([] & s & E & H). apply check_owner_inv in E as [? ->]. done. Qed.
Lemma b_key k o e f : bind (check_account_key k o e) f l = (Ok b, l') ->
  k = o /\ f tt l = (Ok b, l').
Proof. intros H. apply bind_inv in H as ([] & s & E & H). apply check_key_inv in E as [? ->]. done. Qed.
Lemma b_rent re k f : bind (check_rent_exempt re k) f l = (Ok b, l') ->
  re (a_lamports (l k)) (length (a_data (l k))) = true /\ f tt l = (Ok b, l').
Proof. intros H. apply bind_inv in H as ([] & s & E & H). apply check_rent_inv in E as [? ->]. done. Qed.
Lemma b_borrow held k f : bind (borrow held k) f l = (Ok b, l') ->
  k ∉ held /\ f (a_data (l k)) l = (Ok b, l').
Proof. intros H. apply bind_inv in H as (d & s & E & H). apply borrow_inv in E as (? & -> & ->). done. Qed.
Lemma b_lamports held k f : bind (borrow_lamports held k) f l = (Ok b, l') ->
  k ∉ held /\ f (a_lamports (l k)) l = (Ok b, l').
Proof. intros H. apply bind_inv in H as (d & s & E & H). apply borrow_lamports_inv in E as (? & -> & ->). done. Qed.
Lemma b_set k d f : bind (set_data k d) f l = (Ok b, l') ->
  f tt (set_account k (with_data (l k) d) l) = (Ok b, l').
Proof. done. Qed.
Lemma b_lift {A} (r : res A) f : bind (lift r) f l = (Ok b, l') ->
  exists a, r = Ok a /\ f a l = (Ok b, l').
Proof. intros H. apply bind_inv in H as (d & s & E & H). apply lift_inv in E as (-> & ->). by exists d. Qed.
End Inversion.

Section LedgerProofs.
Context (cs : nat) (pid : N).
Notation opens := (opens cs pid).
Notation records := (records pid).

(** ** Opening the market account *)
Lemma open_market_run l k ms :
  market_from_buffer (a_data (l k)) tag_market = Ok (ms, a_data (l k)) ->
  open_market k tag_market l = (Ok ms, set_account k (l k) l).
Proof.
  intros H. unfold open_market. run1 borrow_run.
  unfold lift at 1. rewrite H. unfold bind at 1. cbn [snd fst].
  erewrite bind_run by apply set_data_run. by rewrite with_data_id.
Qed.
Lemma read_tag_hd buf t : t < 256 -> read_tag buf = Ok t -> hd 0 buf = t.
Proof.
  intros Ht H. apply read_tag_ok in H. destruct H as [Hl H]. destruct buf as [|b buf]; [cbn in Hl; lia|].
  change (b + 256 * le_dec (take 7 buf) = t) in H. cbn [hd]. lia.
Qed.
Lemma market_tag_same buf ms d : bytes_ok buf ->
  market_from_buffer buf tag_market = Ok (ms, d) -> d = buf.
Proof.
  intros Hb H. apply market_from_ok in H. destruct H as (_ & H & _ & ->). by apply read_tag_write.
Qed.
Lemma open_market_inv l k ms l' : bytes_ok (a_data (l k)) ->
  open_market k tag_market l = (Ok ms, l') ->
  market_from_buffer (a_data (l k)) tag_market = Ok (ms, a_data (l k)) /\ l' = set_account k (l k) l.
Proof.
  intros Hb H. unfold open_market in H. apply b_borrow in H as [_ H].
  apply b_lift in H as ([ms0 d] & E & H). cbn [snd fst] in H.
  pose proof (market_tag_same _ _ _ Hb E) as ->. apply b_set in H. rewrite with_data_id in H.
  injection H as <- <-. done.
Qed.

Lemma keys_distinct a : NoDup (keys a) ->
  ac_market a <> ac_queue a /\ ac_market a <> ac_bids a /\ ac_market a <> ac_asks a /\
  ac_queue a <> ac_bids a /\ ac_queue a <> ac_asks a /\ ac_bids a <> ac_asks a.
Proof.
  unfold keys. rewrite !NoDup_cons. set_unfold. intros (H1 & H2 & H3 & _). naive_solver.
Qed.
Lemma distinct_keys a :
  ac_market a <> ac_queue a -> ac_market a <> ac_bids a -> ac_market a <> ac_asks a ->
  ac_queue a <> ac_bids a -> ac_queue a <> ac_asks a -> ac_bids a <> ac_asks a -> NoDup (keys a).
Proof.
  unfold keys. intros. repeat (apply NoDup_cons; split; [set_unfold; naive_solver|]). by apply NoDup_nil.
Qed.
Lemma elem_keys k a : k ∈ keys a <->
  k = ac_market a \/ k = ac_queue a \/ k = ac_bids a \/ k = ac_asks a.
Proof. unfold keys. set_unfold. naive_solver. Qed.

(** ** The accounts after a write *)
(** The accounts after the book of market [a] was replaced by [b]. *)
Definition written (l : ledger) (a : accounts) (b : book bytes) (l' : ledger) : Prop :=
  forall k, l' k =
    if k =? ac_bids a then with_data (l k) (slab_to_buffer (bids b) (a_data (l k)))
    else if k =? ac_asks a then with_data (l k) (slab_to_buffer (asks b) (a_data (l k)))
    else if k =? ac_queue a then with_data (l k) (queue_to_buffer (evq b) (a_data (l k)))
    else l k.

(** The shape of a book read from accounts of the given sizes. *)
Definition ledger_shape (l : ledger) (a : accounts) (b : book bytes) : shape :=
  mk_shape (length (leaf_nodes (bids b))) (length (inner_nodes (bids b)))
           (length (callback_infos (bids b))) (length (leaf_nodes (asks b)))
           (length (inner_nodes (asks b))) (length (callback_infos (asks b)))
           (length (q_events (evq b))) (length (q_cbs (evq b))).

Lemma opens_shape l a m :
  ledger_ok l -> opens l a m -> book_shape cs (ledger_shape l a (m_book m)) (m_book m).
Proof.
  intros Hok [_ _ _ Hb Ha Hq]. apply slab_from_ok in Hb; [|apply Hok]. apply slab_from_ok in Ha; [|apply Hok].
  apply queue_from_ok in Hq; [|apply Hok]. destruct Hb as (_&_&_&Hb&_), Ha as (_&_&_&Ha&_), Hq as (_&_&_&_&Hq&_).
  split; by split.
Qed.

Lemma fits_shape len s s' nl ni nc : slab_fits cs len s ->
  nl = length (leaf_nodes s) -> ni = length (inner_nodes s) -> nc = length (callback_infos s) ->
  slab_shape cs nl ni nc s' -> slab_fits cs len s' /\ slab_typed cs s'.
Proof.
  intros [H1 H2 H3 H4] -> -> -> [Ht E1 E2 E3]. split; [|done].
  split; rewrite ?E1, ?E2, ?E3; done.
Qed.
Lemma qfits_shape len q q' ne nc : queue_fits cs len q ->
  ne = length (q_events q) -> nc = length (q_cbs q) ->
  queue_shape cs ne nc q' -> queue_fits cs len q' /\ queue_typed cs q'.
Proof.
  intros [H1 H2 H3] -> -> [Ht E1 E2]. split; [|done]. split; rewrite ?E1, ?E2; done.
Qed.

Lemma written_opens l a m b l' :
  ledger_ok l -> opens l a m -> book_shape cs (ledger_shape l a (m_book m)) b ->
  written l a b l' -> opens l' a (mk_market (m_min m) (m_tick m) b).
Proof.
  intros Hok Ho [Sb Sa Sq] Hw. pose proof Ho as [Hd Hown Hm Hb Ha Hq].
  destruct (keys_distinct _ Hd) as (D1&D2&D3&D4&D5&D6).
  apply slab_from_ok in Hb; [|apply Hok]. apply slab_from_ok in Ha; [|apply Hok].
  apply queue_from_ok in Hq; [|apply Hok]. destruct Hb as (Tb&Hcs&Fb&_&_), Ha as (Ta&_&Fa&_&_).
  destruct Hq as (Tq&_&Eq&Fq&_&_).
  destruct (fits_shape _ _ _ _ _ _ Fb eq_refl eq_refl eq_refl Sb) as [Fb' Tb'].
  destruct (fits_shape _ _ _ _ _ _ Fa eq_refl eq_refl eq_refl Sa) as [Fa' Ta'].
  destruct (qfits_shape _ _ _ _ _ Fq eq_refl eq_refl Sq) as [Fq' Tq'].
  assert (Em : l' (ac_market a) = l (ac_market a)).
  { rewrite Hw. eqbs. }
  split; try done.
  - intros k Hk. rewrite Hw. specialize (Hown k Hk).
    eqbs; done.
  - by rewrite Em.
  - rewrite Hw, N.eqb_refl. cbn. by apply slab_to_from.
  - rewrite Hw. destruct (N.eqb_spec (ac_asks a) (ac_bids a)); [by symmetry in e|]. rewrite N.eqb_refl.
    cbn. by apply slab_to_from.
  - rewrite Hw. destruct (N.eqb_spec (ac_queue a) (ac_bids a)); [done|].
    destruct (N.eqb_spec (ac_queue a) (ac_asks a)); [done|]. rewrite N.eqb_refl. cbn.
    rewrite (queue_to_from cs _ tag_event_queue) by done. f_equal. f_equal.
    apply read_tag_write; [apply (queue_to_ok cs); [apply Hok|done]|]. by rewrite (queue_to_read_tag cs).
Qed.

(** ** New order *)
Lemma perform_checks_run l a :
  (forall k, k ∈ keys a -> a_owner (l k) = pid) -> perform_checks pid a l = (Ok tt, l).
Proof.
  intros H. assert (Hk : forall k, k ∈ keys a -> a_owner (l k) = pid) by done. unfold perform_checks.
  rewrite (bind_run _ _ _ tt l) by (apply check_owner_run, H, elem_keys; by left).
  rewrite (bind_run _ _ _ tt l) by (apply check_owner_run, H, elem_keys; by right; left).
  rewrite (bind_run _ _ _ tt l) by (apply check_owner_run, H, elem_keys; by right; right; left).
  apply check_owner_run, H, elem_keys. by right; right; right.
Qed.
Lemma perform_checks_inv {B} (b : B) l l' a f :
  bind (perform_checks pid a) f l = (Ok b, l') ->
  (forall k, k ∈ keys a -> a_owner (l k) = pid) /\ f tt l = (Ok b, l').
Proof.
  intros H. apply bind_inv in H as ([] & s & E & H). unfold perform_checks in E.
  apply b_owner in E as [H1 E]. apply b_owner in E as [H2 E]. apply b_owner in E as [H3 E].
  apply check_owner_inv in E as [H4 ->]. split; [|done]. intros k Hk.
  apply elem_keys in Hk. naive_solver.
Qed.
Lemma check_accounts_run l a mn tk :
  check_accounts a (mk_market_state (ac_queue a) (ac_bids a) (ac_asks a) mn tk) l = (Ok tt, l).
Proof.
  unfold check_accounts. run1 check_key_run. run1 check_key_run. by apply check_key_run.
Qed.
Lemma check_accounts_inv {B} (b : B) l l' a ms f :
  bind (check_accounts a ms) f l = (Ok b, l') ->
  ac_queue a = ms_event_queue ms /\ ac_bids a = ms_bids ms /\ ac_asks a = ms_asks ms /\
  f tt l = (Ok b, l').
Proof.
  intros H. apply bind_inv in H as ([] & s & E & H). unfold check_accounts in E.
  apply b_key in E as [H1 E]. apply b_key in E as [H2 E].
  apply check_key_inv in E as [H3 ->]. done.
Qed.
Lemma open_book_run l a bs asl held :
  ac_bids a ∉ held -> ac_asks a ∉ ac_bids a :: held ->
  slab_from_buffer cs (a_data (l (ac_bids a))) tag_bids = Ok bs ->
  slab_from_buffer cs (a_data (l (ac_asks a))) tag_asks = Ok asl ->
  open_book cs held a l = (Ok (a_data (l (ac_bids a)), a_data (l (ac_asks a)), bs, asl), l).
Proof.
  intros H1 H2 H3 H4. unfold open_book. run1 borrow_run. run1 borrow_run.
  rewrite H3. unfold lift at 1. unfold bind at 1. rewrite H4. done.
Qed.
Lemma open_book_inv {B} (b : B) l l' a held f :
  bind (open_book cs held a) f l = (Ok b, l') ->
  ac_bids a ∉ held /\ ac_asks a ∉ ac_bids a :: held /\ exists bs asl,
  slab_from_buffer cs (a_data (l (ac_bids a))) tag_bids = Ok bs /\
  slab_from_buffer cs (a_data (l (ac_asks a))) tag_asks = Ok asl /\
  f (a_data (l (ac_bids a)), a_data (l (ac_asks a)), bs, asl) l = (Ok b, l').
Proof.
  intros H. apply bind_inv in H as (x & s & E & H). unfold open_book in E.
  apply b_borrow in E as [H1 E]. apply b_borrow in E as [H2 E].
  apply b_lift in E as (bs & E1 & E). apply b_lift in E as (asl & E2 & E).
  injection E as <- <-. split; [done|]. split; [done|]. by exists bs, asl.
Qed.

Lemma process_new_order_eq same_id p (m : market bytes) :
  process_new_order same_id p m =
  if m_tick m =? 0 then (Panic PDivZero, m)
  else if negb (limit_price p mod m_tick m =? 0) then (Err InvalidLimitPrice, m)
  else if post_allowed p && (limit_price p <? m_tick m) then (Err InvalidLimitPrice, m)
  else let '(r, b) := new_order same_id p (m_min m) (m_book m) in (r, set_m_book b m).
Proof.
  unfold process_new_order, bind, get.
  destruct (m_tick m =? 0); [done|]. destruct (negb _); [done|]. by destruct (_ && _).
Qed.
Lemma new_order_l_run same_id l a p m :
  ledger_ok l -> opens l a m ->
  exists l', new_order_l cs same_id pid a p l = (fst (process_new_order same_id p m), l') /\
    (is_ok (fst (process_new_order same_id p m)) = true ->
     written l a (m_book (snd (process_new_order same_id p m))) l').
Proof.
  intros Hok [Hd Hown Hm Hb Ha Hq]. destruct (keys_distinct _ Hd) as (D1&D2&D3&D4&D5&D6).
  unfold new_order_l. rewrite (bind_run _ _ _ _ _ (perform_checks_run l a Hown)).
  rewrite (bind_run _ _ _ _ _ (open_market_run _ _ _ Hm)).
  set (l1 := set_account (ac_market a) (l (ac_market a)) l).
  assert (El1 : forall k, l1 k = l k) by (intros; by apply set_account_id).
  rewrite (bind_run _ _ _ _ _ (check_accounts_run l1 a _ _)). cbn [ms_tick ms_min].
  rewrite process_new_order_eq.
  destruct (m_tick m =? 0); [by exists l1|].
  destruct (negb _); [by exists l1|]. destruct (_ && _); [by exists l1|].
  assert (Hb1 := Hb). assert (Ha1 := Ha). rewrite <- El1 in Hb1, Ha1.
  rewrite (bind_run _ _ _ _ _ (open_book_run l1 a _ _ [ac_market a] ltac:(nh) ltac:(nh) Hb1 Ha1)).
  rewrite !El1. cbv beta iota.
  rewrite (bind_run _ _ _ _ _ (borrow_run [ac_market a; ac_bids a; ac_asks a] (ac_queue a) l1 ltac:(nh))).
  rewrite El1, Hq. rewrite bind_ok. cbv beta iota.
  replace (mk_book (bids (m_book m)) (asks (m_book m)) (evq (m_book m))) with (m_book m) by (by destruct (m_book m)).
  destruct (new_order same_id p (m_min m) (m_book m)) as [r b]. cbn [fst snd m_book set_m_book].
  do 3 (erewrite bind_run by apply set_data_run). eexists. split; [reflexivity|]. intros _ k.
  unfold set_account. eqbs; subst; rewrite ?El1; try congruence; rewrite ?N.eqb_refl; try done.
Qed.

(** ** Cancel order, mass cancel *)
(** Computations that neither read nor write the event queue. *)
Definition with_queue (q : queue bytes) (m : market bytes) : market bytes :=
  mk_market (m_min m) (m_tick m) (mk_book (bids (m_book m)) (asks (m_book m)) q).
Definition queue_free {A} (f : M (market bytes) A) : Prop :=
  forall m q, f (with_queue q m) = (fst (f m), with_queue q (snd (f m))).
Lemma queue_free_bind {A B} (f : M (market bytes) A) (g : A -> M (market bytes) B) :
  queue_free f -> (forall x, queue_free (g x)) -> queue_free (bind f g).
Proof.
  intros Hf Hg m q. unfold bind. rewrite Hf. destruct (f m) as [[x| | |] m1]; cbn; try done. apply Hg.
Qed.
Lemma queue_free_lift {A} (r : res A) : queue_free (lift r).
Proof. done. Qed.
Lemma queue_free_ret {A} (r : A) : queue_free (ret r).
Proof. done. Qed.
Lemma queue_free_tree {A} sd (f : M (slab bytes) A) : queue_free (on_book (on_tree sd f)).
Proof.
  intros m q. unfold on_book, on_tree, zoom. destruct sd; cbn; by destruct (f _).
Qed.
Lemma cancel_free id : queue_free (process_cancel_order id).
Proof.
  unfold process_cancel_order. apply queue_free_bind; [apply queue_free_tree|]. intros r.
  apply queue_free_bind; [apply queue_free_lift|]. intros lc.
  apply queue_free_bind; [apply queue_free_lift|]. intros q. apply queue_free_ret.
Qed.
Lemma mass_cancel_free ids : queue_free (process_mass_cancel ids).
Proof.
  unfold process_mass_cancel. apply queue_free_bind; [|intros t; apply queue_free_ret].
  enough (G : forall tb tq, queue_free (mass_cancel_loop ids tb tq)) by apply G.
  induction ids as [|id ids IH]; intros tb tq; [apply queue_free_ret|].
  cbn [mass_cancel_loop]. apply queue_free_bind; [apply queue_free_tree|]. intros r.
  apply queue_free_bind; [apply queue_free_lift|]. intros lc.
  apply queue_free_bind; [apply queue_free_lift|]. intros t1.
  apply queue_free_bind; [apply queue_free_lift|]. intros t2. apply IH.
Qed.
Lemma with_queue_id m : with_queue (evq (m_book m)) m = m.
Proof. by destruct m as [? ? []]. Qed.
Lemma with_queue_evq q m : evq (m_book (with_queue q m)) = q.
Proof. done. Qed.

Lemma with_book_run l a f m :
  ledger_ok l -> opens l a m -> queue_free f ->
  exists l', with_book cs pid a f l = (fst (f m), l') /\ written l a (m_book (snd (f m))) l'.
Proof.
  intros Hok [Hd Hown Hm Hb Ha Hq] Hf. destruct (keys_distinct _ Hd) as (D1&D2&D3&D4&D5&D6).
  unfold with_book. rewrite (bind_run _ _ _ _ _ (perform_checks_run l a Hown)).
  rewrite (bind_run _ _ _ _ _ (open_market_run _ _ _ Hm)).
  set (l1 := set_account (ac_market a) (l (ac_market a)) l).
  assert (El1 : forall k, l1 k = l k) by (intros; by apply set_account_id).
  rewrite (bind_run _ _ _ _ _ (check_accounts_run l1 a _ _)). cbn [ms_tick ms_min].
  assert (Hb1 := Hb). assert (Ha1 := Ha). rewrite <- El1 in Hb1, Ha1.
  rewrite (bind_run _ _ _ _ _ (open_book_run l1 a _ _ [ac_market a] ltac:(nh) ltac:(nh) Hb1 Ha1)).
  rewrite !El1. cbv beta iota.
  pose proof (Hf m no_queue) as E. unfold with_queue at 1 in E. rewrite E.
  pose proof (Hf m (evq (m_book m))) as E'. rewrite with_queue_id in E'.
  destruct (f m) as [r m'] eqn:Efm. cbn [fst snd] in *. injection E' as E'.
  do 2 (erewrite bind_run by apply set_data_run). eexists. split; [reflexivity|]. intros k.
  unfold set_account. eqbs; subst; rewrite ?El1; try congruence; rewrite ?N.eqb_refl; try done.
  rewrite E', with_queue_evq. apply queue_from_ok in Hq; [|apply Hok].
  destruct Hq as (_&_&_&_&_&Hq). by rewrite Hq, with_data_id.
Qed.

(** ** Consume events *)
Lemma consume_run l a n m :
  ledger_ok l -> opens l a m ->
  exists l', consume_events_l cs pid (ac_market a) (ac_queue a) n l =
    (fst (process_consume_events n m), l') /\
    written l a (m_book (snd (process_consume_events n m))) l'.
Proof.
  intros Hok [Hd Hown Hm Hb Ha Hq]. destruct (keys_distinct _ Hd) as (D1&D2&D3&D4&D5&D6).
  unfold consume_events_l.
  rewrite (bind_run _ _ _ tt l) by (apply check_owner_run, Hown, elem_keys; by left).
  rewrite (bind_run _ _ _ tt l) by (apply check_owner_run, Hown, elem_keys; by right; left).
  rewrite (bind_run _ _ _ _ _ (open_market_run _ _ _ Hm)).
  set (l1 := set_account (ac_market a) (l (ac_market a)) l).
  assert (El1 : forall k, l1 k = l k) by (intros; by apply set_account_id).
  cbn [ms_event_queue]. run1 check_key_run.
  rewrite (bind_run _ _ _ _ _ (borrow_run [ac_market a] (ac_queue a) l1 ltac:(nh))).
  rewrite El1, Hq. rewrite bind_ok. cbv beta iota.
  unfold process_consume_events, on_book, on_evq, zoom.
  destruct (pop_n n (evq (m_book m))) as [r q]. cbn.
  erewrite bind_run by apply set_data_run. eexists. split; [reflexivity|]. intros k.
  unfold set_account. eqbs; subst; rewrite ?El1; try congruence; try done.
  - apply slab_from_ok in Hb; [|apply Hok]. destruct Hb as (_&_&_&_&Hb).
    cbn. by rewrite Hb, with_data_id.
  - apply slab_from_ok in Ha; [|apply Hok]. destruct Ha as (_&_&_&_&Ha).
    cbn. by rewrite Ha, with_data_id.
Qed.

(** ** Close market *)
(** The accounts after market [a] was closed. *)
Definition close_total (l : ledger) (a : accounts) : N :=
  a_lamports (l (ac_market a)) + a_lamports (l (ac_bids a)) + a_lamports (l (ac_asks a)) +
  a_lamports (l (ac_queue a)).
Definition closed (l : ledger) (a : accounts) (t : N) (l' : ledger) : Prop :=
  forall k, l' k =
    if existsb (N.eqb k) (keys a)
    then mk_account (a_owner (l k)) 0 (write_tag tag_disabled (a_data (l k)))
    else if k =? t
    then mk_account (a_owner (l k)) (a_lamports (l k) + close_total l a) (a_data (l k))
    else l k.

Lemma close_run_any l a t m :
  NoDup (keys a) -> a_owner (l (ac_market a)) = pid ->
  market_from_buffer (a_data (l (ac_market a))) tag_market =
    Ok (mk_market_state (ac_queue a) (ac_bids a) (ac_asks a) (m_min m) (m_tick m),
        a_data (l (ac_market a))) ->
  slab_from_buffer cs (a_data (l (ac_bids a))) tag_bids = Ok (bids (m_book m)) ->
  slab_from_buffer cs (a_data (l (ac_asks a))) tag_asks = Ok (asks (m_book m)) ->
  queue_from_buffer cs (a_data (l (ac_queue a))) tag_event_queue =
    Ok (evq (m_book m), a_data (l (ac_queue a))) ->
  (if (leaf_count (hdr (asks (m_book m))) =? 0) && (leaf_count (hdr (bids (m_book m))) =? 0) &&
      (q_count (evq (m_book m)) =? 0)
   then t ∉ keys a -> a_lamports (l t) + close_total l a < p64 ->
        exists l', close_market cs pid a t l = (Ok tt, l') /\ closed l a t l'
   else fst (close_market cs pid a t l) = Err MarketStillActive).
Proof.
  intros Hd Hown Hm Hb Ha Hq. destruct (keys_distinct _ Hd) as (D1&D2&D3&D4&D5&D6).
  unfold close_market, sides_empty.
  rewrite (bind_run _ _ _ tt l) by (by apply check_owner_run).
  rewrite (bind_run _ _ _ _ _ (open_market_run _ _ _ Hm)).
  set (l1 := set_account (ac_market a) (l (ac_market a)) l).
  assert (El1 : forall k, l1 k = l k) by (intros; by apply set_account_id).
  rewrite (bind_run _ _ _ _ _ (check_accounts_run l1 a _ _)).
  rewrite (bind_run _ _ _ _ _ (borrow_run [ac_market a] (ac_bids a) l1 ltac:(nh))).
  rewrite (bind_run _ _ _ _ _ (borrow_run [ac_market a; ac_bids a] (ac_asks a) l1 ltac:(nh))).
  rewrite !El1, Hb. cbn [unwrap_err]. rewrite bind_ok.
  rewrite Ha. cbn [unwrap_err]. rewrite bind_ok. cbv beta.
  destruct (leaf_count (hdr (asks (m_book m))) =? 0); [|reflexivity].
  destruct (leaf_count (hdr (bids (m_book m))) =? 0); [|reflexivity]. cbn [andb negb].
  rewrite (bind_run _ _ _ _ _ (borrow_run [ac_market a; ac_bids a; ac_asks a] (ac_queue a) l1 ltac:(nh))).
  rewrite El1, Hq. rewrite bind_ok. cbv beta iota.
  destruct (q_count (evq (m_book m)) =? 0); [|reflexivity]. cbn [negb]. intros Ht Hs.
  unfold close_total in Hs.
  assert (T1 : t <> ac_market a) by (intros ->; apply Ht, elem_keys; by left).
  assert (T2 : t <> ac_queue a) by (intros ->; apply Ht, elem_keys; by right; left).
  assert (T3 : t <> ac_bids a) by (intros ->; apply Ht, elem_keys; by right; right; left).
  assert (T4 : t <> ac_asks a) by (intros ->; apply Ht, elem_keys; by right; right; right).
  rewrite bind_get.
  rewrite !bind_set.
  match goal with |- context [borrow_lamports [] _] => idtac end.
  match goal with |- exists l', bind _ _ ?L = _ /\ _ => set (l2 := L) end.
  assert (Elam : forall k, a_lamports (l2 k) = a_lamports (l k)).
  { intros k. unfold l2, set_account, with_data. rewrite !El1. eqbs; subst; cbn; try congruence; by rewrite ?El1. }
  assert (Eown : forall k, a_owner (l2 k) = a_owner (l k)).
  { intros k. unfold l2, set_account, with_data. rewrite !El1. eqbs; subst; cbn; try congruence; by rewrite ?El1. }
  assert (Edata : forall k, a_data (l2 k) = if existsb (N.eqb k) (keys a)
    then write_tag tag_disabled (a_data (l k)) else a_data (l k)).
  { intros k. unfold l2, set_account, with_data, keys. cbn [existsb]. rewrite !El1.
    eqbs; subst; cbn; try congruence; by rewrite ?El1. }
  clearbody l2. clear l1 El1.
  rewrite (bind_run _ _ _ _ _ (borrow_lamports_run [] (ac_market a) l2 ltac:(nh))).
  rewrite (bind_run _ _ _ _ _ (borrow_lamports_run [ac_market a] (ac_bids a) l2 ltac:(nh))).
  rewrite (bind_run _ _ _ _ _ (borrow_lamports_run [ac_market a; ac_bids a] (ac_asks a) l2 ltac:(nh))).
  rewrite (bind_run _ _ _ _ _ (borrow_lamports_run [ac_market a; ac_bids a; ac_asks a] (ac_queue a) l2 ltac:(nh))).
  rewrite (bind_run _ _ _ _ _ (borrow_lamports_run [ac_market a; ac_bids a; ac_asks a; ac_queue a] t l2 ltac:(nh))).
  rewrite !Elam.
  do 4 (rewrite add_w_ok by lia; rewrite bind_ok).
  eexists. split; [reflexivity|]. intros k.
  unfold keys in *. cbn [existsb] in *. unfold set_account. specialize (Edata k). specialize (Eown k). specialize (Elam k).
  unfold close_total. destruct (l2 k) as [o' lam' d'] eqn:E2. cbn in Eown, Elam, Edata. subst.
  eqbs; subst; cbn in *; try congruence; rewrite ?E2; cbn; try congruence;
    rewrite ?N.eqb_refl, ?orb_true_r in *; cbn in *; try congruence.
  by destruct (l k).
Qed.
Lemma close_run l a t m :
  ledger_ok l -> opens l a m ->
  (if (leaf_count (hdr (asks (m_book m))) =? 0) && (leaf_count (hdr (bids (m_book m))) =? 0) &&
      (q_count (evq (m_book m)) =? 0)
   then t ∉ keys a -> a_lamports (l t) + close_total l a < p64 ->
        exists l', close_market cs pid a t l = (Ok tt, l') /\ closed l a t l'
   else fst (close_market cs pid a t l) = Err MarketStillActive).
Proof.
  intros Hok [Hd Hown Hm Hb Ha Hq]. apply close_run_any; try done. apply Hown, elem_keys. by left.
Qed.

(** ** What success tells *)
Definition ms_accounts (k : N) (ms : market_state) : accounts :=
  mk_accounts k (ms_event_queue ms) (ms_bids ms) (ms_asks ms).

Lemma market_at_same l k k' : set_account k (l k) l k' = l k'.
Proof. by apply set_account_id. Qed.

Lemma nh_cons {A} (x y : A) l : x ∉ y :: l -> x <> y /\ x ∉ l.
Proof. apply not_elem_of_cons. Qed.

Lemma new_order_l_inv same_id l a p sm l' : ledger_ok l ->
  new_order_l cs same_id pid a p l = (Ok sm, l') -> exists m, opens l a m.
Proof.
  intros Hok H. unfold new_order_l in H. apply perform_checks_inv in H as [Hown H].
  apply bind_inv in H as (ms & l1 & E & H). apply open_market_inv in E as [Hm ->]; [|apply Hok].
  apply check_accounts_inv in H as (K1 & K2 & K3 & H).
  destruct (ms_tick ms =? 0); [done|]. destruct (negb _); [done|]. destruct (_ && _); [done|].
  apply open_book_inv in H as (B1 & B2 & bs & asl & Hb & Ha & H). cbv beta iota in H.
  apply b_borrow in H as [B3 H]. apply b_lift in H as ([q qd] & Hq & _).
  rewrite !market_at_same in *. pose proof (queue_from_ok cs _ _ _ _ ltac:(apply Hok) Hq) as (Tq&_&Eq&_).
  rewrite read_tag_write in Eq by (try done; apply Hok). subst qd.
  exists (mk_market (ms_min ms) (ms_tick ms) (mk_book bs asl q)).
  apply nh_cons in B1 as [B1 _]. apply nh_cons in B2 as [B2 B2']. apply nh_cons in B2' as [B2' _].
  apply nh_cons in B3 as [B3 B3']. apply nh_cons in B3' as [B3' B3'']. apply nh_cons in B3'' as [B3'' _].
  split; try done.
  - by apply distinct_keys; apply not_eq_sym.
  - rewrite Hm, K1, K2, K3. by destruct ms.
Qed.

Lemma with_book_inv l a f sm l' : ledger_ok l ->
  with_book cs pid a f l = (Ok sm, l') ->
  records l a /\ exists bs asl,
    slab_from_buffer cs (a_data (l (ac_bids a))) tag_bids = Ok bs /\
    slab_from_buffer cs (a_data (l (ac_asks a))) tag_asks = Ok asl.
Proof.
  intros Hok H. unfold with_book in H. apply perform_checks_inv in H as [Hown H].
  apply bind_inv in H as (ms & l1 & E & H). apply open_market_inv in E as [Hm ->]; [|apply Hok].
  apply check_accounts_inv in H as (K1 & K2 & K3 & H).
  apply open_book_inv in H as (B1 & B2 & bs & asl & Hb & Ha & H).
  rewrite !market_at_same in *. split; [|by exists bs, asl].
  split; [apply Hown, elem_keys; by left|]. by eexists _, _.
Qed.

Lemma consume_inv l km kq n l' : ledger_ok l ->
  consume_events_l cs pid km kq n l = (Ok tt, l') ->
  exists ms q q', records l (ms_accounts km ms) /\ kq = ms_event_queue ms /\ km <> kq /\
    a_owner (l kq) = pid /\
    queue_from_buffer cs (a_data (l kq)) tag_event_queue = Ok (q, a_data (l kq)) /\
    pop_n n q = (Ok tt, q') /\
    forall k, l' k = if k =? kq then with_data (l k) (queue_to_buffer q' (a_data (l k))) else l k.
Proof.
  intros Hok H. unfold consume_events_l in H. apply b_owner in H as [O1 H]. apply b_owner in H as [O2 H].
  apply bind_inv in H as (ms & l1 & E & H). apply open_market_inv in E as [Hm ->]; [|apply Hok].
  apply b_key in H as [K H]. apply b_borrow in H as [B H]. apply b_lift in H as ([q qd] & Hq & H).
  rewrite !market_at_same in *. pose proof (queue_from_ok cs _ _ _ _ ltac:(apply Hok) Hq) as (Tq&_&Eq&_).
  rewrite read_tag_write in Eq by (try done; apply Hok). subst qd.
  destruct (pop_n n q) as [r q'] eqn:Ep. rewrite bind_set in H. apply lift_inv in H as [-> ->].
  exists ms, q, q'. apply nh_cons in B as [B _]. split_and!; try done.
  - split; [done|]. by eexists _, _.
  - intros k. unfold set_account at 1. destruct (N.eqb_spec k kq) as [->|]; rewrite !market_at_same; done.
Qed.

Lemma close_inv l a t l' : ledger_ok l ->
  close_market cs pid a t l = (Ok tt, l') ->
  records l a /\ NoDup (keys a) /\ t ∉ keys a /\ a_lamports (l t) + close_total l a < p64 /\
  exists bs asl q,
    slab_from_buffer cs (a_data (l (ac_bids a))) tag_bids = Ok bs /\
    slab_from_buffer cs (a_data (l (ac_asks a))) tag_asks = Ok asl /\
    queue_from_buffer cs (a_data (l (ac_queue a))) tag_event_queue = Ok (q, a_data (l (ac_queue a))) /\
    leaf_count (hdr bs) = 0 /\ leaf_count (hdr asl) = 0 /\ q_count q = 0.
Proof.
  intros Hok H. unfold close_market, sides_empty in H. apply b_owner in H as [O1 H].
  apply bind_inv in H as (ms & l1 & E & H). apply open_market_inv in E as [Hm ->]; [|apply Hok].
  apply check_accounts_inv in H as (K1 & K2 & K3 & H).
  apply b_borrow in H as [B1 H]. apply b_borrow in H as [B2 H].
  rewrite !market_at_same in *.
  apply b_lift in H as (bs & Hb & H). apply b_lift in H as (asl & Ha & H).
  destruct (negb _) eqn:Ec; [done|]. apply b_borrow in H as [B3 H].
  rewrite !market_at_same in *. apply b_lift in H as ([q qd] & Hq & H).
  pose proof (queue_from_ok cs _ _ _ _ ltac:(apply Hok) Hq) as (Tq&_&Eq&_).
  rewrite read_tag_write in Eq by (try done; apply Hok). subst qd.
  destruct (negb (q_count q =? 0)) eqn:Ecq; [done|]. rewrite bind_get in H. rewrite !bind_set in H.
  match type of H with bind _ _ ?L = _ => set (l2 := L) in H end.
  apply nh_cons in B1 as [B1 _]. apply nh_cons in B2 as [B2 B2']. apply nh_cons in B2' as [B2' _].
  apply nh_cons in B3 as [B3 B3']. apply nh_cons in B3' as [B3' B3'']. apply nh_cons in B3'' as [B3'' _].
  assert (Elam : forall k, a_lamports (l2 k) = a_lamports (l k)).
  { intros k. unfold l2, set_account, with_data. eqbs; subst; cbn; try congruence. }
  clearbody l2.
  apply b_lamports in H as [_ H]. apply b_lamports in H as [_ H]. apply b_lamports in H as [_ H].
  apply b_lamports in H as [_ H]. apply b_lamports in H as [B4 H]. rewrite !Elam in H.
  apply b_lift in H as (s1 & S1 & H). apply b_lift in H as (s2 & S2 & H).
  apply b_lift in H as (s3 & S3 & H). apply b_lift in H as (s4 & S4 & H).
  apply add_w_inv in S1 as [-> _], S2 as [-> _], S3 as [-> _], S4 as [-> Hs].
  split; [split; [done|by eexists _, _]|]. split; [by apply distinct_keys; apply not_eq_sym|].
  split.
  { intros Ht. apply B4. unfold keys in Ht. set_unfold in Ht. set_unfold. naive_solver. }
  split; [unfold close_total; lia|].
  exists bs, asl, q. split.
  { unfold unwrap_err in Hb. by destruct (slab_from_buffer _ _ tag_bids). }
  split. { unfold unwrap_err in Ha. by destruct (slab_from_buffer _ _ tag_asks). }
  split; [done|]. lia.
Qed.

(** ** Create market *)
(** The accounts after market [a] was created. *)
Definition created (l : ledger) (a : accounts) (p : create_params) (l' : ledger) : Prop :=
  forall k, l' k =
    if k =? ac_market a then with_data (l k)
      (le_enc 8 tag_market ++ bytes_of_market_state
         (mk_market_state (ac_queue a) (ac_bids a) (ac_asks a) (cp_min p) (cp_tick p)))
    else if k =? ac_queue a then with_data (l k) (write_tag tag_event_queue (a_data (l k)))
    else if k =? ac_bids a then with_data (l k) (tag_bids :: tail (a_data (l k)))
    else if k =? ac_asks a then with_data (l k) (tag_asks :: tail (a_data (l k)))
    else l k.
(** When create_market succeeds. *)
Record creatable (rent_exempt : N -> nat -> bool) (l : ledger) (a : accounts) (p : create_params) : Prop := {
  cr_distinct : NoDup (keys a);
  cr_queue : a_owner (l (ac_queue a)) = pid;
  cr_bids : a_owner (l (ac_bids a)) = pid;
  cr_asks : a_owner (l (ac_asks a)) = pid;
  cr_rent : forall k, k ∈ keys a ->
    rent_exempt (a_lamports (l k)) (length (a_data (l k))) = true;
  cr_min : cp_min p <> 0;
  cr_tick : cp_tick p <> 0;
  cr_market_length : length (a_data (l (ac_market a))) = 120%nat;
  cr_market_tag : read_tag (a_data (l (ac_market a))) = Ok 0;
  cr_queue_size : queue_check_size cs (a_data (l (ac_queue a))) = Ok tt;
  cr_queue_tag : read_tag (a_data (l (ac_queue a))) = Ok 0;
  cr_queue_opens : is_ok (queue_from_buffer cs (a_data (l (ac_queue a))) 0) = true;
  cr_bids_tag : idx (a_data (l (ac_bids a))) 0 = Ok 0;
  cr_asks_tag : idx (a_data (l (ac_asks a))) 0 = Ok 0;
}.

Lemma setN_0 (d : bytes) x y : idx d 0 = Ok x -> setN d 0 y = y :: tail d.
Proof. destruct d; [done|]. done. Qed.
Lemma write_tag_take t buf : take 8 (write_tag t buf) = le_enc 8 t.
Proof. unfold write_tag. apply take_app_alt. by rewrite le_enc_length. Qed.

Lemma create_run rent_exempt l a p : creatable rent_exempt l a p ->
  exists l', create_market cs rent_exempt pid a p l = (Ok tt, l') /\ created l a p l'.
Proof.
  intros [Hd O1 O2 O3 Hr Hmin Htk Ml Mt Qs Qt Qo Bt At].
  destruct (keys_distinct _ Hd) as (D1&D2&D3&D4&D5&D6). unfold create_market.
  run1 check_owner_run. run1 check_owner_run. run1 check_owner_run.
  rewrite (bind_run _ _ _ tt l) by (apply check_rent_run, Hr, elem_keys; by right; right; right).
  rewrite (bind_run _ _ _ tt l) by (apply check_rent_run, Hr, elem_keys; by right; right; left).
  rewrite (bind_run _ _ _ tt l) by (apply check_rent_run, Hr, elem_keys; by right; left).
  rewrite (bind_run _ _ _ tt l) by (apply check_rent_run, Hr, elem_keys; by left).
  destruct (N.eqb_spec (cp_min p) 0); [done|]. destruct (N.eqb_spec (cp_tick p) 0); [done|]. cbn [orb].
  run1 borrow_run. rewrite Qs. cbn [is_ok].
  rewrite (bind_run _ _ _ tt l) by done. run1 borrow_run.
  unfold market_check_size. rewrite Ml. change (120 =? 8 + market_state_len)%nat with true. cbn [negb]. rewrite bind_ok.
  rewrite (market_from_eq _ tag_uninitialized) by done. rewrite bind_ok. cbn [snd]. rewrite bind_set.
  rewrite write_tag_take.
  match goal with |- context [bind _ _ ?L] => match type of L with ledger => set (l1 := L) end end.
  assert (L1 : forall k, k <> ac_market a -> l1 k = l k) by (intros; by apply set_account_ne).
  rewrite (bind_run _ _ _ _ _ (borrow_run [ac_market a] (ac_queue a) l1 ltac:(nh))).
  rewrite L1 by done.
  destruct (queue_from_buffer cs (a_data (l (ac_queue a))) 0) as [[q qd]| | |] eqn:Eq; try done.
  change tag_uninitialized with 0. rewrite Eq, bind_ok. cbn [snd].
  assert (Eqd : qd = write_tag tag_event_queue (a_data (l (ac_queue a)))).
  { unfold queue_from_buffer in Eq. destruct (_ <? _)%nat; [done|]. rewrite Qt in Eq. unfold rbind at 1 in Eq.
    cbn [N.eqb negb] in Eq. destruct (cast_slice _ _); [|done..]. apply Ok_inj, pair_inj in Eq. by destruct Eq. }
  rewrite bind_set.
  match goal with |- context [bind _ _ ?L] => match type of L with ledger => set (l2 := L) end end.
  assert (L2 : forall k, k <> ac_market a -> k <> ac_queue a -> l2 k = l k).
  { intros. unfold l2. rewrite set_account_ne by done. by apply L1. }
  rewrite (bind_run _ _ _ _ _ (borrow_run [ac_market a; ac_queue a] (ac_asks a) l2 ltac:(nh))).
  rewrite (bind_run _ _ _ _ _ (borrow_run [ac_market a; ac_queue a; ac_asks a] (ac_bids a) l2 ltac:(nh))).
  rewrite !L2 by done. unfold slab_initialize. rewrite (rbind_ok _ _ _ At). cbv beta.
  change (0 =? tag_uninitialized) with true. cbn [negb]. rewrite (rbind_ok _ _ _ Bt). cbv beta.
  change (0 =? tag_uninitialized) with true. cbn [negb].
  rewrite (setN_0 _ _ _ At), (setN_0 _ _ _ Bt). rewrite bind_ok. cbn [fst snd]. rewrite bind_set.
  eexists. split; [reflexivity|]. intros k. unfold set_account, l2, l1, set_account, with_data.
  rewrite Eqd. eqbs; subst; try congruence; cbn; try done.
Qed.
Lemma queue_from_tag buf t r : queue_from_buffer cs buf t = Ok r -> read_tag buf = Ok t.
Proof.
  intros Hq. unfold queue_from_buffer in Hq. destruct (_ <? _)%nat; [done|].
  destruct (read_tag buf) as [u| | |]; [|done..]. unfold rbind at 1 in Hq.
  destruct (u =? t) eqn:E; [|done]. apply N.eqb_eq in E. by subst.
Qed.
Lemma create_inv rent_exempt l a p l' :
  create_market cs rent_exempt pid a p l = (Ok tt, l') -> creatable rent_exempt l a p.
Proof.
  intros H. unfold create_market in H.
  apply b_owner in H as [O1 H]. apply b_owner in H as [O2 H]. apply b_owner in H as [O3 H].
  apply b_rent in H as [R1 H]. apply b_rent in H as [R2 H]. apply b_rent in H as [R3 H].
  apply b_rent in H as [R4 H]. destruct (N.eqb_spec (cp_min p) 0) as [|Hmin]; [done|].
  destruct (N.eqb_spec (cp_tick p) 0) as [|Htk]; [done|]. cbn [orb] in H.
  apply b_borrow in H as [_ H]. apply bind_inv in H as (u & l0 & E & H).
  destruct (is_ok (queue_check_size cs (a_data (l (ac_queue a))))) eqn:Qs; [|done].
  injection E as _ <-. apply b_borrow in H as [_ H]. apply b_lift in H as (u' & Ml & H).
  apply b_lift in H as ([ms md] & Mt & H). cbn [snd] in H. rewrite bind_set in H.
  match type of H with bind _ _ ?L = _ => set (l1 := L) in H end.
  apply b_borrow in H as [B1 H]. apply nh_cons in B1 as [B1 _].
  assert (L1 : forall k, k <> ac_market a -> l1 k = l k) by (intros; by apply set_account_ne).
  rewrite L1 in H by done. apply b_lift in H as ([q qd] & Hq & H). cbn [snd] in H. rewrite bind_set in H.
  match type of H with bind _ _ ?L = _ => set (l2 := L) in H end.
  apply b_borrow in H as [B2 H]. apply nh_cons in B2 as [B2 B2']. apply nh_cons in B2' as [B2' _].
  apply b_borrow in H as [B3 H]. apply nh_cons in B3 as [B3 B3']. apply nh_cons in B3' as [B3' B3''].
  apply nh_cons in B3'' as [B3'' _].
  assert (L2 : forall k, k <> ac_market a -> k <> ac_queue a -> l2 k = l k).
  { intros. unfold l2. rewrite set_account_ne by done. by apply L1. }
  rewrite !L2 in H by done. apply b_lift in H as (ini & Hi & _).
  apply market_from_ok in Mt as (Ml' & Mt & _).
  unfold slab_initialize in Hi.
  destruct (idx (a_data (l (ac_asks a))) 0) as [x| | |] eqn:Ea; [|done..].
  rewrite (rbind_ok _ _ x eq_refl) in Hi. cbv beta in Hi.
  destruct (N.eqb_spec x tag_uninitialized) as [->|]; [|done]. cbn [negb] in Hi.
  destruct (idx (a_data (l (ac_bids a))) 0) as [y| | |] eqn:Eb; [|done..].
  rewrite (rbind_ok _ _ y eq_refl) in Hi. cbv beta in Hi.
  destruct (N.eqb_spec y tag_uninitialized) as [->|]; [|done].
  split; try done.
  - by apply distinct_keys; apply not_eq_sym.
  - intros k Hk. apply elem_keys in Hk. naive_solver.
  - revert Qs. by destruct (queue_check_size cs (a_data (l (ac_queue a)))) as [[]| | |].
  - by apply queue_from_tag in Hq.
  - change 0 with tag_uninitialized. by rewrite Hq.
Qed.
End LedgerProofs.
