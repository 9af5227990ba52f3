(** * TypedProps.v: the processors keep every number within its Rust type and every array
    at its length, so that their results can be written back to the accounts *)
From Verif Require Import Machine Bytes Critbit EventQueue OrderBook Market MachineProofs
  QueueProofs Layout LayoutProofs Borsh BorshProofs.
From Coq Require Import ZifyBool ZifyNat ZifyN.

(** [m] keeps [P] of the state, on success and on failure, and its results satisfy [Q]. *)
Definition pres {S A} (P : S -> Prop) (Q : A -> Prop) (m : M S A) : Prop :=
  forall s, P s -> P (snd (m s)) /\ forall a, fst (m s) = Ok a -> Q a.
Notation any := (fun _ => True).

Lemma pres_ret {S A} (P : S -> Prop) (Q : A -> Prop) a : Q a -> pres P Q (ret a).
Proof. intros HQ s Hs. split; [done|]. by intros a' [= <-]. Qed.
Lemma pres_fail {S A} (P : S -> Prop) (Q : A -> Prop) e : pres P Q (fail e).
Proof. intros s Hs. done. Qed.
Lemma pres_panic {S A} (P : S -> Prop) (Q : A -> Prop) e : pres P Q (panic_with e).
Proof. intros s Hs. done. Qed.
Lemma pres_get {S} (P : S -> Prop) : pres P P get.
Proof. intros s Hs. split; [done|]. by intros a [= <-]. Qed.
Lemma pres_put {S} (P : S -> Prop) s' : P s' -> pres P any (put s').
Proof. intros H s Hs. done. Qed.
Lemma pres_modify {S} (P : S -> Prop) f : (forall s, P s -> P (f s)) -> pres P any (modify f).
Proof. intros H s Hs. split; [by apply H|done]. Qed.
Lemma pres_lift {S A} (P : S -> Prop) (Q : A -> Prop) r :
  (forall a, r = Ok a -> Q a) -> pres P Q (lift r).
Proof. intros H s Hs. split; [done|]. intros a Ha. by apply H. Qed.
Lemma pres_bind {S A B} (P : S -> Prop) (R : A -> Prop) (Q : B -> Prop) m (f : A -> M S B) :
  pres P R m -> (forall a, R a -> pres P Q (f a)) -> pres P Q (bind m f).
Proof.
  intros Hm Hf s Hs. unfold bind. specialize (Hm s Hs). destruct (m s) as [[a| | |] s'];
    cbn in Hm |- *; destruct Hm as [Hs' Ha]; try done. apply Hf; [by apply Ha|done].
Qed.
Lemma pres_zoom {S T A} (P : S -> Prop) (P' : T -> Prop) (Q : A -> Prop) proj inj (m : M T A) :
  (forall s, P s -> P' (proj s)) -> (forall s t, P s -> P' t -> P (inj t s)) ->
  pres P' Q m -> pres P Q (zoom proj inj m).
Proof.
  intros H1 H2 Hm s Hs. unfold zoom. specialize (Hm (proj s) (H1 _ Hs)).
  destruct (m (proj s)) as [r t]. cbn in *. destruct Hm. split; [by apply H2|done].
Qed.
Lemma pres_weaken {S A} (P : S -> Prop) (Q Q' : A -> Prop) m :
  pres P Q m -> (forall a, Q a -> Q' a) -> pres P Q' m.
Proof. intros Hm H s Hs. destruct (Hm s Hs) as [? HQ]. split; [done|]. intros. by apply H, HQ. Qed.

Lemma add_w_inv w a b c : add_w w a b = Ok c -> c = a + b /\ c < w.
Proof. unfold add_w. destruct (N.ltb_spec (a + b) w); [|done]. intros [= <-]. done. Qed.
Lemma sub_w_inv a b c : sub_w a b = Ok c -> c = a - b /\ b <= a.
Proof. unfold sub_w. destruct (N.leb_spec b a); [|done]. intros [= <-]. done. Qed.
Lemma upd_inv {A} (l : list A) i a l' : upd l i a = Ok l' -> l' = setN l i a.
Proof. unfold upd. destruct (_ <? _); [|done]. by intros [= <-]. Qed.
Lemma idx_Forall {A} (P : A -> Prop) l i a : Forall P l -> idx l i = Ok a -> P a.
Proof.
  intros H Hi. apply idx_Ok in Hi. rewrite getN_lookup in Hi. by apply (Forall_lookup_1 _ _ _ _ H Hi).
Qed.
Lemma setN_Forall {A} (P : A -> Prop) l i a : Forall P l -> P a -> Forall P (setN l i a).
Proof. intros H Ha. rewrite setN_insert. by apply Forall_insert. Qed.
Lemma as_u32_lt x : as_u32 x < p32.
Proof. unfold as_u32. apply N.mod_lt. lia. Qed.

Section Typed.
Context (cs : nat).

(** A typed slab whose arrays have the given lengths. *)
Record slab_shape (nl ni nc : nat) (s : slab bytes) : Prop := {
  ss_typed : slab_typed cs s;
  ss_leaves : length (leaf_nodes s) = nl;
  ss_inners : length (inner_nodes s) = ni;
  ss_cbs : length (callback_infos s) = nc;
}.
Record queue_shape (ne nc : nat) (q : queue bytes) : Prop := {
  qs_typed : queue_typed cs q;
  qs_events : length (q_events q) = ne;
  qs_cbs : length (q_cbs q) = nc;
}.

Section OneSlab.
Context (nl ni nc : nat).
Notation SS := (slab_shape nl ni nc).

Lemma ss_set_hdr s h : SS s -> header_typed h -> SS (set_hdr s h).
Proof. intros [[] ? ? ?] Hh. split; cbn; done. Qed.
Lemma ss_set_leaf s i l : SS s -> leaf_typed l -> SS (set_leaf_nodes s (setN (leaf_nodes s) i l)).
Proof.
  intros [[] ? ? ?] Hl. split; cbn; try done; [|by rewrite length_setN].
  split; cbn; try done. by apply setN_Forall.
Qed.
Lemma ss_set_inner s i n : SS s -> inner_typed n -> SS (set_inner_nodes s (setN (inner_nodes s) i n)).
Proof.
  intros [[] ? ? ?] Hl. split; cbn; try done; [|by rewrite length_setN].
  split; cbn; try done. by apply setN_Forall.
Qed.
Lemma ss_set_cb s i c : SS s -> sized cs c /\ bytes_ok c ->
  SS (set_callback_infos s (setN (callback_infos s) i c)).
Proof.
  intros [[] ? ? ?] Hl. split; cbn; try done; [|by rewrite length_setN].
  split; cbn; try done. by apply setN_Forall.
Qed.
Lemma ss_hdr s : SS s -> header_typed (hdr s).
Proof. by intros [[] ? ? ?]. Qed.
Lemma ss_leaf s i l : SS s -> idx (leaf_nodes s) i = Ok l -> leaf_typed l.
Proof. intros [[] ? ? ?]. by apply idx_Forall. Qed.
Lemma ss_inner s i l : SS s -> idx (inner_nodes s) i = Ok l -> inner_typed l.
Proof. intros [[] ? ? ?]. by apply idx_Forall. Qed.
Lemma ss_cb s i l : SS s -> idx (callback_infos s) i = Ok l -> sized cs l /\ bytes_ok l.
Proof. intros [[] ? ? ?]. by apply (idx_Forall (fun c => sized cs c /\ bytes_ok c)). Qed.

Lemma write_leaf_pres i l : leaf_typed l -> pres SS any (write_leaf i l).
Proof.
  intros Hl. eapply pres_bind; [apply pres_get|]. intros s Hs.
  eapply pres_bind; [apply pres_lift; intros ls H; exact H|]. intros ls H. cbv beta in H.
  apply upd_inv in H as ->. apply pres_put. by apply ss_set_leaf.
Qed.
Lemma write_inner_pres i l : inner_typed l -> pres SS any (write_inner i l).
Proof.
  intros Hl. eapply pres_bind; [apply pres_get|]. intros s Hs.
  eapply pres_bind; [apply pres_lift; intros ls H; exact H|]. intros ls H. cbv beta in H.
  apply upd_inv in H as ->. apply pres_put. by apply ss_set_inner.
Qed.
Lemma put_hdr_pres h : header_typed h -> pres SS any (put_hdr h).
Proof. intros H. apply pres_modify. intros s Hs. by apply ss_set_hdr. Qed.

Lemma child_lt n b : inner_typed n -> child n b < p32.
Proof. intros (?&?&?&?). by destruct b. Qed.
Lemma set_child_typed n b h : inner_typed n -> h < p32 -> inner_typed (set_child n b h).
Proof. intros (?&?&?&?) Hh. by destruct b. Qed.

(** One step of a [pres] proof: bind, remembering what is known of the result. *)
Ltac pb := eapply pres_bind; [first [apply pres_get | apply pres_lift; intros ? HH0; exact HH0]|];
  let x := fresh "x" in let H := fresh "H" in intros x H; cbv beta in H.

Lemma allocate_leaf_pres : pres SS (fun h => h < p32) allocate_leaf.
Proof.
  unfold allocate_leaf. pb. pose proof (ss_hdr _ H) as Hh. unfold header_typed in Hh.
  destruct (_ =? 0).
  - destruct (_ <=? _); [apply pres_fail|]. pb. apply add_w_inv in H0 as [-> ?].
    eapply pres_bind; [apply put_hdr_pres|intros; apply pres_ret; lia].
    unfold header_typed. cbn. lia.
  - pb. pb. apply sub_w_inv in H1 as [-> ?].
    eapply pres_bind; [apply put_hdr_pres|intros; apply pres_ret; lia].
    unfold header_typed. cbn. pose proof (as_u32_lt (lf_qty x0)). lia.
Qed.
Lemma allocate_inner_pres : pres SS (fun h => h < p32) allocate_inner_node.
Proof.
  unfold allocate_inner_node. pb. pose proof (ss_hdr _ H) as Hh. unfold header_typed in Hh.
  destruct (_ =? 0).
  - destruct (_ <=? _); [apply pres_panic|]. pb. apply add_w_inv in H0 as [-> ?].
    eapply pres_bind; [apply put_hdr_pres|intros; apply pres_ret, not32_lt].
    unfold header_typed. cbn. lia.
  - pb. pb. apply sub_w_inv in H1 as [-> ?].
    eapply pres_bind; [apply put_hdr_pres|intros; apply pres_ret, not32_lt].
    unfold header_typed. cbn. pose proof (as_u32_lt (in_plen x0)). lia.
Qed.
Lemma free_leaf_pres h : h < p32 -> pres SS any (free_leaf h).
Proof.
  intros Hlt. unfold free_leaf. pb. pose proof (ss_hdr _ H) as Hh. unfold header_typed in Hh.
  eapply (pres_bind _ any).
  - destruct (_ =? 0); [by apply pres_ret|]. pb. apply (ss_leaf _ _ _ H) in H0.
    apply write_leaf_pres. unfold leaf_typed in *. cbn. lia.
  - intros _ _. pb. apply add_w_inv in H0 as [-> ?]. apply put_hdr_pres.
    unfold header_typed. cbn. lia.
Qed.
Lemma free_inner_pres h : pres SS any (free_inner_node h).
Proof.
  unfold free_inner_node. pb. pose proof (ss_hdr _ H) as Hh. unfold header_typed in Hh.
  eapply (pres_bind _ any).
  - destruct (_ =? 0); [by apply pres_ret|]. pb. apply (ss_inner _ _ _ H) in H0.
    apply write_inner_pres. unfold inner_typed in *. cbn. lia.
  - intros _ _. pb. apply add_w_inv in H0 as [-> ?]. apply put_hdr_pres.
    pose proof (not32_lt h). unfold header_typed. cbn. lia.
Qed.

Lemma insert_walk_lt fuel : forall s h parent key pos, SS s -> h < p32 ->
  insert_walk fuel s h parent key = Ok pos ->
  match pos with Clobber h' _ => h' < p32 | Split h' plen _ => h' < p32 /\ plen < p64 end.
Proof.
  induction fuel as [|fuel IH]; intros s h parent key pos Hs Hh E; [done|]. cbn [insert_walk] in E.
  destruct (is_inner h).
  - destruct (idx _ _) as [n| | |] eqn:En; [|done..]. rewrite (rbind_ok _ _ n eq_refl) in E. cbv beta in E.
    pose proof (lz_le (N.lxor (in_key n) key)).
    destruct (_ <=? _); [|injection E as <-; lia]. 
    destruct (walk_down n key) as [w| | |] eqn:Ew; [|done..]. apply walk_down_inv in Ew as ->. cbn [rbind fst snd] in E.
    apply IH in E; [done|done|]. apply child_lt. by apply (ss_inner _ _ _ Hs En).
  - destruct (idx _ _) as [l| | |] eqn:El; [|done..]. rewrite (rbind_ok _ _ l eq_refl) in E. cbv beta in E.
    pose proof (lz_le (N.lxor (lf_key l) key)).
    destruct (_ =? _); injection E as <-; lia.
Qed.
Lemma insert_leaf_pres lf : leaf_typed lf -> pres SS (fun r => fst r < p32) (insert_leaf lf).
Proof.
  intros Hlf. unfold insert_leaf. pb. pose proof (ss_hdr _ H) as Hh. unfold header_typed in Hh.
  destruct (_ =? 0).
  - eapply pres_bind; [apply allocate_leaf_pres|]. intros h Hlt. cbv beta in Hlt.
    eapply pres_bind; [by apply write_leaf_pres|]. intros _ _. pb. pb.
    pose proof (ss_hdr _ H0) as Hh0. unfold header_typed in Hh0.
    apply add_w_inv in H1 as [-> ?]. eapply pres_bind; [apply put_hdr_pres|intros; by apply pres_ret].
    unfold header_typed. cbn. lia.
  - pb. apply insert_walk_lt in H0; [|done|lia]. destruct x0 as [h old|r plen parent].
    + eapply pres_bind; [by apply write_leaf_pres|]. intros _ _. by apply pres_ret.
    + destruct H0 as [Hr Hp]. eapply (pres_bind _ any); [by apply pres_lift|]. intros _ _.
      eapply pres_bind; [apply allocate_leaf_pres|]. intros lh Hlh. cbv beta in Hlh.
      eapply pres_bind; [by apply write_leaf_pres|]. intros _ _.
      eapply pres_bind; [apply allocate_inner_pres|]. intros ih Hih. cbv beta in Hih.
      eapply pres_bind; [apply write_inner_pres|].
      { destruct Hlf. unfold inner_typed. cbn. destruct (crit _ _); lia. }
      intros _ _. eapply (pres_bind _ any).
      { destruct parent as [[ph b]|].
        - pb. pb. apply (ss_inner _ _ _ H0) in H1. apply write_inner_pres. by apply set_child_typed.
        - pb. pose proof (ss_hdr _ H0) as Hh0. unfold header_typed in Hh0.
          apply put_hdr_pres. unfold header_typed. cbn. lia. }
      intros _ _. pb. pb. pose proof (ss_hdr _ H0) as Hh0. unfold header_typed in Hh0.
      apply add_w_inv in H1 as [-> ?]. eapply pres_bind; [apply put_hdr_pres|intros; by apply pres_ret].
      unfold header_typed. cbn. lia.
Qed.

Lemma remove_walk_lt fuel : forall s gp parent ch bit key pos, SS s -> ch < p32 ->
  remove_walk fuel s gp parent ch bit key = Ok (Some pos) -> rp_child pos < p32.
Proof.
  induction fuel as [|fuel IH]; intros s gp parent ch bit key pos Hs Hh E; [done|]. cbn [remove_walk] in E.
  destruct (is_inner ch).
  - destruct (idx _ _) as [n| | |] eqn:En; [|done..]. rewrite (rbind_ok _ _ n eq_refl) in E. cbv beta in E.
    destruct (walk_down n key) as [w| | |] eqn:Ew; [|done..]. apply walk_down_inv in Ew as ->. cbn [rbind fst snd] in E.
    apply IH in E; [done|done|]. apply child_lt. by apply (ss_inner _ _ _ Hs En).
  - destruct (idx _ _) as [l| | |] eqn:El; [|done..]. rewrite (rbind_ok _ _ l eq_refl) in E. cbv beta in E.
    destruct (_ =? _); [|done]. by injection E as <-.
Qed.
Definition removed_typed (r : option (leaf * bytes)) : Prop :=
  match r with Some (l, c) => leaf_typed l /\ sized cs c /\ bytes_ok c | None => True end.
Lemma remove_by_key_pres key : pres SS removed_typed (remove_by_key key).
Proof.
  unfold remove_by_key. pb. pose proof (ss_hdr _ H) as Hh. unfold header_typed in Hh.
  destruct (_ =? 0); [by apply pres_ret|].
  eapply (pres_bind _ (fun r => match r with (Some l, _, _) => leaf_typed l | (None, ch, _) => ch < p32 end)).
  { apply pres_lift. intros a Ha. destruct (is_inner _).
    - destruct (idx _ _) as [n| | |] eqn:En; [|done..]. rewrite (rbind_ok _ _ n eq_refl) in Ha.
      destruct (walk_down n key) as [w| | |] eqn:Ew; [|done..]. apply walk_down_inv in Ew as ->.
      injection Ha as <-. apply child_lt. by apply (ss_inner _ _ _ H En).
    - destruct (idx _ _) as [l| | |] eqn:El; [|done..]. rewrite (rbind_ok _ _ l eq_refl) in Ha.
      injection Ha as <-. destruct (_ =? _); [by apply (ss_leaf _ _ _ H El)|done]. }
  intros [[rr ch] bit] Hrr. destruct rr as [l|].
  - eapply pres_bind; [apply free_leaf_pres; lia|]. intros _ _. pb.
    pose proof (ss_hdr _ H0) as Hh0. unfold header_typed in Hh0.
    eapply pres_bind; [apply put_hdr_pres; unfold header_typed; cbn; lia|]. intros _ _.
    pb. pb. apply (ss_cb _ _ _ H1) in H2. by apply pres_ret.
  - pb. destruct x0 as [rp|]; [|by apply pres_ret]. apply remove_walk_lt in H0; [|done|done].
    pb. apply (ss_inner _ _ _ H) in H1. eapply (pres_bind _ any).
    { destruct (rp_gp rp) as [[g b]|].
      - pb. apply (ss_inner _ _ _ H) in H2. apply write_inner_pres.
        apply set_child_typed; [done|by apply child_lt].
      - pose proof (child_lt x0 (negb (rp_bit rp)) H1). apply put_hdr_pres. unfold header_typed. cbn. lia. }
    intros _ _. pb. pb. apply sub_w_inv in H3 as [-> ?].
    pose proof (ss_hdr _ H2) as Hh0. unfold header_typed in Hh0.
    eapply pres_bind; [apply put_hdr_pres; unfold header_typed; cbn; lia|]. intros _ _.
    pb. apply (ss_leaf _ _ _ H2) in H4.
    eapply pres_bind; [by apply free_leaf_pres|]. intros _ _.
    eapply pres_bind; [apply free_inner_pres|]. intros _ _.
    pb. pb. apply (ss_cb _ _ _ H5) in H6. by apply pres_ret.
Qed.
Lemma set_callback_pres h c : sized cs c /\ bytes_ok c -> pres SS any (set_callback_info h c).
Proof.
  intros Hc. unfold set_callback_info. pb. pb. apply upd_inv in H0 as ->.
  apply pres_put. by apply ss_set_cb.
Qed.
End OneSlab.

Section OneQueue.
Context (ne nc : nat).
Notation QS := (queue_shape ne nc).
Ltac pb := eapply pres_bind; [first [apply pres_get | apply pres_lift; intros ? HH0; exact HH0]|];
  let x := fresh "x" in let H := fresh "H" in intros x H; cbv beta in H.

Definition cb_typed (o : option bytes) : Prop :=
  match o with Some c => sized cs c /\ bytes_ok c | None => True end.
Lemma push_back_pres ev mk tk : fill_typed ev -> cb_typed mk -> cb_typed tk ->
  pres QS any (push_back ev mk tk).
Proof.
  intros He Hm Ht. unfold push_back. pb. destruct (full x); [apply pres_fail|].
  pb. destruct (_ =? 0); [apply pres_panic|]. pb. apply upd_inv in H1 as ->.
  pb. apply add_w_inv in H1 as [-> ?]. eapply pres_bind.
  { apply pres_put. destruct H as [[] ? ?]. split; cbn; try done; [|by rewrite length_setN].
    split; cbn; try done. by apply setN_Forall. }
  intros _ _.
  assert (Hcb : forall i c, sized cs c /\ bytes_ok c -> pres QS any
    (let! q := get in let! cbs := lift (upd (q_cbs q) i c) in
     put (mk_queue (q_head q) (q_count q) (q_seq q) (q_events q) cbs))).
  { intros i c Hc. pb. pb. apply upd_inv in H3 as ->. apply pres_put.
    destruct H2 as [[] ? ?]. split; cbn; try done; [|by rewrite length_setN].
    split; cbn; try done. by apply setN_Forall. }
  eapply (pres_bind _ any).
  - destruct mk as [c|]; [by apply Hcb|by apply pres_ret].
  - intros _ _. destruct tk as [c|]; [by apply Hcb|by apply pres_ret].
Qed.
Lemma pop_n_pres n : pres QS any (pop_n n).
Proof.
  unfold pop_n. pb. pb. apply sub_w_inv in H0 as [-> ?]. pb. apply add_w_inv in H1 as [-> ?].
  destruct (N.eqb_spec (q_cap x) 0); [apply pres_panic|]. apply pres_put.
  destruct H as [[] ? ?]. split; cbn; try done. split; cbn; try done; [|lia].
  eapply N.le_lt_trans; [apply N.mod_le; lia|done].
Qed.
Lemma lor_lt a b n : a < 2 ^ n -> b < 2 ^ n -> N.lor a b < 2 ^ n.
Proof.
  intros Ha Hb. apply lt_pow2_bits. intros m Hm. rewrite N.lor_spec.
  by rewrite (proj1 (lt_pow2_bits a n) Ha m Hm), (proj1 (lt_pow2_bits b n) Hb m Hm).
Qed.
Lemma order_id_lt price seq sd : price < p64 -> seq < p64 -> order_id_of price seq sd < p128.
Proof.
  intros Hp Hs. unfold order_id_of. change p128 with (2 ^ 128). apply lor_lt.
  - rewrite N.shiftl_mul_pow2. change (2 ^ 128) with (p64 * 2 ^ 64). by apply N.mul_lt_mono_pos_r.
  - change (2 ^ 128) with p128. destruct sd; unfold not64; lia.
Qed.
Lemma gen_order_id_pres price sd : price < p64 -> pres QS (fun id => id < p128) (gen_order_id price sd).
Proof.
  intros Hp. unfold gen_order_id, gen_seq_num.
  eapply (pres_bind _ (fun s => s < p64)).
  - pb. pb. apply add_w_inv in H0 as [-> ?]. pose proof (qt_seq _ _ (qs_typed _ _ _ H)).
    eapply pres_bind; [apply pres_put|intros; by apply pres_ret].
    destruct H as [[] ? ?]. split; cbn; done.
  - intros s Hs. apply pres_ret. by apply order_id_lt.
Qed.
End OneQueue.

(** ** The order book *)
Record shape := mk_shape {
  sh_bl : nat; sh_bi : nat; sh_bc : nat; sh_al : nat; sh_ai : nat; sh_ac : nat;
  sh_qe : nat; sh_qc : nat }.
Section OneBook.
Context (sh : shape).
Record book_shape (b : book bytes) : Prop := {
  bs_bids : slab_shape (sh_bl sh) (sh_bi sh) (sh_bc sh) (bids b);
  bs_asks : slab_shape (sh_al sh) (sh_ai sh) (sh_ac sh) (asks b);
  bs_evq : queue_shape (sh_qe sh) (sh_qc sh) (evq b);
}.
Definition nl sd := match sd with Bid => sh_bl sh | Ask => sh_al sh end.
Definition ni sd := match sd with Bid => sh_bi sh | Ask => sh_ai sh end.
Definition nc sd := match sd with Bid => sh_bc sh | Ask => sh_ac sh end.
Notation BS := book_shape.
Lemma bs_tree b sd : BS b -> slab_shape (nl sd) (ni sd) (nc sd) (tree b sd).
Proof. intros []. by destruct sd. Qed.
Lemma on_tree_pres {A} (Q : A -> Prop) sd m :
  pres (slab_shape (nl sd) (ni sd) (nc sd)) Q m -> pres BS Q (on_tree sd m).
Proof.
  intros H. eapply pres_zoom; [intros s Hs; by apply bs_tree| |exact H].
  intros b t [] Ht. destruct sd; by split.
Qed.
Lemma on_evq_pres {A} (Q : A -> Prop) m :
  pres (queue_shape (sh_qe sh) (sh_qc sh)) Q m -> pres BS Q (on_evq m).
Proof.
  intros H. eapply pres_zoom; [intros s Hs; by destruct Hs| |exact H].
  intros b t [] Ht. by split.
Qed.
Ltac pb := eapply pres_bind; [first [apply pres_get | apply pres_lift; intros ? HH0; exact HH0]|];
  let x := fresh "x" in let H := fresh "H" in intros x H; cbv beta in H.

Lemma push_out_pres sd id base cb : id < p128 -> base < p64 -> sized cs cb /\ bytes_ok cb ->
  pres BS any (push_out sd id base cb).
Proof.
  intros Hid Hb Hc. apply on_evq_pres, push_back_pres; [|done|done].
  unfold out_to_generic. apply fill_of_bytes_typed; [|apply bytes_of_out_length].
  unfold bytes_of_out. rewrite !bytes_ok_app. split_and!; apply le_enc_ok.
Qed.

Definition locals_typed (l : locals) : Prop := l_base l < p64 /\ l_quote l < p64.
Definition iter_typed (i : iter_result) : Prop :=
  match i with ItBreak l | ItNext l => locals_typed l end.
Context (same_id : bytes -> bytes -> bool).

Lemma match_step_pres p min l : new_order_typed cs p -> locals_typed l ->
  pres BS iter_typed (match_step same_id p min l).
Proof.
  intros (Hp1 & Hp2 & Hp3 & Hp4 & Hp5) Hl. unfold match_step.
  destruct (l_limit l =? 0); [by apply pres_ret|]. pb. pb. destruct x0 as [h|]; [|by apply pres_ret].
  pb. pose proof (ss_leaf _ _ _ _ _ _ (bs_tree _ _ H) H1) as Hlf. rename x0 into best.
  destruct Hlf as [Hk Hq]. destruct Hl as [Hlb Hlq].
  match goal with |- context [N.min (N.min ?a ?b) ?c] =>
    set (bt := N.min (N.min a b) c); assert (Hbt : bt <= l_base l) by (unfold bt; lia) end.
  clearbody bt.
  set (cr := match p_side p with Bid => _ | Ask => _ end). clearbody cr.
  destruct (post_only p || negb cr); [by apply pres_ret|].
  destruct (bt =? 0); [by apply pres_ret|].
  pb. rename x0 into qraw. destruct (_ =? 0); [by apply pres_ret|].
  pb. pose proof (ss_cb _ _ _ _ _ _ (bs_tree _ _ H) H3) as Hcb. rename x0 into cb.
  set (self := match stb p with DecrementTake => false | _ => _ end). clearbody self.
  destruct self.
  - destruct (stb p); [apply pres_panic| |apply pres_fail].
    eapply pres_bind; [by apply push_out_pres|]. intros _ _.
    eapply pres_bind; [apply on_tree_pres, remove_by_key_pres|]. intros r _.
    pb. pb. by apply pres_ret.
  - eapply pres_bind.
    { apply on_evq_pres, push_back_pres; [|done|done].
      unfold fill_typed, fill_to_generic, tag_fill.
      cbn [fe_tag fe_taker_side fe_pad fe_quote fe_maker_id fe_base].
      assert (side_u8 (p_side p) < 256) by (by destruct (p_side p)). lia. }
    intros _ _. pb. apply sub_w_inv in H4 as [-> ?].
    eapply pres_bind; [apply on_tree_pres, write_leaf_pres; unfold leaf_typed; cbn; lia|]. intros _ _.
    pb. apply sub_w_inv in H5 as [-> ?]. pb. apply sub_w_inv in H6 as [-> ?].
    eapply (pres_bind _ any).
    { destruct (_ <? min); [|by apply pres_ret].
      eapply pres_bind; [apply on_tree_pres, remove_by_key_pres|]. intros r Hr. cbv beta in Hr.
      eapply (pres_bind _ (fun lc => removed_typed (Some lc))).
      { apply pres_lift. intros a Ha. destruct r; [|done]. by injection Ha as <-. }
      intros [lf c] [_ Hc]. apply push_out_pres; [done|lia|done]. }
    intros _ _. pb. apply pres_ret. unfold iter_typed, locals_typed. cbn. lia.
Qed.

Lemma match_loop_pres p min : new_order_typed cs p ->
  pres BS locals_typed (match_loop same_id p min).
Proof.
  intros Hp b Hb. unfold match_loop. rewrite loop_loop_nat.
  match goal with |- context [loop_nat ?n ?f ?a] => set (fuel := n); set (f0 := f) end.
  assert (Hgen : forall fuel l b, locals_typed l -> BS b ->
    match loop_nat fuel f0 (l, b) with
    | Continue (_, b') => BS b'
    | Done (r, b') => BS b' /\ forall l, r = Ok l -> locals_typed l
    end).
  { clear fuel. intros fuel. induction fuel as [|fuel IH]; intros l b' Hl Hb'; [done|]. cbn [loop_nat].
    pose proof (match_step_pres p min l Hp Hl b' Hb') as [H1 H2].
    unfold f0 at 1. cbn [fst snd].
    destruct (match_step same_id p min l b') as [[[l1|l1]| | |] b1]; cbn [fst snd] in *;
      try (split; [done|]; try done).
    - intros l2 [= <-]. by apply (H2 _ eq_refl).
    - apply IH; [by apply (H2 _ eq_refl)|done]. }
  destruct Hp as (Hp1 & Hp2 & _).
  specialize (Hgen fuel (mk_locals (match_limit p) (max_base_qty p) (max_quote_qty p) true) b
                (conj Hp1 Hp2) Hb).
  destruct (loop_nat _ _ _) as [[l1 b1]|[r b1]]; [done|]. done.
Qed.

Lemma try_insert_pres sd lf : leaf_typed lf -> pres BS any (try_insert sd lf).
Proof.
  intros Hlf b Hb. pose proof (on_tree_pres _ sd _ (insert_leaf_pres _ _ _ lf Hlf) b Hb) as [H1 _].
  unfold try_insert. destruct (on_tree sd (insert_leaf lf) b) as [[[h o]|e| |] b1]; cbn in *; try done.
  by destruct e.
Qed.
Lemma post_leaf_pres p lf : leaf_typed lf -> pres BS any (post_leaf p lf).
Proof.
  intros Hlf. unfold post_leaf. eapply pres_bind; [by apply try_insert_pres|]. intros [h|] _; [by apply pres_ret|].
  pb. pb. pb. pb.
  match goal with |- pres _ _ (if ?c then _ else _) => destruct c end; [|by apply pres_ret].
  eapply pres_bind; [apply on_tree_pres, remove_by_key_pres|]. intros r Hr. cbv beta in Hr.
  eapply (pres_bind _ (fun lc => removed_typed (Some lc))).
  { apply pres_lift. intros a Ha. destruct r; [|done]. by injection Ha as <-. }
  intros [lf' c] [[? ?] Hc]. eapply pres_bind; [by apply push_out_pres|]. intros _ _.
  eapply pres_bind; [by apply try_insert_pres|]. intros r' _. pb. by apply pres_ret.
Qed.

Lemma no_post_pres p base quote : max_base_qty p < p64 -> max_quote_qty p < p64 ->
  pres BS summary_typed (no_post p base quote).
Proof.
  intros H1 H2. unfold no_post. pb. apply sub_w_inv in H as [-> ?]. pb. apply sub_w_inv in H0 as [-> ?].
  apply pres_ret. unfold summary_typed. cbn. lia.
Qed.
Lemma new_order_pres p min : new_order_typed cs p ->
  pres BS summary_typed (new_order same_id p min).
Proof.
  intros Hp. unfold new_order. eapply pres_bind; [by apply match_loop_pres|].
  intros l [Hl1 Hl2]. destruct Hp as (Hp1 & Hp2 & Hp3 & Hp4 & Hp5).
  match goal with |- context [N.min ?a ?b] =>
    set (tp := N.min a b); assert (Htp : tp <= l_base l) by (unfold tp; lia) end. clearbody tp.
  destruct (_ || _); [by apply no_post_pres|].
  eapply pres_bind; [by apply on_evq_pres, gen_order_id_pres|]. intros id Hid. cbv beta in Hid.
  eapply pres_bind; [apply post_leaf_pres; unfold leaf_typed; cbn; lia|].
  intros [h|] _; [|by apply no_post_pres].
  eapply pres_bind; [by apply on_tree_pres, set_callback_pres|]. intros _ _.
  pb. pb. pb. pb. pb.
  repeat match goal with K : sub_w _ _ = Ok _ |- _ => apply sub_w_inv in K as [-> ?] end.
  apply pres_ret. unfold summary_typed. cbn. lia.
Qed.
End OneBook.
End Typed.
