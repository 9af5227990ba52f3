(** * PropsBooks.v: which books can arise (C83) *)
From Verif Require Import Machine Critbit EventQueue OrderBook Market Spec MarketProofs MarketFacts HistoryProps
  ExchangeSpec ExchangeProofs BooksSpec BooksProofs ExampleRuns.
From Coq Require Import Sorting.Sorted ZifyBool ZifyNat ZifyN.

(** Whatever requests were sent: the book fits the market. *)
Theorem C83_only : forall (C : Type) (same_id : C -> C -> bool) (c : config C) m,
  reachable same_id c m -> fits c (x_bids (view m)) (x_asks (view m)).
Proof. intros C same_id c m. apply only. Qed.

(** Every book that fits a market arises from some requests; no event is waiting then. *)
Theorem C83_arises : forall (C : Type) (same_id : C -> C -> bool) (c : config C) bids asks,
  config_ok c -> fits c bids asks ->
  Forall (fun o => x_time o < 2 ^ 61) bids -> Forall (fun o => x_time o < 2 ^ 61) asks ->
  exists m, reachable same_id c m /\ x_bids (view m) = bids /\ x_asks (view m) = asks /\ pending m = [].
Proof. intros C same_id c bids asks. apply arises. Qed.

(** Together: as long as ids have not passed [2^61], the books that arise are exactly those
    that fit. *)
Theorem C83_exactly : forall (C : Type) (same_id : C -> C -> bool) (c : config C) bids asks,
  config_ok c ->
  Forall (fun o => x_time o < 2 ^ 61) bids -> Forall (fun o => x_time o < 2 ^ 61) asks ->
  (exists m, reachable same_id c m /\ x_bids (view m) = bids /\ x_asks (view m) = asks) <-> fits c bids asks.
Proof.
  intros C same_id c bids asks Hc Hb Ha. split.
  - intros (m&Hr&<-&<-). by eapply C83_only.
  - intros Hf. destruct (C83_arises _ same_id _ _ _ Hc Hf Hb Ha) as (m&?&?&?&_). by exists m.
Qed.

(** ** Example: a full book with two bids at one price, later than an ask, one of them for
    the largest value there is; its times have gaps. *)
Definition xb1 : xorder N := mk_xorder (2 * 2147483648) 7 (2 ^ 64 - 1) 5.
Definition xb2 : xorder N := mk_xorder (2 * 2147483648) 11 10 5.
Definition xa1 : xorder N := mk_xorder (3 * 2147483648) 2 10 6.
Definition xa2 : xorder N := mk_xorder (8 * 2147483648) 40 77 5.
Example C83_example : fits ex_cfg [xb1; xb2] [xa1; xa2] /\
  (exists m, reachable N.eqb ex_cfg m /\ x_bids (view m) = [xb1; xb2] /\ x_asks (view m) = [xa1; xa2] /\ pending m = []) /\
  (* a unit more, a crossed book, a time taken twice, and orders of a side exchanged do not arise *)
  ~ fits ex_cfg [mk_xorder (3 * 2147483648) 7 (2 ^ 64 - 1) 5] [] /\ ~ fits ex_cfg [xb1] [xb2] /\
  ~ fits ex_cfg [xb1] [mk_xorder (3 * 2147483648) 7 10 6] /\ ~ fits ex_cfg [xb2; xb1] [].
Proof.
  assert (Hf : fits ex_cfg [xb1; xb2] [xa1; xa2]).
  { unfold fits. split; [cbn; lia|]. split; [cbn; lia|].
    assert (M : forall k t s o, 0 < k < 9 -> 10 <= s < 2 ^ 64 -> s * (k * 2147483648) <= (2 ^ 64 - 1) * 2 ^ 32 ->
      may_rest ex_cfg (mk_xorder (k * 2147483648) t s o)).
    { intros k t s o Hk Hs Hv. unfold may_rest. cbn [x_price x_size]. split; [lia|]. split; [by exists k|]. split; [cbn; lia|done]. }
    split; [repeat constructor; apply M; lia|]. split; [repeat constructor; apply M; lia|].
    split; [constructor; [constructor; [constructor|constructor]|]; constructor; [right; cbn; lia|constructor]|].
    split; [constructor; [constructor; [constructor|constructor]|]; constructor; [left; cbn; lia|constructor]|].
    split; [cbn; repeat (constructor; [set_solver|]); constructor|].
    intros b a Hb Ha. rewrite !elem_of_cons, elem_of_nil in Hb, Ha.
    destruct Hb as [->|[->|[]]], Ha as [->|[->|[]]]; cbn; lia. }
  split; [exact Hf|]. split.
  { apply C83_arises; [apply ex_cfg_ok|exact Hf|repeat constructor; cbn; lia|repeat constructor; cbn; lia]. }
  split_and!.
  - intros (_&_&H&_). apply Forall_cons in H as [(_&_&_&H) _]. apply N.leb_le in H. by vm_compute in H.
  - intros (_&_&_&_&_&_&_&H). specialize (H xb1 xb2 ltac:(left) ltac:(left)). cbn in H. lia.
  - intros (_&_&_&_&_&_&H&_). cbn in H. apply NoDup_cons in H as [H _]. apply H. left.
  - intros (_&_&_&_&H&_). inversion H as [|? ? _ Hf2]. apply Forall_cons in Hf2 as [[Hx|[_ Hx]] _]; cbn in Hx; lia.
Qed.

Print Assumptions C83_only.
Print Assumptions C83_arises.
Print Assumptions C83_exactly.
