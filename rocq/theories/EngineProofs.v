(** * EngineProofs.v: properties of the list functions of Engine.v *)
From Verif Require Import Machine Bytes Critbit EventQueue OrderBook Market Spec MachineProofs TreeProofs
  SlabProofs SlabProofs2 QueueProofs IdProofs Engine BookProofs.
From Coq Require Import ZifyBool ZifyNat ZifyN.
From Coq Require Import Sorting.Sorted.

Global Arguments estep : simpl never.
Global Arguments ematch : simpl never.
Global Arguments trade_base : simpl never.
Global Arguments crosses : simpl never.
Global Arguments is_self : simpl never.

Section EngineProofs.
Context {C : Type} (same_id : C -> C -> bool).
Implicit Types os : list (order C).
Implicit Types p : params C.

(** What a continuing iteration does. *)
Inductive mstep p (min : N) (l : locals) : list (order C) -> locals -> list (order C) ->
    list (event_ref C) -> Prop :=
| ms_cancel o rest :
    stb p = CancelProvide -> same_id (p_callback p) (o_cb o) = true ->
    mstep p min l (o :: rest) (mk_locals (l_limit l - 1) (l_base l) (l_quote l) true) rest
      [ev_out (opposite (p_side p)) o (o_qty o)]
| ms_fill_out o rest base quote :
    stb p = DecrementTake \/ same_id (p_callback p) (o_cb o) = false ->
    base = trade_base l o -> quote = quote_of (p_side p) base (o_price o) ->
    o_qty o - base < min ->
    mstep p min l (o :: rest)
      (mk_locals (l_limit l - 1) (l_base l - base) (l_quote l - quote) true) rest
      [ev_fill p o base quote; ev_out (opposite (p_side p)) o (o_qty o - base)]
| ms_fill o rest base quote :
    stb p = DecrementTake \/ same_id (p_callback p) (o_cb o) = false ->
    base = trade_base l o -> quote = quote_of (p_side p) base (o_price o) ->
    min <= o_qty o - base ->
    mstep p min l (o :: rest)
      (mk_locals (l_limit l - 1) (l_base l - base) (l_quote l - quote) true)
      ((mk_leaf (o_id o) (o_qty o - base), o_cb o) :: rest)
      [ev_fill p o base quote].

(** The tests passed by an iteration that reaches the best order [o]. *)
Record engaged p (l : locals) (o : order C) : Prop := mk_engaged {
  en_limit : 0 < l_limit l;
  en_post : post_only p = false;
  en_cross : crosses (p_side p) (limit_price p) (o_price o) = true;
  en_base : 0 < trade_base l o;
  en_quote : 0 < quote_of (p_side p) (trade_base l o) (o_price o);
}.

Lemma estep_next p min l os l' os' E :
  estep same_id p min l os = ENext l' os' E <->
  mstep p min l os l' os' E /\ (exists o rest, os = o :: rest /\ engaged p l o).
Proof.
  split.
  - unfold estep. destruct (N.eqb_spec (l_limit l) 0); [done|].
    destruct os as [|o rest]; [done|].
    destruct (post_only p) eqn:Hpo; [done|].
    destruct (crosses (p_side p) (limit_price p) (o_price o)) eqn:Hc; [|done]. cbn [orb negb].
    destruct (N.eqb_spec (trade_base l o) 0); [done|].
    destruct (N.eqb_spec (quote_of (p_side p) (trade_base l o) (o_price o)) 0); [done|].
    intros H. split; [|exists o, rest; split; [done|]; split; done || lia].
    unfold is_self in H. destruct (stb p) eqn:Hs.
    + destruct (N.ltb_spec (o_qty o - trade_base l o) min); simplify_eq.
      * apply ms_fill_out; auto.
      * apply ms_fill; auto.
    + destruct (same_id (p_callback p) (o_cb o)) eqn:Hid.
      * simplify_eq. by apply ms_cancel.
      * destruct (N.ltb_spec (o_qty o - trade_base l o) min); simplify_eq.
        -- apply ms_fill_out; auto.
        -- apply ms_fill; auto.
    + destruct (same_id (p_callback p) (o_cb o)) eqn:Hid; [done|].
      destruct (N.ltb_spec (o_qty o - trade_base l o) min); simplify_eq.
      * apply ms_fill_out; auto.
      * apply ms_fill; auto.
  - intros [Hm (o&rest&->&[E1 E2 E3 E4 E5])]. unfold estep.
    destruct (N.eqb_spec (l_limit l) 0); [lia|]. rewrite E2, E3. cbn [orb negb].
    destruct (N.eqb_spec (trade_base l o) 0); [lia|].
    destruct (N.eqb_spec (quote_of (p_side p) (trade_base l o) (o_price o)) 0); [lia|].
    inversion Hm as [? ? Hs Hid|? ? ? ? Hs Hb Hq Hd|? ? ? ? Hs Hb Hq Hd]; subst; unfold is_self.
    + rewrite Hs, Hid. done.
    + destruct (N.ltb_spec (o_qty o - trade_base l o) min); [|lia].
      destruct Hs as [-> | ->]; [done|]. by destruct (stb p).
    + destruct (N.ltb_spec (o_qty o - trade_base l o) min); [lia|].
      destruct Hs as [-> | ->]; [done|]. by destruct (stb p).
Qed.

Inductive esteps p min : locals -> list (order C) -> list (event_ref C) -> locals ->
    list (order C) -> Prop :=
| es_nil l os : esteps p min l os [] l os
| es_cons l os l1 os1 E1 E2 l2 os2 :
    estep same_id p min l os = ENext l1 os1 E1 -> esteps p min l1 os1 E2 l2 os2 ->
    esteps p min l os (E1 ++ E2) l2 os2.

Lemma eloop_fin p min : forall fuel l os E l' os',
  eloop same_id fuel p min l os = (E, Fin l' os') ->
  exists l1, esteps p min l os E l1 os' /\ estep same_id p min l1 os' = EBreak l'.
Proof.
  induction fuel as [|fuel IH]; intros l os E l' os'; cbn [eloop]; [done|].
  destruct (estep same_id p min l os) as [l1| |l1 os1 E1] eqn:Es; [|done|].
  - intros [= <- <- <-]. exists l. split; [constructor|done].
  - destruct (eloop same_id fuel p min l1 os1) as [E2 r] eqn:El. cbn.
    intros [= <- ->]. destruct (IH _ _ _ _ _ El) as (l2&H1&H2).
    exists l2. split; [|done]. by econstructor.
Qed.
Lemma eloop_abort p min : forall fuel l os E,
  (N.to_nat (l_limit l) < fuel)%nat -> 
  locals_typed l -> Forall order_typed os ->
  eloop same_id fuel p min l os = (E, Abort) ->
  exists l1 os1, esteps p min l os E l1 os1 /\ estep same_id p min l1 os1 = EAbort.
Proof.
  induction fuel as [|fuel IH]; intros l os E Hf Hl Ht; cbn [eloop]; [lia|].
  destruct (estep same_id p min l os) as [l1| |l1 os1 E1] eqn:Es; [done| |].
  - intros [= <-]. exists l, os. split; [constructor|done].
  - destruct (eloop same_id fuel p min l1 os1) as [E2 r] eqn:El. cbn.
    intros [= <- ->].
    destruct (estep_typed _ _ _ _ _ _ _ _ Es Hl Ht) as (?&?&?&_).
    destruct (IH l1 os1 _ ltac:(lia) ltac:(done) ltac:(done) El) as (l2&os2&H1'&H2').
    exists l2, os2. split; [|done]. by econstructor.
Qed.

(** Invariants of sequences of iterations. *)
Lemma esteps_typed p min l os E l' os' :
  esteps p min l os E l' os' -> locals_typed l -> Forall order_typed os ->
  locals_typed l' /\ Forall order_typed os' /\ l_limit l' <= l_limit l /\
  l_base l' <= l_base l /\ l_quote l' <= l_quote l.
Proof.
  induction 1 as [|l os l1 os1 E1 E2 l2 os2 Hs _ IH]; intros Hl Ht; [done|].
  destruct (estep_typed _ _ _ _ _ _ _ _ Hs Hl Ht) as (H1&H2&?&?&?).
  destruct (IH H1 H2) as (?&?&?&?&?). split; [done|]. split; [done|]. lia.
Qed.

(** ** Events of a matching run *)
Notation ev_id := event_id.

(** Replaying an event on a priority list: it must concern the first order. *)
Definition eat (os : list (order C)) (ev : event_ref C) : option (list (order C)) :=
  match os with
  | [] => None
  | o :: rest =>
      if ev_id ev =? o_id o then
        match ev with
        | EvFill e _ _ => Some ((mk_leaf (o_id o) (o_qty o - fe_base e), o_cb o) :: rest)
        | EvOut _ _ => Some rest
        end
      else None
  end.
Fixpoint eats os (E : list (event_ref C)) : option (list (order C)) :=
  match E with
  | [] => Some os
  | ev :: E => match eat os ev with Some os' => eats os' E | None => None end
  end.
Lemma eats_app os E1 E2 : eats os (E1 ++ E2) =
  match eats os E1 with Some os' => eats os' E2 | None => None end.
Proof.
  revert os; induction E1 as [|ev E1 IH]; intros os; [done|]. cbn.
  destruct (eat os ev); [apply IH|done].
Qed.
Lemma mstep_eats p min l os l' os' E : mstep p min l os l' os' E -> eats os E = Some os'.
Proof.
  inversion 1; subst; cbn; unfold event_id; cbn; rewrite ?N.eqb_refl; cbn; try done.
  unfold o_id; cbn. by rewrite N.eqb_refl.
Qed.
Lemma esteps_eats p min l os E l' os' : esteps p min l os E l' os' -> eats os E = Some os'.
Proof.
  induction 1 as [|l os l1 os1 E1 E2 l2 os2 Hs _ IH]; [done|].
  rewrite eats_app. apply estep_next in Hs as [Hs _]. by rewrite (mstep_eats _ _ _ _ _ _ _ Hs).
Qed.

(** Shape of the remaining list: a suffix, with the first order possibly reduced. *)
Definition tail_of os os' : Prop :=
  exists done rest, os = done ++ rest /\
    (os' = rest \/ exists o q rest', rest = o :: rest' /\ q <= o_qty o /\
       os' = (mk_leaf (o_id o) q, o_cb o) :: rest').
Lemma tail_of_refl os : tail_of os os.
Proof. exists [], os. auto. Qed.
Lemma mstep_tail p min l os l' os' E : mstep p min l os l' os' E -> tail_of os os'.
Proof.
  inversion 1; subst.
  - exists [o], os'. auto.
  - exists [o], os'. auto.
  - exists [], (o :: rest). split; [done|]. right. eexists o, _, rest.
    split; [done|]. split; [|done]. lia.
Qed.
Lemma tail_of_trans os1 os2 os3 : tail_of os1 os2 -> tail_of os2 os3 -> tail_of os1 os3.
Proof.
  intros (d1&r1&->&H1) (d2&r2&->&H2).
  destruct H1 as [<-|(o&q&r'&->&Hq&Heq)].
  - exists (d1 ++ d2), r2. split; [by rewrite app_assoc|done].
  - destruct d2 as [|x d2]; cbn in Heq.
    + destruct H2 as [->|(o2&q2&r2'&->&Hq2&->)].
      * subst r2. exists d1, (o :: r'). split; [done|]. right. eauto 10.
      * simplify_eq. exists d1, (o :: r'). split; [done|]. right.
        exists o, q2, r'. split; [done|]. split; [|done].
        unfold o_qty in Hq2 at 1. cbn in Hq2. lia.
    + simplify_eq. exists (d1 ++ o :: d2), r2. split; [by rewrite <- app_assoc|done].
Qed.
Lemma esteps_tail p min l os E l' os' : esteps p min l os E l' os' -> tail_of os os'.
Proof.
  induction 1 as [|l os l1 os1 E1 E2 l2 os2 Hs _ IH]; [apply tail_of_refl|].
  apply estep_next in Hs as [Hs _]. eauto using tail_of_trans, mstep_tail.
Qed.

(** What each event of a matching run satisfies. *)
Definition match_event_ok p (min : N) (ev : event_ref C) : Prop :=
  match ev with
  | EvFill e m t =>
      fe_tag e = tag_fill /\ fe_taker_side e = side_u8 (p_side p) /\ fe_pad e = 0 /\
      t = p_callback p /\
      0 < fe_base e < p64 /\ 0 < fe_quote e < p64 /\
      fe_quote e = quote_of (p_side p) (fe_base e) (price_from_key (fe_maker_id e)) /\
      crosses (p_side p) (limit_price p) (price_from_key (fe_maker_id e)) = true /\
      (stb p = DecrementTake \/ same_id (p_callback p) m = false)
  | EvOut e m =>
      oe_tag e = tag_out /\ oe_side e = side_u8 (opposite (p_side p)) /\ oe_pad e = 0 /\
      crosses (p_side p) (limit_price p) (price_from_key (oe_id e)) = true /\
      (oe_base e < min \/ (stb p = CancelProvide /\ same_id (p_callback p) m = true))
  end.
Lemma esteps_events p min l os E l' os' : esteps p min l os E l' os' ->
  locals_typed l -> Forall order_typed os -> Forall (match_event_ok p min) E.
Proof.
  induction 1 as [|l os l1 os1 E1 E2 l2 os2 Hs _ IH]; intros Hl Ht; [constructor|].
  destruct (estep_typed _ _ _ _ _ _ _ _ Hs Hl Ht) as (Hl1&Ht1&_).
  apply Forall_app. split; [|by apply IH]. clear IH.
  apply estep_next in Hs as [Hs (o&rest&->&[E1' E2' E3' E4' E5'])].
  apply Forall_cons in Ht as [Hto Ht].
  pose proof (trade_facts (p_side p) l o Hl Hto) as (T1&T2&T3&T4).
  destruct Hl as (?&?&?), Hto as [??].
  inversion Hs; subst.
  - constructor; [|constructor]. cbn. split_and!; try done. by right.
  - constructor; [|constructor; [|constructor]]; cbn; split_and!; try done; try lia.
  - constructor; [|constructor]; cbn; split_and!; try done; try lia.
Qed.

(** ** Sums *)
Lemma sumN_app {A} (f : A -> N) l1 l2 : sumN f (l1 ++ l2) = sumN f l1 + sumN f l2.
Proof. induction l1; cbn; [done|]. rewrite IHl1. lia. Qed.
Lemma sumN_perm {A} (f : A -> N) l1 l2 : l1 ≡ₚ l2 -> sumN f l1 = sumN f l2.
Proof. induction 1; cbn; lia. Qed.
Lemma sumN_ext {A} (f g : A -> N) l : (forall x, x ∈ l -> f x = g x) -> sumN f l = sumN g l.
Proof.
  induction l as [|x l IH]; intros H; [done|]. cbn. rewrite H by left. f_equal. apply IH.
  intros y Hy. apply H. by right.
Qed.
Lemma sumN_zero {A} (f : A -> N) l : (forall x, x ∈ l -> f x = 0) -> sumN f l = 0.
Proof.
  induction l as [|x l IH]; intros H; [done|]. cbn. rewrite H by left. apply IH.
  intros y Hy. apply H. by right.
Qed.

Lemma esteps_sums p min l os E l' os' : esteps p min l os E l' os' ->
  locals_typed l -> Forall order_typed os ->
  l_base l = l_base l' + sumN fill_base E /\ l_quote l = l_quote l' + sumN fill_quote E.
Proof.
  induction 1 as [|l os l1 os1 E1 E2 l2 os2 Hs _ IH]; intros Hl Ht; [cbn; lia|].
  destruct (estep_typed _ _ _ _ _ _ _ _ Hs Hl Ht) as (Hl1&Ht1&_).
  destruct (IH Hl1 Ht1) as [IH1 IH2]. rewrite !sumN_app.
  apply estep_next in Hs as [Hs (o&rest&->&_)].
  apply Forall_cons in Ht as [Hto Ht].
  pose proof (trade_facts (p_side p) l o Hl Hto) as (T1&T2&T3&T4).
  inversion Hs; subst; cbn in *; lia.
Qed.

(** Counting. *)
Lemma esteps_count p min l os E l' os' : esteps p min l os E l' os' ->
  N.of_nat (length E) + 2 * l_limit l' <= 2 * l_limit l /\
  N.of_nat (length E) <= 2 * (l_limit l - l_limit l').
Proof.
  induction 1 as [|l os l1 os1 E1 E2 l2 os2 Hs _ IH]; [cbn; lia|].
  apply estep_next in Hs as [Hs (o&rest&->&[?])]. rewrite app_length.
  inversion Hs; subst; cbn [l_limit length] in *; lia.
Qed.
(** Number of orders interacted with: one per iteration. *)
Lemma esteps_interactions p min l os E l' os' : esteps p min l os E l' os' ->
  interactions same_id p E + l_limit l' = l_limit l.
Proof.
  unfold interactions.
  induction 1 as [|l os l1 os1 E1 E2 l2 os2 Hs _ IH]; [cbn; lia|].
  apply estep_next in Hs as [Hs (o&rest&->&[?])]. rewrite List.filter_app, app_length.
  inversion Hs as [? ? Hc Hi|? ? ? ? Hi|? ? ? ? Hi]; subst; cbn [l_limit] in *.
  - unfold ev_out. cbn [List.filter is_interaction oe_side].
    rewrite Hc, Hi, N.eqb_refl. cbn [andb length]. lia.
  - unfold ev_out. cbn [List.filter is_interaction oe_side ev_fill].
    replace (_ && same_id (p_callback p) (o_cb o) && _) with false; [cbn [length]; lia|].
    destruct Hi as [->| ->]; [done|]. by destruct (stb p).
  - cbn. lia.
Qed.
Lemma esteps_ids p min l os E l' os' : esteps p min l os E l' os' ->
  exists js, N.of_nat (length js) + l_limit l' = l_limit l /\ forall ev, ev ∈ E -> ev_id ev ∈ js.
Proof.
  induction 1 as [|l os l1 os1 E1 E2 l2 os2 Hs _ (js&Hl&IH)].
  - exists []. split; [cbn; lia|]. intros ev Hev. by apply elem_of_nil in Hev.
  - apply estep_next in Hs as [Hs (o&rest&->&[?])]. exists (o_id o :: js). split.
    + inversion Hs; subst; cbn [l_limit length] in *; lia.
    + intros ev Hev. apply elem_of_app in Hev as [Hev|Hev]; [|right; by apply IH].
      inversion Hs; subst; repeat (apply elem_of_cons in Hev as [->|Hev]); try (by left);
        by apply elem_of_nil in Hev.
Qed.

(** The crossed flag at the end. *)
Lemma esteps_crossed p min l os E l' os' : esteps p min l os E l' os' ->
  l_crossed l = true -> l_crossed l' = true.
Proof.
  induction 1 as [|l os l1 os1 E1 E2 l2 os2 Hs _ IH]; intros Hc; [done|].
  apply IH. apply estep_next in Hs as [Hs _]. by inversion Hs.
Qed.
Lemma estep_break_crossed p min l os l' :
  l_crossed l = true -> estep same_id p min l os = EBreak l' -> l_crossed l' = false ->
  0 < l_limit l /\
  match os with [] => True | o :: _ => crosses (p_side p) (limit_price p) (o_price o) = false end.
Proof.
  intros Hc. unfold estep. destruct (N.eqb_spec (l_limit l) 0); [by intros [= <-]; congruence|].
  destruct os as [|o rest]; [intros [= <-] _; split; [lia|done]|].
  destruct (post_only p || negb (crosses (p_side p) (limit_price p) (o_price o))) eqn:Hx.
  { intros [= <-]. cbn. intros ->. split; [lia|done]. }
  apply orb_false_iff in Hx as [_ Hx]. apply negb_false_iff in Hx. rewrite Hx.
  destruct (trade_base l o =? 0); [by intros [= <-]|].
  destruct (quote_of _ _ _ =? 0); [by intros [= <-]|].
  destruct (is_self same_id p o); [by destruct (stb p)|].
  by destruct (_ <? min).
Qed.
(** Why the loop stops. *)
Lemma estep_break_why p min l os l' :
  estep same_id p min l os = EBreak l' ->
  l_limit l = 0 \/ os = [] \/ post_only p = true \/
  exists o rest, os = o :: rest /\
    (crosses (p_side p) (limit_price p) (o_price o) = false \/
     trade_base l o = 0 \/
     quote_of (p_side p) (trade_base l o) (o_price o) = 0).
Proof.
  unfold estep. destruct (N.eqb_spec (l_limit l) 0); [auto|].
  destruct os as [|o rest]; [auto|].
  destruct (post_only p) eqn:Hp; [auto|].
  destruct (crosses (p_side p) (limit_price p) (o_price o)) eqn:Hx; cbn [orb negb].
  2:{ intros _. right. right. right. exists o, rest. auto. }
  destruct (N.eqb_spec (trade_base l o) 0); [intros _; right; right; right; exists o, rest; auto|].
  destruct (N.eqb_spec (quote_of (p_side p) (trade_base l o) (o_price o)) 0);
    [intros _; right; right; right; exists o, rest; auto|].
  destruct (is_self same_id p o); [by destruct (stb p)|].
  by destruct (_ <? min).
Qed.
Lemma estep_abort p min l os :
  estep same_id p min l os = EAbort ->
  exists o rest, os = o :: rest /\ engaged p l o /\ stb p = AbortTransaction /\
    same_id (p_callback p) (o_cb o) = true.
Proof.
  unfold estep. destruct (N.eqb_spec (l_limit l) 0); [done|].
  destruct os as [|o rest]; [done|].
  destruct (post_only p) eqn:Hp; [done|].
  destruct (crosses (p_side p) (limit_price p) (o_price o)) eqn:Hx; cbn [orb negb]; [|done].
  destruct (N.eqb_spec (trade_base l o) 0); [done|].
  destruct (N.eqb_spec (quote_of (p_side p) (trade_base l o) (o_price o)) 0); [done|].
  unfold is_self. intros H. exists o, rest. split; [done|].
  destruct (stb p); [by destruct (_ <? min)| |];
    (destruct (same_id (p_callback p) (o_cb o)) eqn:Hs; [|by destruct (_ <? min)]); [done|].
  split; [|done]. split; done || lia.
Qed.
Lemma esteps_post_only p min l os E l' os' : esteps p min l os E l' os' ->
  post_only p = true -> E = [] /\ os' = os /\ l' = l.
Proof.
  inversion 1 as [|? ? ? ? ? ? ? ? Hs]; subst; [done|].
  apply estep_next in Hs as [_ (o&rest&_&[? Hp])]. congruence.
Qed.
Lemma esteps_limit0 p min l os E l' os' : esteps p min l os E l' os' ->
  l_limit l = 0 -> E = [] /\ os' = os /\ l' = l.
Proof.
  inversion 1 as [|? ? ? ? ? ? ? ? Hs]; subst; [done|].
  apply estep_next in Hs as [_ (o&rest&_&[? Hp])]. lia.
Qed.

(** ** Insertion *)
Lemma ins_perm sd (o : order C) os : ins sd o os ≡ₚ o :: os.
Proof.
  induction os as [|x os IH]; cbn; [done|].
  destruct (before sd (o_id o) (o_id x)); [done|]. rewrite IH. constructor.
Qed.
Lemma ins_length sd (o : order C) os : length (ins sd o os) = S (length os).
Proof. by rewrite ins_perm. Qed.
End EngineProofs.
