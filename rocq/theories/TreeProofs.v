(** * TreeProofs.v: the abstract crit-bit trees behind a slab *)
From Verif Require Import Machine Critbit MachineProofs.
From Coq Require Import ZifyBool ZifyNat ZifyN.
From Coq Require Import Sorting.Sorted.

(** A tree whose nodes remember the array slot they are stored in. *)
Inductive gtree :=
| GL (h : N) (l : leaf)
| GI (i p key : N) (l r : gtree).

Definition groot (t : gtree) : N :=
  match t with GL h _ => h | GI i _ _ _ _ => not32 i end.
Fixpoint gleaves (t : gtree) : list (N * leaf) :=
  match t with GL h l => [(h, l)] | GI _ _ _ l r => gleaves l ++ gleaves r end.
Fixpoint ginners (t : gtree) : list N :=
  match t with GL _ _ => [] | GI i _ _ l r => i :: ginners l ++ ginners r end.
Fixpoint gheight (t : gtree) : nat :=
  match t with GL _ _ => 0 | GI _ _ _ l r => S (max (gheight l) (gheight r)) end.
Definition gkeys (t : gtree) : list N := map (fun hl => lf_key (snd hl)) (gleaves t).

Lemma gkeys_GI i p key l r : gkeys (GI i p key l r) = gkeys l ++ gkeys r.
Proof. unfold gkeys. cbn. by rewrite map_app. Qed.
Lemma gleaves_ne t : gleaves t <> [].
Proof. induction t as [|i p key l IHl r IHr]; cbn; [done|]. by destruct (gleaves l). Qed.
Lemma gkeys_ne t : exists k, k ∈ gkeys t.
Proof.
  unfold gkeys. destruct (gleaves t) eqn:E; [by apply gleaves_ne in E|].
  eexists. cbn. left.
Qed.
Lemma ginners_length t : S (length (ginners t)) = length (gleaves t).
Proof. induction t as [|i p key l IHl r IHr]; cbn; [done|]. rewrite !app_length. lia. Qed.

Fixpoint gwf (lo : N) (t : gtree) : Prop :=
  match t with
  | GL _ l => lf_key l < p128
  | GI _ p key l r =>
      lo <= p /\ p < 128 /\ key < p128 /\
      (forall k, k ∈ gkeys l -> agree p key k /\ crit p k = false) /\
      (forall k, k ∈ gkeys r -> agree p key k /\ crit p k = true) /\
      gwf (p + 1) l /\ gwf (p + 1) r
  end.

Lemma gwf_mono lo lo' t : lo' <= lo -> gwf lo t -> gwf lo' t.
Proof. destruct t; cbn; [done|]. intros. intuition lia. Qed.
Lemma gwf_key_lt lo t k : gwf lo t -> k ∈ gkeys t -> k < p128.
Proof.
  revert lo; induction t as [h l|i p key l IHl r IHr]; intros lo Hwf Hk.
  - cbn in Hk. apply elem_of_list_singleton in Hk as ->. done.
  - rewrite gkeys_GI in Hk. cbn in Hwf. apply elem_of_app in Hk as [Hk|Hk].
    + eapply IHl; [apply Hwf|done].
    + eapply IHr; [apply Hwf|done].
Qed.
Lemma gwf_height lo t : gwf lo t -> lo <= 128 -> lo + N.of_nat (gheight t) <= 128.
Proof.
  revert lo; induction t as [h l|i p key l IHl r IHr]; intros lo Hwf Hlo; cbn [gheight]; [lia|].
  cbn in Hwf. destruct Hwf as (?&?&?&?&?&Hl&Hr).
  apply IHl in Hl; [|lia]. apply IHr in Hr; [|lia]. lia.
Qed.

Lemma ss_app {A} (R : A -> A -> Prop) l1 l2 :
  StronglySorted R (l1 ++ l2) <->
  StronglySorted R l1 /\ StronglySorted R l2 /\ (forall x y, x ∈ l1 -> y ∈ l2 -> R x y).
Proof.
  induction l1 as [|a l1 IH]; cbn.
  - split; [intros; split; [constructor|split; [done|]]; intros ?? Hx; by apply elem_of_nil in Hx|].
    by intros (_&?&_).
  - split.
    + intros H. inversion H as [|?? Hs Hf]; subst. apply IH in Hs as (H1&H2&H3).
      apply Forall_app in Hf as [Hf1 Hf2]. split; [by constructor|]. split; [done|].
      intros x y Hx Hy. apply elem_of_cons in Hx as [->|Hx]; [|by apply H3].
      by eapply Forall_forall in Hf2.
    + intros (H1&H2&H3). inversion H1 as [|?? Hs Hf]; subst. constructor.
      * apply IH. split; [done|]. split; [done|]. intros x y Hx Hy. apply H3; [by right|done].
      * apply Forall_app. split; [done|]. apply Forall_forall. intros y Hy. apply H3; [left|done].
Qed.

Lemma gwf_sorted lo t : gwf lo t -> StronglySorted N.lt (gkeys t).
Proof.
  revert lo; induction t as [h l|i p key l IHl r IHr]; intros lo Hwf.
  - cbn. repeat constructor.
  - rewrite gkeys_GI. cbn in Hwf. destruct Hwf as (?&?&?&Kl&Kr&Hl&Hr).
    apply ss_app. split; [by eapply IHl|]. split; [by eapply IHr|].
    intros x y Hx Hy. destruct (Kl x Hx) as [A1 C1]. destruct (Kr y Hy) as [A2 C2].
    apply agree_lt with p; [eauto using gwf_key_lt|eauto using gwf_key_lt|done| |done|done].
    eapply agree_trans; [apply agree_sym|]; done.
Qed.

Lemma ss_lt_NoDup l : StronglySorted N.lt l -> NoDup l.
Proof.
  induction 1 as [|a l Hs IH Hf]; constructor; [|done].
  intros Hin. eapply Forall_forall in Hf; [|done]. lia.
Qed.

(** ** Zippers: a context is the list of frames from the focus up to the root *)
Record frame := mk_frame { f_i : N; f_p : N; f_key : N; f_b : bool; f_sib : gtree }.
Definition plug1 (f : frame) (t : gtree) : gtree :=
  if f_b f then GI (f_i f) (f_p f) (f_key f) (f_sib f) t
  else GI (f_i f) (f_p f) (f_key f) t (f_sib f).
Fixpoint plug (ctx : list frame) (t : gtree) : gtree :=
  match ctx with [] => t | f :: ctx => plug ctx (plug1 f t) end.
Definition lo_of (ctx : list frame) : N :=
  match ctx with [] => 0 | f :: _ => f_p f + 1 end.
Definition fok (ctx : list frame) (k : N) : Prop :=
  Forall (fun f => agree (f_p f) (f_key f) k /\ crit (f_p f) k = f_b f) ctx.
Definition parent_of (ctx : list frame) : option (N * bool) :=
  match ctx with [] => None | f :: _ => Some (not32 (f_i f), f_b f) end.

Fixpoint cwf (ctx : list frame) : Prop :=
  match ctx with
  | [] => True
  | f :: ctx =>
      lo_of ctx <= f_p f /\ f_p f < 128 /\ f_key f < p128 /\ gwf (f_p f + 1) (f_sib f) /\
      (forall k, k ∈ gkeys (f_sib f) ->
         agree (f_p f) (f_key f) k /\ crit (f_p f) k = negb (f_b f) /\ fok ctx k) /\
      cwf ctx
  end.

Lemma gkeys_plug1 f t k : k ∈ gkeys (plug1 f t) <-> k ∈ gkeys (f_sib f) \/ k ∈ gkeys t.
Proof.
  unfold plug1. destruct (f_b f); rewrite gkeys_GI, elem_of_app; tauto.
Qed.

Lemma gwf_plug ctx t :
  gwf 0 (plug ctx t) <-> cwf ctx /\ gwf (lo_of ctx) t /\ (forall k, k ∈ gkeys t -> fok ctx k).
Proof.
  revert t; induction ctx as [|f ctx IH]; intros t; cbn [plug cwf lo_of].
  - split; [|by intros (_&?&_)]. intros H. split; [done|]. split; [done|].
    intros; constructor.
  - rewrite IH. clear IH. split.
    + intros (Hc&Hw&Hk).
      assert (Hsib : forall k, k ∈ gkeys (f_sib f) -> fok ctx k)
        by (intros k Hk'; apply Hk, gkeys_plug1; by left).
      assert (Ht : forall k, k ∈ gkeys t -> fok ctx k)
        by (intros k Hk'; apply Hk, gkeys_plug1; by right).
      unfold plug1 in Hw. destruct (f_b f) eqn:Hb; cbn in Hw;
        destruct Hw as (?&?&?&Kl&Kr&Hl&Hr); cbn [negb].
      * split; [|split; [done|]].
        -- split; [done|]. split; [done|]. split; [done|]. split; [done|]. split; [|done].
           intros k Hk'. destruct (Kl k Hk'). auto.
        -- intros k Hk'. constructor; [|by apply Ht]. rewrite Hb. by apply Kr.
      * split; [|split; [done|]].
        -- split; [done|]. split; [done|]. split; [done|]. split; [done|]. split; [|done].
           intros k Hk'. destruct (Kr k Hk'). auto.
        -- intros k Hk'. constructor; [|by apply Ht]. rewrite Hb. by apply Kl.
    + intros ((?&?&?&Hs&Ks&Hc)&Hw&Hk). split; [done|]. split.
      * unfold plug1. destruct (f_b f) eqn:Hb; cbn.
        -- split; [done|]. split; [done|]. split; [done|]. split; [|split; [|done]].
           ++ intros k Hk'. destruct (Ks k Hk') as (?&?&?). done.
           ++ intros k Hk'. specialize (Hk k Hk'). apply Forall_cons in Hk as [Hk _].
              by rewrite Hb in Hk.
        -- split; [done|]. split; [done|]. split; [done|]. split; [|split; [|done]].
           ++ intros k Hk'. specialize (Hk k Hk'). apply Forall_cons in Hk as [Hk _].
              by rewrite Hb in Hk.
           ++ intros k Hk'. destruct (Ks k Hk') as (?&?&?). done.
      * intros k Hk'. apply gkeys_plug1 in Hk' as [Hk'|Hk'].
        -- by apply Ks.
        -- specialize (Hk k Hk'). by apply Forall_cons in Hk as [_ Hk].
Qed.

(** ** Leaves and inner slots of a plugged tree *)
Fixpoint pre (ctx : list frame) : list (N * leaf) :=
  match ctx with
  | [] => []
  | f :: ctx => pre ctx ++ (if f_b f then gleaves (f_sib f) else [])
  end.
Fixpoint post (ctx : list frame) : list (N * leaf) :=
  match ctx with
  | [] => []
  | f :: ctx => (if f_b f then [] else gleaves (f_sib f)) ++ post ctx
  end.
Lemma gleaves_plug ctx t : gleaves (plug ctx t) = pre ctx ++ gleaves t ++ post ctx.
Proof.
  revert t; induction ctx as [|f ctx IH]; intros t; cbn.
  - by rewrite app_nil_r.
  - rewrite IH. unfold plug1. destruct (f_b f); cbn; by rewrite ?app_nil_r, <- !app_assoc.
Qed.
Fixpoint cinners (ctx : list frame) : list N :=
  match ctx with
  | [] => []
  | f :: ctx => f_i f :: ginners (f_sib f) ++ cinners ctx
  end.
Lemma ginners_plug ctx t : ginners (plug ctx t) ≡ₚ ginners t ++ cinners ctx.
Proof.
  revert t; induction ctx as [|f ctx IH]; intros t; cbn.
  - by rewrite app_nil_r.
  - rewrite IH. unfold plug1. destruct (f_b f); cbn; solve_Permutation.
Qed.

(** ** Representation in the arrays *)
Section Rep.
Context (L : list leaf) (I : list inner).

Fixpoint rep (t : gtree) : Prop :=
  match t with
  | GL h l => h < p31 /\ getN L h = Some l
  | GI i p key l r =>
      i < p31 /\ getN I i = Some (mk_inner key p (groot l) (groot r)) /\ rep l /\ rep r
  end.
Fixpoint crep (ctx : list frame) (r : N) : Prop :=
  match ctx with
  | [] => True
  | f :: ctx =>
      f_i f < p31 /\
      getN I (f_i f) =
        Some (mk_inner (f_key f) (f_p f) (if f_b f then groot (f_sib f) else r)
                       (if f_b f then r else groot (f_sib f))) /\
      rep (f_sib f) /\ crep ctx (not32 (f_i f))
  end.
Lemma rep_plug ctx t : rep (plug ctx t) <-> crep ctx (groot t) /\ rep t.
Proof.
  revert t; induction ctx as [|f ctx IH]; intros t; cbn; [tauto|].
  rewrite IH. unfold plug1. destruct (f_b f); cbn; tauto.
Qed.
End Rep.

Lemma rep_ext L I L' I' t :
  (forall h, h ∈ map fst (gleaves t) -> getN L' h = getN L h) ->
  (forall i, i ∈ ginners t -> getN I' i = getN I i) ->
  rep L I t -> rep L' I' t.
Proof.
  induction t as [h l|i p key l IHl r IHr]; cbn; intros HL HI.
  - intros [? ?]. split; [done|]. rewrite HL; [done|]. left.
  - intros (?&Hi&Hl&Hr). split; [done|]. split; [by rewrite HI by left|].
    rewrite map_app in HL. split.
    + apply IHl; [| |done]; intros; [apply HL|apply HI]; set_solver.
    + apply IHr; [| |done]; intros; [apply HL|apply HI]; set_solver.
Qed.
Definition cleaves (ctx : list frame) : list (N * leaf) := pre ctx ++ post ctx.
Lemma cleaves_cons f ctx : cleaves (f :: ctx) ≡ₚ gleaves (f_sib f) ++ cleaves ctx.
Proof. unfold cleaves. cbn. destruct (f_b f); rewrite ?app_nil_r; cbn; solve_Permutation. Qed.

Lemma crep_ext L I L' I' ctx r :
  (forall h, h ∈ map fst (cleaves ctx) -> getN L' h = getN L h) ->
  (forall i, i ∈ cinners ctx -> getN I' i = getN I i) ->
  crep L I ctx r -> crep L' I' ctx r.
Proof.
  revert r; induction ctx as [|f ctx IH]; intros r HL HI; cbn; [done|].
  intros (?&Hi&Hs&Hc). split; [done|]. cbn in HI.
  assert (HL' : forall h, h ∈ map fst (gleaves (f_sib f)) \/ h ∈ map fst (cleaves ctx) ->
                          getN L' h = getN L h).
  { intros h Hh. apply HL. rewrite (fmap_Permutation fst _ _ (cleaves_cons f ctx)).
    rewrite fmap_app. by apply elem_of_app. }
  split; [rewrite HI by left; done|]. split.
  - eapply rep_ext; [| |done]; intros.
    + apply HL'. by left.
    + apply HI. set_solver.
  - apply IH; [| |done]; intros.
    + apply HL'. by right.
    + apply HI. set_solver.
Qed.
Lemma gleaves_plug_perm ctx t : gleaves (plug ctx t) ≡ₚ gleaves t ++ cleaves ctx.
Proof. rewrite gleaves_plug. unfold cleaves. solve_Permutation. Qed.

Lemma rep_groot_lt L I t : rep L I t -> groot t < p32.
Proof. destruct t; cbn; [lia|]. intros. apply not32_lt. Qed.
