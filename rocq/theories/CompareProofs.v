(** * CompareProofs.v: two requests on the same market (C61) *)
From Verif Require Import Machine Bytes Critbit EventQueue OrderBook Market Spec MachineProofs TreeProofs
  SlabProofs SlabProofs2 QueueProofs IdProofs Engine BookProofs EngineProofs MarketProofs MarketFacts CompareSpec.
From Coq Require Import ZifyBool ZifyNat ZifyN.
From Coq Require Import Sorting.Sorted.

Section Compare.
Context {C : Type} (same_id : C -> C -> bool).
Implicit Types os : list (order C).
Implicit Types p q : params C.
Implicit Types m : market C.
Implicit Types c : config C.

Lemma stricter_crosses sd x y price : stricter_limit sd x y -> crosses sd x price = true -> crosses sd y price = true.
Proof. destruct sd; unfold crosses; cbn; lia. Qed.
Lemma ev_fill_alike p q o b x : alike p q -> ev_fill p o b x = ev_fill q o b x.
Proof. intros (Hs&Hc&_). unfold ev_fill. by rewrite Hs, Hc. Qed.
Lemma trade_base_eq l l' (o : order C) : l_base l = l_base l' -> l_quote l = l_quote l' -> trade_base l o = trade_base l' o.
Proof. unfold trade_base. by intros -> ->. Qed.

(** Lockstep: same events as long as the tighter order goes on. *)
Definition close (l l' : locals) : Prop := l_base l = l_base l' /\ l_quote l = l_quote l' /\ l_limit l <= l_limit l'.
Lemma engaged_tighter p q l l' o : tighter p q -> close l l' -> engaged p l o -> engaged q l' o.
Proof.
  intros ((Hs&_&_&Hpo)&Hlim&_) (Hb&Hq&Hl) [H1 H2 H3 H4 H5].
  rewrite (trade_base_eq l l' o Hb Hq) in *. split; [lia|congruence| |done|by rewrite <- Hs].
  rewrite <- Hs. eapply stricter_crosses; done.
Qed.
Lemma estep_tighter p q min l l' os l1 os1 E : tighter p q -> close l l' ->
  estep same_id p min l os = ENext l1 os1 E ->
  exists l1', estep same_id q min l' os = ENext l1' os1 E /\ close l1 l1'.
Proof.
  intros Ht Hcl Hs. apply estep_next in Hs as [Hm (o&rest&->&He)].
  pose proof (engaged_tighter _ _ _ _ _ Ht Hcl He) as He'.
  destruct Ht as (Hal&_). pose proof Hal as (Hsd&Hcb&Hst&_). destruct Hcl as (Hb&Hq&Hl).
  pose proof (trade_base_eq l l' o Hb Hq) as Htb. destruct He.
  inversion Hm as [? ? H1 H2|? ? ? ? H1 -> -> H4|? ? ? ? H1 -> -> H4]; subst.
  - eexists. split; [apply estep_next; split; [|eexists _, _; split; [reflexivity|eassumption]]|].
    + rewrite Hsd. apply ms_cancel; congruence.
    + split; [done|]. split; [done|]. cbn. lia.
  - eexists. split; [apply estep_next; split; [|eexists _, _; split; [reflexivity|eassumption]]|].
    + rewrite (ev_fill_alike p q) by done. rewrite Hsd, Htb. apply ms_fill_out; rewrite <- ?Htb; try done.
      rewrite <- Hst, <- Hcb. done.
    + rewrite Htb, Hsd. unfold close. cbn. rewrite Hb, Hq. split; [done|]. split; [done|]. lia.
  - eexists. split; [apply estep_next; split; [|eexists _, _; split; [reflexivity|eassumption]]|].
    + rewrite (ev_fill_alike p q) by done. rewrite Hsd, Htb. apply ms_fill; rewrite <- ?Htb; try done.
      rewrite <- Hst, <- Hcb. done.
    + rewrite Htb, Hsd. unfold close. cbn. rewrite Hb, Hq. split; [done|]. split; [done|]. lia.
Qed.
Lemma esteps_tighter p q min : tighter p q -> forall l os Ep lp osp l', close l l' ->
  esteps same_id p min l os Ep lp osp ->
  forall Eq lq osq x, esteps same_id q min l' os Eq lq osq -> estep same_id q min lq osq = EBreak x ->
  exists R lp', close lp lp' /\ Eq = Ep ++ R /\ esteps same_id q min lp' osp R lq osq.
Proof.
  intros Ht l os Ep lp osp l' Hcl Hp. revert l' Hcl.
  induction Hp as [l os|l os l1 os1 E1 E2 l2 os2 Hs Hp IH]; intros l' Hcl Eq lq osq x Hq Hx.
  - by exists Eq, l'.
  - destruct (estep_tighter _ _ _ _ _ _ _ _ _ Ht Hcl Hs) as (l1'&Hs'&Hcl1).
    inversion Hq as [|? ? l1'' os1' E1' E2' ? ? Hs'' Hq']; subst; [congruence|].
    rewrite Hs' in Hs''. injection Hs'' as <- <- <-.
    destruct (IH _ Hcl1 _ _ _ _ Hq' Hx) as (R&lp'&H1&->&H3).
    exists R, lp'. split; [done|]. split; [by rewrite app_assoc|done].
Qed.

(** Less base: lockstep until the base is used up. *)
Lemma quote_of_mono sd a b price : a <= b -> quote_of sd a price <= quote_of sd b price.
Proof.
  intros H. destruct sd; cbn; apply N.div_le_mono; try lia.
  - apply N.add_le_mono_r, N.mul_le_mono_r, H.
  - apply N.mul_le_mono_r, H.
Qed.
Lemma exhausted p min l os E l' os' : esteps same_id p min l os E l' os' ->
  (forall o rest, os = o :: rest -> trade_base l o = 0) -> E = [] /\ os' = os /\ l' = l.
Proof.
  inversion 1 as [|? ? ? ? ? ? ? ? Hs]; subst; [done|]. intros Hz. exfalso.
  apply estep_next in Hs as [_ (o&rest&->&[_ _ _ Hb _])]. rewrite (Hz o rest eq_refl) in Hb. lia.
Qed.
Lemma afford_mono a b price : a <= b -> afford a price <= afford b price.
Proof.
  intros H. unfold afford, fp32_div. destruct (N.eqb_spec price 0); [done|]. unfold to_u64.
  assert (Hd : a * p32 / price <= b * p32 / price) by (apply N.div_le_mono; lia).
  destruct (N.ltb_spec (a * p32 / price) p64), (N.ltb_spec (b * p32 / price) p64); cbn; lia.
Qed.
(** One step of both, on the same book: what is common. *)
Definition below (l l' : locals) : Prop := l_base l <= l_base l' /\ l_quote l <= l_quote l' /\ l_limit l = l_limit l'.
Lemma trade_base_mono l l' (o : order C) : below l l' -> trade_base l o <= trade_base l' o.
Proof. intros (Hb&Hq&_). unfold trade_base. pose proof (afford_mono _ _ (o_price o) Hq). lia. Qed.
Lemma engaged_below p q l l' o : alike p q -> limit_price p = limit_price q -> below l l' ->
  engaged p l o -> engaged q l' o.
Proof.
  intros (Hs&_&_&Hpo) Hlim Hbl [H1 H2 H3 H4 H5]. pose proof (trade_base_mono _ _ o Hbl) as Ht.
  destruct Hbl as (_&_&Hl). split; [lia|congruence|by rewrite <- Hs, <- Hlim|lia|].
  rewrite <- Hs. pose proof (quote_of_mono (p_side p) _ _ (o_price o) Ht). lia.
Qed.
(** Each side of the fork. *)
Lemma estep_below p q min l l' os l1 os1 E : alike p q -> limit_price p = limit_price q -> below l l' ->
  locals_typed l' -> Forall order_typed os ->
  estep same_id p min l os = ENext l1 os1 E ->
  exists l1' os1' E', estep same_id q min l' os = ENext l1' os1' E' /\
  ((E' = E /\ os1' = os1 /\ below l1 l1') \/
   exists o rest, os = o :: rest /\ trade_base l o < trade_base l' o /\
     sumN fill_base E = trade_base l o /\ sumN fill_base E' = trade_base l' o /\
     l_base l1 = l_base l - trade_base l o /\ l_quote l1 = l_quote l - quote_of (p_side p) (trade_base l o) (o_price o) /\
     (os1 = rest \/ os1 = (mk_leaf (o_id o) (o_qty o - trade_base l o), o_cb o) :: rest)).
Proof.
  intros Hal Hlim Hbl Hty Hot Hs. apply estep_next in Hs as [Hm (o&rest&->&He)].
  pose proof (engaged_below _ _ _ _ _ Hal Hlim Hbl He) as He'.
  pose proof (trade_base_mono _ _ o Hbl) as Hle.
  pose proof Hal as (Hsd&Hcb&Hst&_). pose proof Hbl as (Hb&Hq&Hl).
  apply Forall_cons in Hot as [Ho _].
  inversion Hm as [? ? H1 H2|? ? ? ? H1 -> -> H4|? ? ? ? H1 -> -> H4]; subst.
  - assert (H1' : stb q = CancelProvide) by congruence.
    assert (H2' : same_id (p_callback q) (o_cb o) = true) by congruence.
    pose proof (ms_cancel same_id q min l' o os1 H1' H2') as Hstep.
    do 3 eexists. split; [apply estep_next; split; [exact Hstep|eexists _, _; split; [reflexivity|eassumption]]|].
    left. rewrite Hsd. split; [done|]. split; [done|]. unfold below. cbn. lia.
  - assert (H1' : stb q = DecrementTake \/ same_id (p_callback q) (o_cb o) = false) by (by rewrite <- Hst, <- Hcb).
    assert (Hm' : o_qty o - trade_base l' o < min) by lia.
    pose proof (ms_fill_out same_id q min l' o os1 _ _ H1' eq_refl eq_refl Hm') as Hstep.
    do 3 eexists. split; [apply estep_next; split; [exact Hstep|eexists _, _; split; [reflexivity|eassumption]]|].
    destruct (N.eq_dec (trade_base l o) (trade_base l' o)) as [Heq|Hne].
    + left. rewrite (ev_fill_alike p q), Heq, Hsd by done. split; [done|]. split; [done|].
      unfold below. cbn. rewrite Hl. split; [lia|]. split; [lia|done].
    + right. exists o, os1. split; [done|]. split; [lia|]. split; [cbn; lia|]. split; [cbn; lia|].
      split; [done|]. split; [done|]. by left.
  - assert (H1' : stb q = DecrementTake \/ same_id (p_callback q) (o_cb o) = false) by (by rewrite <- Hst, <- Hcb).
    destruct (N.ltb_spec (o_qty o - trade_base l' o) min) as [Hm'|Hm'].
    + pose proof (ms_fill_out same_id q min l' o rest _ _ H1' eq_refl eq_refl Hm') as Hstep.
      do 3 eexists. split; [apply estep_next; split; [exact Hstep|eexists _, _; split; [reflexivity|eassumption]]|].
      right. exists o, rest. split; [done|]. split; [lia|]. split; [cbn; lia|]. split; [cbn; lia|].
      split; [done|]. split; [done|]. by right.
    + pose proof (ms_fill same_id q min l' o rest _ _ H1' eq_refl eq_refl Hm') as Hstep.
      do 3 eexists. split; [apply estep_next; split; [exact Hstep|eexists _, _; split; [reflexivity|eassumption]]|].
      destruct (N.eq_dec (trade_base l o) (trade_base l' o)) as [Heq|Hne].
      * left. rewrite (ev_fill_alike p q), Heq, Hsd by done. split; [done|]. split; [done|].
        unfold below. cbn. rewrite Hl. split; [lia|]. split; [lia|done].
      * right. exists o, rest. split; [done|]. split; [lia|]. split; [cbn; lia|]. split; [cbn; lia|].
        split; [done|]. split; [done|]. by right.
Qed.

(** Runs of both, up to the fork.  [fork] says that after the fork the smaller one is done. *)
Lemma esteps_below p q min (I : locals -> locals -> list (order C) -> Prop) :
  alike p q -> limit_price p = limit_price q ->
  (forall l l' os l1 l1' os1 E, I l l' os -> Forall order_typed os -> locals_typed l -> 
     estep same_id p min l os = ENext l1 os1 E -> estep same_id q min l' os = ENext l1' os1 E -> I l1 l1' os1) ->
  (forall l l' o rest l1 os1 E, I l l' (o :: rest) -> Forall order_typed (o :: rest) -> locals_typed l -> below l l' ->
     trade_base l o < trade_base l' o -> estep same_id p min l (o :: rest) = ENext l1 os1 E ->
     l_base l1 = l_base l - trade_base l o ->
     l_quote l1 = l_quote l - quote_of (p_side p) (trade_base l o) (o_price o) ->
     os1 = rest \/ os1 = (mk_leaf (o_id o) (o_qty o - trade_base l o), o_cb o) :: rest ->
     forall x r, os1 = x :: r -> trade_base l1 x = 0) ->
  forall l os Ep lp osp l', below l l' -> I l l' os -> locals_typed l -> locals_typed l' -> Forall order_typed os ->
  esteps same_id p min l os Ep lp osp ->
  forall Eq lq osq x, esteps same_id q min l' os Eq lq osq -> estep same_id q min lq osq = EBreak x ->
  (exists R, Eq = Ep ++ R) \/
  (exists E0 e e' R (o : order C) l0 l0', Ep = E0 ++ e /\ Eq = E0 ++ e' ++ R /\ sumN fill_base e = trade_base l0 o /\
     sumN fill_base e' = trade_base l0' o /\ trade_base l0 o < trade_base l0' o /\
     l_base lp = l_base l0 - trade_base l0 o /\ below l0 l0' /\ (exists rest, I l0 l0' (o :: rest)) /\
     l_quote lp = l_quote l0 - quote_of (p_side p) (trade_base l0 o) (o_price o)).
Proof.
  intros Hal Hlim HI Hfork l os Ep lp osp l' Hbl Hi Hty Hty' Hot Hp. revert l' Hbl Hi Hty'.
  induction Hp as [l os|l os l1 os1 E1 E2 l2 os2 Hs Hp IH]; intros l' Hbl Hi Hty' Eq lq osq x Hq Hx.
  - left. by exists Eq.
  - destruct (estep_typed _ _ _ _ _ _ _ _ Hs Hty Hot) as (Ht1&Ht2&_).
    destruct (estep_below _ _ _ _ _ _ _ _ _ Hal Hlim Hbl Hty' Hot Hs) as (l1'&os1'&E1'&Hs'&Hcase).
    destruct (estep_typed _ _ _ _ _ _ _ _ Hs' Hty' Hot) as (Ht1'&Ht2'&_).
    inversion Hq as [|? ? l1'' os1'' E1'' E2' ? ? Hs'' Hq']; subst; [congruence|].
    rewrite Hs' in Hs''. injection Hs'' as <- <- <-.
    destruct Hcase as [(->&->&Hbl1)|(o&rest&->&Hlt&Hsum&Hsum'&Hb1&Hq1&Hos)].
    + destruct (IH Ht1 Ht2 l1' Hbl1 ltac:(by eapply HI) Ht1' _ _ _ _ Hq' Hx)
        as [[R ->]|(E0&e&e'&R&o&l0&l0'&->&->&H)].
      * left. exists R. by rewrite app_assoc.
      * right. exists (E1 ++ E0), e, e', R, o, l0, l0'. rewrite !app_assoc. done.
    + right. destruct (exhausted _ _ _ _ _ _ _ Hp) as (->&->&->).
      { eapply (Hfork l l' o rest); eauto. }
      exists [], E1, E1', E2', o, l, l'. rewrite app_nil_r. split_and!; try done. by exists rest.
Qed.

Lemma estep_sums p min l os l1 os1 E : estep same_id p min l os = ENext l1 os1 E ->
  locals_typed l -> Forall order_typed os ->
  l_base l = l_base l1 + sumN fill_base E /\ l_quote l = l_quote l1 + sumN fill_quote E.
Proof.
  intros Hs Hl Ho. eapply esteps_sums; [|done|done]. rewrite <- (app_nil_r E). econstructor; [done|constructor].
Qed.
Lemma esteps_less_base p q min : alike p q -> limit_price p = limit_price q ->
  forall l os Ep lp osp l', l_base l <= l_base l' -> l_quote l = l_quote l' -> l_limit l = l_limit l' ->
  locals_typed l -> locals_typed l' -> Forall order_typed os ->
  esteps same_id p min l os Ep lp osp ->
  forall Eq lq osq x, esteps same_id q min l' os Eq lq osq -> estep same_id q min lq osq = EBreak x ->
  (exists R, Eq = Ep ++ R) \/ (sumN fill_base Ep = l_base l /\ sumN fill_base Ep < sumN fill_base Eq).
Proof.
  intros Hal Hlim l os Ep lp osp l' Hb Hq Hl Hty Hty' Hot Hp Eq lq osq x HQ Hx.
  destruct (esteps_below p q min (fun l l' os => l_quote l = l_quote l' /\ locals_typed l') Hal Hlim) with
    (l := l) (os := os) (Ep := Ep) (lp := lp) (osp := osp) (l' := l') (Eq := Eq) (lq := lq) (osq := osq) (x := x)
    as [HR|(E0&e&e'&R&o&l0&l0'&->&->&He&He'&Hlt&Hlb&Hbl&(rest0&Hq0&_)&_)]; try done.
  - intros k k' ks k1 k1' ks1 E [Hk Hk'] Hks Hkt H1 H2. 
    destruct (estep_sums _ _ _ _ _ _ _ H1 Hkt Hks) as [_ ?]. destruct (estep_sums _ _ _ _ _ _ _ H2 Hk' Hks) as [_ ?].
    split; [lia|]. by destruct (estep_typed _ _ _ _ _ _ _ _ H2 Hk' Hks).
  - intros k k' o rest k1 ks1 E [Hk _] Hks Hkt (_&_&_) Hlt _ Hb1 _ _ y r _.
    unfold trade_base in *. rewrite Hk in *. lia.
  - split; [lia|]. split; [lia|done].
  - by left.
  - right. destruct (esteps_sums _ _ _ _ _ _ _ _ Hp Hty Hot) as [Hs _].
    assert (l_base lp = 0).
    { unfold trade_base in *. rewrite Hq0 in *. lia. }
    rewrite !sumN_app in *. lia.
Qed.

(** Bids: with less base and less quote. *)
Definition up os : Prop := Forall (fun o => 0 < o_price o) os /\ StronglySorted (fun x y : order C => o_price x <= o_price y) os.
Lemma up_step p min l os l1 os1 E : estep same_id p min l os = ENext l1 os1 E -> up os -> up os1.
Proof.
  intros Hs [Hf Hss]. apply estep_next in Hs as [Hm (o&rest&->&_)].
  apply Forall_cons in Hf as [Ho Hf]. apply StronglySorted_inv in Hss as [Hss Hall].
  inversion Hm; subst; try (by split).
  split; [by constructor|]. by constructor.
Qed.
Lemma afford_rest quote price price' : 0 < price -> price <= price' -> 
  forall t, t = afford quote price -> t < u64_max -> afford (quote - quote_of Bid t price) price' = 0.
Proof.
  intros Hp Hpp t Ht Hlt. 
  assert (H1 : quote * p32 < (t + 1) * price) by (apply afford_max; lia).
  assert (H2 : t * price <= quote * p32) by (apply afford_spec; lia).
  unfold afford, fp32_div. destruct (N.eqb_spec price' 0); [lia|].
  assert (Hr : (quote - quote_of Bid t price) * p32 < price').
  { unfold quote_of. set (c := (t * price + (p32 - 1)) / p32).
    assert (Hc : t * price <= c * p32).
    { pose proof (N.mul_succ_div_gt (t * price + (p32 - 1)) p32 ltac:(lia)) as H. fold c in H. lia. }
    lia. }
  rewrite N.div_small by done. done.
Qed.
Lemma esteps_less_funds p q min : p_side p = Bid -> alike p q -> limit_price p = limit_price q ->
  forall l os Ep lp osp l', l_base l <= l_base l' -> l_quote l <= l_quote l' -> l_limit l = l_limit l' ->
  locals_typed l -> locals_typed l' -> Forall order_typed os -> up os ->
  esteps same_id p min l os Ep lp osp ->
  forall Eq lq osq x, esteps same_id q min l' os Eq lq osq -> estep same_id q min lq osq = EBreak x ->
  (exists R, Eq = Ep ++ R) \/ sumN fill_base Ep < sumN fill_base Eq.
Proof.
  intros Hbid Hal Hlim l os Ep lp osp l' Hb Hq Hl Hty Hty' Hot Hup Hp Eq lq osq x HQ Hx.
  destruct (esteps_below p q min (fun l l' os => up os) Hal Hlim) with
    (l := l) (os := os) (Ep := Ep) (lp := lp) (osp := osp) (l' := l') (Eq := Eq) (lq := lq) (osq := osq) (x := x)
    as [HR|(E0&e&e'&R&o&l0&l0'&->&->&He&He'&Hlt&Hlb&Hbl&_)]; try done.
  - intros k k' ks k1 k1' ks1 E Hk _ _ H1 _. by eapply up_step.
  - intros k k' o rest k1 ks1 E Hk Hks Hkt Hbl Hlt Hs Hb1 Hq1 Hos y r ->.
    pose proof (up_step _ _ _ _ _ _ _ Hs Hk) as [Hy _].
    assert (Hpy : o_price o <= o_price y).
    { destruct Hk as [_ Hk]. apply StronglySorted_inv in Hk as [_ Hall].
      destruct Hos as [Hos|Hos]; [subst rest; by apply Forall_cons in Hall as [? _]|]. by injection Hos as -> _. }
    destruct Hk as [Hpos _]. apply Forall_cons in Hpos as [Hpos _].
    apply Forall_cons in Hks as [[_ Ho] _]. destruct Hbl as (Hb2&Hq2&_).
    pose proof (afford_mono _ _ (o_price o) Hq2) as Haf.
    destruct (N.le_gt_cases (l_base k) (trade_base k o)) as [Hle|Hgt].
    { unfold trade_base in *. lia. }
    assert (Ht : trade_base k o = afford (l_quote k) (o_price o)) by (unfold trade_base in *; lia).
    assert (Hz : afford (l_quote k1) (o_price y) = 0).
    { rewrite Hq1, Hbid. apply afford_rest; try done. unfold trade_base in *. lia. }
    unfold trade_base. rewrite Hz. lia.
  - by left.
  - right. rewrite !sumN_app. lia.
Qed.

(** ** On markets *)
Notation reachable := (reachable same_id).
Lemma newo_matched c m p sm m' L pend l1 l E1 E2 own' opp' :
  newo same_id c m p sm m' L pend l1 l E1 E2 own' opp' -> matched (p_side p) m m' = E1.
Proof.
  intros H. unfold matched. rewrite (no_emit _ _ _ _ _ _ _ _ _ _ _ _ _ _ H).
  rewrite (no_rest0 _ _ _ _ _ _ _ _ _ _ _ _ _ _ H).
  assert (Hin : forall ev : event_ref C, existsb (N.eqb (event_id ev))
            (map o_id (prio (opposite (p_side p)) (L (opposite (p_side p))))) = true <->
            event_id ev ∈ map o_id (L (opposite (p_side p)))).
  { intros ev. rewrite existsb_exists. rewrite <- prio_map. split.
    - intros (y&Hy&->%N.eqb_eq). by apply elem_of_list_In, prio_elem in Hy.
    - intros Hy. exists (event_id ev). split; [by apply elem_of_list_In, prio_elem|apply N.eqb_refl]. }
  rewrite List.filter_app.
  assert (Hf1 : forall F, (forall ev, ev ∈ F -> ev ∈ E1) -> List.filter (fun ev => existsb (N.eqb (event_id ev))
            (map o_id (prio (opposite (p_side p)) (L (opposite (p_side p)))))) F = F).
  { induction F as [|ev F IH]; intros HF; [done|]. cbn [List.filter].
    rewrite (proj2 (Hin ev)); [by rewrite IH; [|intros; apply HF; right]|].
    eapply no_E1_opp; [exact H|]. apply HF. left. }
  assert (Hf2 : forall F, (forall ev, ev ∈ F -> ev ∈ E2) -> List.filter (fun ev => existsb (N.eqb (event_id ev))
            (map o_id (prio (opposite (p_side p)) (L (opposite (p_side p)))))) F = []).
  { induction F as [|ev F IH]; intros HF; [done|]. cbn [List.filter].
    destruct (existsb _ _) eqn:Ex; [|apply IH; intros; apply HF; by right]. exfalso.
    apply Hin in Ex. destruct (no_E2_own _ _ _ _ _ _ _ _ _ _ _ _ _ _ H ev) as [Hown _]; [apply HF; left|].
    by eapply (no_disjoint _ _ _ _ _ _ _ _ _ _ _ _ _ _ H). }
  rewrite Hf1, Hf2 by done. apply app_nil_r.
Qed.
Lemma minv_L c m L pend L' pend' sd : minv c m L pend -> minv c m L' pend' -> L sd = L' sd.
Proof.
  intros H H'. pose proof (minv_resting _ _ _ _ sd H) as E. rewrite (minv_resting _ _ _ _ sd H') in E.
  apply (f_equal (prio sd)) in E. by rewrite !prio_prio in E.
Qed.
Lemma accepted_newo c m p sm m' : accepted same_id c m p sm m' ->
  exists L pend l1 l E1 E2 own' opp', newo same_id c m p sm m' L pend l1 l E1 E2 own' opp'.
Proof.
  intros (Hr&Ht&He). destruct (new_order_inv _ _ _ _ _ _ Hr Ht He) as (sm'&L&pend&l1&l&E1&E2&own'&opp'&[= ->]&Hn).
  by exists L, pend, l1, l, E1, E2, own', opp'.
Qed.
Lemma newo_sum c m p sm m' L pend l1 l E1 E2 own' opp' :
  newo same_id c m p sm m' L pend l1 l E1 E2 own' opp' ->
  sumN fill_base (emitted m m') = sumN fill_base E1.
Proof.
  intros H. rewrite (no_emit _ _ _ _ _ _ _ _ _ _ _ _ _ _ H), sumN_app.
  assert (sumN fill_base E2 = 0); [|lia]. apply sumN_zero. intros ev Hev.
  destruct (no_E2_own _ _ _ _ _ _ _ _ _ _ _ _ _ _ H ev Hev) as [_ Hf]. by destruct ev.
Qed.
Lemma minv_up c m L pend : minv c m L pend -> seq_of m < p63 -> up (L Ask).
Proof.
  intros H Hs. pose proof (minv_sorted _ _ _ _ Ask H) as Hss. unfold sorted in Hss. cbn [before] in Hss.
  assert (Hok : forall o, o ∈ L Ask -> o_price o = id_price (o_id o) /\ 0 < o_price o).
  { intros o Ho. pose proof (minv_ok _ _ _ _ _ _ H Ho) as Hok.
    apply order_ok_price in Hok as (?&?&_); [|done]. split; [done|lia]. }
  split; [apply Forall_forall; intros o Ho; by apply Hok|].
  revert Hok. induction Hss as [|o os Hss IH Hall]; intros Hok; constructor.
  - apply IH. intros x Hx. apply Hok. by right.
  - apply Forall_forall. intros y Hy. rewrite Forall_forall in Hall. specialize (Hall y Hy).
    destruct (Hok o ltac:(left)) as [-> _]. destruct (Hok y ltac:(by right)) as [-> _].
    unfold id_price. apply N.div_le_mono; lia.
Qed.
Theorem tighter_prefix c m p q smp mp smq mq : accepted same_id c m p smp mp -> accepted same_id c m q smq mq ->
  tighter p q -> exists R, matched (p_side q) m mq = matched (p_side p) m mp ++ R.
Proof.
  intros (L&pend&l1&l&E1&E2&own'&opp'&Hp)%accepted_newo (L'&pend'&l1'&l'&E1'&E2'&own''&opp''&Hq)%accepted_newo Ht.
  rewrite (newo_matched _ _ _ _ _ _ _ _ _ _ _ _ _ Hp), (newo_matched _ _ _ _ _ _ _ _ _ _ _ _ _ Hq).
  pose proof Ht as ((Hsd&_)&_&Hml&Hb&Hqq).
  pose proof (no_steps _ _ _ _ _ _ _ _ _ _ _ _ _ _ Hp) as Hsp.
  pose proof (no_steps _ _ _ _ _ _ _ _ _ _ _ _ _ _ Hq) as Hsq.
  rewrite <- Hsd, <- (minv_L _ _ _ _ _ _ (opposite (p_side p)) (no_inv _ _ _ _ _ _ _ _ _ _ _ _ _ _ Hp)
    (no_inv _ _ _ _ _ _ _ _ _ _ _ _ _ _ Hq)) in Hsq.
  assert (Hcl : close (l_init p) (l_init q)) by (split; [done|split; [done|exact Hml]]).
  destruct (esteps_tighter p q _ Ht _ _ _ _ _ (l_init q) Hcl Hsp _ _ _ _ Hsq
    (no_break _ _ _ _ _ _ _ _ _ _ _ _ _ _ Hq)) as (R&_&_&H&_). by exists R.
Qed.
Lemma stb_abort p q l l' o : tighter p q -> close l l' -> engaged p l o -> stb p = AbortTransaction ->
  same_id (p_callback p) (o_cb o) = true -> forall min rest, estep same_id q min l' (o :: rest) = EAbort.
Proof.
  intros Ht Hcl He Hs Hid min rest. destruct (engaged_tighter _ _ _ _ _ Ht Hcl He) as [H1 H2 H3 H4 H5].
  destruct Ht as ((_&Hcb&Hst&_)&_). unfold estep.
  destruct (N.eqb_spec (l_limit l') 0); [lia|]. rewrite H2, H3. cbn [orb negb].
  destruct (N.eqb_spec (trade_base l' o) 0); [lia|].
  destruct (N.eqb_spec (quote_of (p_side q) (trade_base l' o) (o_price o)) 0); [lia|].
  unfold is_self. by rewrite <- Hst, Hs, <- Hcb, Hid.
Qed.
Theorem tighter_accepted c m p q smq mq : accepted same_id c m q smq mq -> tighter p q ->
  op_typed (NewOrder p) -> (c_tick c | limit_price p) -> post_allowed p = false ->
  exists smp mp, exec same_id (NewOrder p) m = (Ok (Some smp), mp).
Proof.
  intros (Hr&Htyq&Heq) Ht Hty Hdiv Hpa.
  destruct (new_order_cases _ _ _ _ _ _ Hr Htyq Heq) as [(?&_)|(L&pend&Hc&Hinv&Hseq&_&Hq)]; [done|].
  destruct (enew same_id q _ _ _ _ _) as [Eq xq].
  destruct Hq as [(?&_)|[(?&_)|(sm&l1'&l'&E1'&E2'&own''&opp''&_&Hfit&->&_&Hq)]]; [done|done|].
  destruct (exec same_id (NewOrder p) m) as [r mp] eqn:He.
  pose proof (exec_new_order same_id c m L pend p Hc Hinv Hty Hseq) as Hex. cbn zeta in Hex.
  destruct (price_bad c p) eqn:Hbad.
  { exfalso. unfold price_bad in Hbad. rewrite Hpa in Hbad. cbn [andb] in Hbad.
    rewrite orb_false_r in Hbad. apply negb_true_iff, N.eqb_neq in Hbad. apply Hbad.
    apply N.mod_divide; [|done]. destruct Hc as (_&?&_). lia. }
  pose proof Ht as ((Hsd&_)&_&Hml&Hb&Hqq).
  pose proof (no_steps _ _ _ _ _ _ _ _ _ _ _ _ _ _ Hq) as Hsq. rewrite <- Hsd in Hsq.
  pose proof (no_break _ _ _ _ _ _ _ _ _ _ _ _ _ _ Hq) as Hbq.
  assert (Hpre : forall E l os, esteps same_id p (c_min c) (l_init p) (L (opposite (p_side p))) E l os ->
    exists R lp', close l lp' /\ E1' = E ++ R /\ esteps same_id q (c_min c) lp' os R l1' opp'').
  { intros E l os Hs. eapply esteps_tighter; [exact Ht| |exact Hs|exact Hsq|exact Hbq].
    split; [done|split; [done|exact Hml]]. }
  unfold enew, ematch in Hex.
  destruct (eloop same_id (S (N.to_nat (match_limit p))) p (c_min c) (l_init p) (L (opposite (p_side p))))
    as [E1 [l os|]] eqn:El.
  - apply eloop_fin in El as (l1&Hs&_). destruct (Hpre _ _ _ Hs) as (R&_&_&->&_).
    unfold epost in Hex. rewrite Hpa in Hex. cbn [negb] in Hex. rewrite orb_true_r in Hex. cbn [orb] in Hex.
    assert (Hf : fits c pend (E1 ++ []) = true).
    { unfold fits in *. rewrite !app_length in *. apply Nat.leb_le in Hfit. apply Nat.leb_le. cbn. lia. }
    rewrite Hf in Hex. destruct Hex as (m'&Hex&_). rewrite Hex in He. injection He as <- <-. by eexists _, _.
  - exfalso. apply eloop_abort in El as (l1&os1&Hs&Hab).
    + destruct (Hpre _ _ _ Hs) as (R&lp'&Hcl&_&Hrun).
      apply estep_abort in Hab as (o&rest&->&Heng&Hst&Hid).
      pose proof (stb_abort _ _ _ _ _ Ht Hcl Heng Hst Hid (c_min c) rest) as Hab.
      inversion Hrun; subst; congruence.
    + cbn. lia.
    + by apply l_init_typed.
    + eapply minv_typed; done.
Qed.

Theorem less_base_fills c m p q smp mp smq mq : accepted same_id c m p smp mp -> accepted same_id c m q smq mq ->
  less_base p q ->
  sumN fill_base (emitted m mp) <= sumN fill_base (emitted m mq) /\
  ((exists R, matched (p_side q) m mq = matched (p_side p) m mp ++ R) \/ sumN fill_base (emitted m mp) = max_base_qty p).
Proof.
  intros (L&pend&l1&l&E1&E2&own'&opp'&Hp)%accepted_newo (L'&pend'&l1'&l'&E1'&E2'&own''&opp''&Hq)%accepted_newo
    (Hal&Hlim&Hml&Hb&Hqq).
  rewrite (newo_matched _ _ _ _ _ _ _ _ _ _ _ _ _ Hp), (newo_matched _ _ _ _ _ _ _ _ _ _ _ _ _ Hq).
  rewrite (newo_sum _ _ _ _ _ _ _ _ _ _ _ _ _ Hp), (newo_sum _ _ _ _ _ _ _ _ _ _ _ _ _ Hq).
  pose proof Hal as (Hsd&_).
  pose proof (no_steps _ _ _ _ _ _ _ _ _ _ _ _ _ _ Hp) as Hsp.
  pose proof (no_steps _ _ _ _ _ _ _ _ _ _ _ _ _ _ Hq) as Hsq.
  rewrite <- Hsd, <- (minv_L _ _ _ _ _ _ (opposite (p_side p)) (no_inv _ _ _ _ _ _ _ _ _ _ _ _ _ _ Hp)
    (no_inv _ _ _ _ _ _ _ _ _ _ _ _ _ _ Hq)) in Hsq.
  destruct (esteps_less_base p q (c_min c) Hal Hlim) with (l := l_init p) (l' := l_init q)
    (os := L (opposite (p_side p))) (Ep := E1) (lp := l1) (osp := opp') (Eq := E1') (lq := l1') (osq := opp'') (x := l')
    as [[R ->]|[H1 H2]]; try done.
  - eapply no_linit, Hp.
  - eapply no_linit, Hq.
  - eapply no_typed_opp, Hp.
  - eapply no_break, Hq.
  - split; [rewrite sumN_app; lia|]. left. by exists R.
  - split; [lia|]. by right.
Qed.
Theorem less_funds_fills c m p q smp mp smq mq : accepted same_id c m p smp mp -> accepted same_id c m q smq mq ->
  less_funds p q -> p_side p = Bid ->
  sumN fill_base (emitted m mp) <= sumN fill_base (emitted m mq).
Proof.
  intros (L&pend&l1&l&E1&E2&own'&opp'&Hp)%accepted_newo (L'&pend'&l1'&l'&E1'&E2'&own''&opp''&Hq)%accepted_newo
    (Hal&Hlim&Hml&Hb&Hqq) Hbid.
  rewrite (newo_sum _ _ _ _ _ _ _ _ _ _ _ _ _ Hp), (newo_sum _ _ _ _ _ _ _ _ _ _ _ _ _ Hq).
  pose proof Hal as (Hsd&_).
  pose proof (no_steps _ _ _ _ _ _ _ _ _ _ _ _ _ _ Hp) as Hsp.
  pose proof (no_steps _ _ _ _ _ _ _ _ _ _ _ _ _ _ Hq) as Hsq.
  rewrite <- Hsd, <- (minv_L _ _ _ _ _ _ (opposite (p_side p)) (no_inv _ _ _ _ _ _ _ _ _ _ _ _ _ _ Hp)
    (no_inv _ _ _ _ _ _ _ _ _ _ _ _ _ _ Hq)) in Hsq.
  destruct (esteps_less_funds p q (c_min c) Hbid Hal Hlim) with (l := l_init p) (l' := l_init q)
    (os := L (opposite (p_side p))) (Ep := E1) (lp := l1) (osp := opp') (Eq := E1') (lq := l1') (osq := opp'') (x := l')
    as [[R ->]|H]; try done.
  - eapply no_linit, Hp.
  - eapply no_linit, Hq.
  - eapply no_typed_opp, Hp.
  - rewrite Hbid. cbn [opposite]. eapply minv_up; [eapply no_inv, Hp|eapply no_seq, Hp].
  - eapply no_break, Hq.
  - rewrite sumN_app. lia.
  - lia.
Qed.
End Compare.
