(** Assignment and deletion by path; reading. *)
From Coq Require Import Ascii String.
From Verif Require Import Base Multidim MultilevelNd SwtNd SwtNdArgs Packets PacketsInv PacketsPath.

Section Path2.
Context {D : Type}.
Variable K : wpclass D.
Hypothesis HK : class_ok K.
Local Notation at_path := (@at_path D).

Lemma append_inj a p q : append a p = append a q -> p = q.
Proof. induction a; cbn; intros H; auto. injection H as H. auto. Qed.
Lemma dget_dremove_any {A} (d : dict A) k j : NoDup (map fst d) -> dget (dremove d k) j = if String.eqb k j then None else dget d j.
Proof.
  intros H. destruct (String.eqb_spec k j) as [<-|]; [apply dget_dremove; auto|apply dget_dremove_other; auto].
Qed.

(** Filled slots stay filled. *)
Definition slots (x x' : node D) : Prop := forall part c, dget (nkids x) part = Some c -> dget (nkids x') part = Some c.
Definition keeps_slots (h h' : nheap D) : Prop := forall k x, nth_error h k = Some x -> exists x', nth_error h' k = Some x' /\ slots x x'.
(** Filled slots and data stay. *)
Definition mono (h h' : nheap D) : Prop := forall k x, nth_error h k = Some x -> exists x', nth_error h' k = Some x' /\ slots x x' /\ ndat x' = ndat x.
Lemma mono_refl h : mono h h.
Proof. intros k x Hx. exists x. split; auto. split; auto. intros p c H; auto. Qed.
Lemma mono_trans a b c : mono a b -> mono b c -> mono a c.
Proof.
  intros H1 H2 k x Hx. destruct (H1 k x Hx) as (y & Hy & S1 & E1). destruct (H2 k y Hy) as (z & Hz & S2 & E2).
  exists z. split; auto. split; [intros p e He; auto|congruence].
Qed.
Lemma mono_keeps h h' : mono h h' -> keeps_slots h h'.
Proof. intros H k x Hx. destruct (H k x Hx) as (y & Hy & S & _). eauto. Qed.
Lemma keeps_trans a b c : keeps_slots a b -> keeps_slots b c -> keeps_slots a c.
Proof.
  intros H1 H2 k x Hx. destruct (H1 k x Hx) as (y & Hy & S1). destruct (H2 k y Hy) as (z & Hz & S2).
  exists z. split; auto. intros p e He; auto.
Qed.
Lemma at_keeps h h' n s c : keeps_slots h h' -> at_path h n s c -> at_path h' n s c.
Proof.
  intros H. induction 1 as [n x Hx|n x part k s d Hx Hk Hat IH]; destruct (H n x Hx) as (x' & Hx' & S); econstructor; eauto.
Qed.

Lemma mono_maxlevel n h : mono h (fst (maxlevel K n h)).
Proof.
  destruct (maxlevel_heap K n h) as [E|(x & v & Hx & _ & E)]; rewrite E; [apply mono_refl|].
  intros k y Hy. rewrite nth_set_nth by (eapply nth_lt; eauto). destruct (Nat.eqb_spec n k) as [<-|].
  - exists (set_max x v). replace y with x by congruence. repeat split; auto. intros p c H; auto.
  - exists y. repeat split; auto. intros p c H; auto.
Qed.
Lemma mono_create n part data h x : nth_error h n = Some x -> dget (nkids x) part = None -> mono h (fst (create_subnode K n part data h)).
Proof.
  intros Hx Hs. pose proof (mono_maxlevel n h) as M1.
  assert (KID : forall y, nth_error (fst (maxlevel K n h)) n = Some y -> nkids y = nkids x).
  { intros y Hy. destruct (maxlevel_heap K n h) as [E|(z & v & Hz & _ & E)]; rewrite E in Hy; [congruence|].
    rewrite nth_set_nth_same in Hy by (eapply nth_lt; eauto). injection Hy as <-. cbn. congruence. }
  destruct (create_cases K n part data h) as [(E & _)|(_ & [(E & _)|(m & y & _ & Hy & E)])]; rewrite E; cbn [fst]; auto using mono_refl.
  apply (mono_trans h (fst (maxlevel K n h))); auto. set (h1 := fst (maxlevel K n h)) in *. clearbody h1.
  pose proof (nth_lt _ _ _ Hy) as Ln. intros k z Hz. pose proof (nth_lt _ _ _ Hz) as Lk.
  rewrite nth_set_nth by (rewrite app_length; lia). destruct (Nat.eqb_spec n k) as [<-|].
  - replace z with y by congruence. eexists. split; [reflexivity|]. split; [|reflexivity]. intros p c Hc. cbn [nkids set_kid].
    rewrite dget_dset. destruct (String.eqb_spec part p) as [<-|]; auto. rewrite (KID y Hy), Hs in Hc. discriminate.
  - rewrite nth_error_app1 by auto. exists z. repeat split; auto. intros p c H; auto.
Qed.

Lemma fr_setitem_ f : forall n path d h, tree_ok K h -> (n < List.length h)%nat -> frame n h (fst (setitem_ K f n path d h)).
Proof.
  induction f as [|f IH]; intros n path d h Hh Hn; cbn [setitem_]; [apply frame_refl|].
  unfold bindM at 1. pose proof (fr_maxlevel K n h Hn) as F1. pose proof (ok_maxlevel K n h Hh) as (T1 & _).
  destruct (maxlevel K n h) as [h1 [m| | |e]]; cbn [fst] in *; auto. unfold bindM at 1, get at 1.
  destruct (nth_error h1 n) as [x|] eqn:Hx; [|exact F1]. destruct (too_long _ _ _); [exact F1|].
  destruct path as [|a path]; [eapply frame_trans; [exact F1|]; apply fr_put; auto; eapply nth_lt; eauto|].
  set (part := take (plen K) (String a path)). unfold bindM at 1.
  pose proof (fr_get_subnode K n part false h1 (nth_lt _ _ _ Hx)) as F2. pose proof (ok_get_subnode K HK n part false h1 T1) as (T2 & _).
  destruct (get_subnode K n part false h1) as [h2 [c| | |e]] eqn:E2; cbn [fst] in *; try (eapply frame_trans; eauto; fail).
  assert (F12 : frame n h h2) by (eapply frame_trans; eauto). assert (L2 : (n < List.length h2)%nat) by (destruct F12; lia).
  set (mm := match c with Some c0 => ret (Some c0) | None => _ end). 
  assert (F3 : frame n h2 (fst (mm h2))).
  { subst mm. destruct c; [apply frame_refl|]. apply fr_bind; auto; [apply fr_create|]. intros _. apply fr_get_subnode. }
  assert (T3 : tree_ok K (fst (mm h2))).
  { subst mm. destruct c; [exact T2|]. refine (proj1 (ok_bind K h2 _ _ (ok_create K HK n part None h2) _ T2)). intros. apply ok_get_subnode; auto. }
  assert (S3 : forall h3 e, mm h2 = (h3, Ok (Some e)) -> exists x, nth_error h3 n = Some x /\ dget (nkids x) part = Some e).
  { subst mm. intros h3 e. destruct c as [c|].
    - intros E. injection E as <- <-. apply (get_subnode_slot K n part false h1 h2 c E2).
    - unfold bindM. destruct (create_subnode K n part None h2) as [h4 [u| | |e4]]; try discriminate.
      intros E. apply (get_subnode_slot K n part false h4 h3 e E). }
  clearbody mm. unfold bindM. destruct (mm h2) as [h3 [[e|]| | |e]]; cbn [fst] in *; try (eapply frame_trans; eauto; fail).
  destruct (S3 h3 e eq_refl) as (y & Hy & He). destruct (tree_slot K h3 n y part e T3 Hy He) as (L & z & Hz).
  eapply frame_trans; [eapply frame_trans; eauto|]. apply (frame_le n e); [lia|]. apply IH; auto. eapply nth_lt; eauto.
Qed.

(** Assignment stores the data under the path and changes no other data or slot. *)
Lemma setitem_at_ f : forall n path d h h', tree_ok K h -> setitem_ K f n path d h = (h', Ok tt) ->
  keeps_slots h h' /\ exists c, at_path h' n path c /\ (exists y, nth_error h' c = Some y /\ ndat y = Some d) /\
    forall k x, nth_error h k = Some x -> k <> c -> exists x', nth_error h' k = Some x' /\ ndat x' = ndat x.
Proof.
  induction f as [|f IH]; intros n path d h h' Hh; cbn [setitem_]; [discriminate|].
  destruct (nth_error h n) as [x0|] eqn:H0.
  2:{ unfold maxlevel, bindM, get. rewrite H0. discriminate. }
  unfold bindM at 1. pose proof (fr_maxlevel K n h (nth_lt _ _ _ H0)) as F1. pose proof (ok_maxlevel K n h Hh) as (T1 & _).
  pose proof (mono_maxlevel n h) as M1.
  destruct (maxlevel K n h) as [h1 [m| | |e]]; cbn [fst] in *; try discriminate. unfold bindM at 1, get at 1.
  destruct (nth_error h1 n) as [x|] eqn:Hx; [|discriminate]. destruct (too_long _ _ _); [discriminate|].
  destruct path as [|a path].
  { intros E. injection E as <-. pose proof (nth_lt _ _ _ Hx) as Ln.
    assert (S : keeps_slots h1 (set_nth n (set_data x (Some d)) h1)).
    { intros k y Hy. rewrite nth_set_nth by auto. destruct (Nat.eqb_spec n k) as [<-|]; [|exists y; split; auto; intros p c H; auto].
      eexists. split; [reflexivity|]. replace y with x by congruence. intros p c H; auto. }
    split; [eapply keeps_trans; [apply mono_keeps|]; eauto|]. exists n. split; [econstructor; rewrite nth_set_nth_same; auto|].
    split; [rewrite nth_set_nth_same by auto; eexists; split; reflexivity|].
    intros k y Hy Hk. destruct (M1 k y Hy) as (z & Hz & _ & Ez). exists z. rewrite nth_set_nth_other by auto. auto. }
  set (part := take (plen K) (String a path)). unfold bindM at 1.
  pose proof (ok_get_subnode K HK n part false h1 T1) as (T2 & _).
  assert (E2 : fst (get_subnode K n part false h1) = h1).
  { unfold get_subnode. destruct (negb _); [reflexivity|]. unfold bindM, get. rewrite Hx. destruct (dget (nkids x) part); reflexivity. }
  assert (N2 : snd (get_subnode K n part false h1) = Ok None -> dget (nkids x) part = None).
  { unfold get_subnode. destruct (negb _); [discriminate|]. unfold bindM, get. rewrite Hx. destruct (dget (nkids x) part); [discriminate|reflexivity]. }
  destruct (get_subnode K n part false h1) as [h2 [c| | |e]] eqn:Eg; cbn [fst snd] in *; try discriminate. subst h2.
  set (mm := match c with Some c0 => ret (Some c0) | None => _ end).
  assert (T3 : tree_ok K (fst (mm h1))).
  { subst mm. destruct c; [exact T1|]. refine (proj1 (ok_bind K h1 _ _ (ok_create K HK n part None h1) _ T1)). intros. apply ok_get_subnode; auto. }
  assert (S3 : forall h3 e, mm h1 = (h3, Ok (Some e)) -> mono h1 h3 /\ exists x, nth_error h3 n = Some x /\ dget (nkids x) part = Some e).
  { subst mm. intros h3 e. destruct c as [c|].
    - intros E. injection E as <- <-. split; [apply mono_refl|]. apply (get_subnode_slot K n part false h1 h1 c Eg).
    - pose proof (mono_create n part None h1 x Hx (N2 eq_refl)) as MC.
      unfold bindM. destruct (create_subnode K n part None h1) as [h4 [u| | |e4]]; try discriminate. cbn [fst] in MC.
      intros E. destruct (get_subnode_slot K n part false h4 h3 e E) as (_ & y & Hy & He). split; [|eauto].
      unfold get_subnode in E. destruct (negb _); [discriminate|]. unfold bindM, get in E.
      destruct (nth_error h4 n); [|discriminate]. destruct (dget (nkids n0) part); [injection E as <-; auto|discriminate]. }
  clearbody mm. unfold bindM. destruct (mm h1) as [h3 [[e|]| | |e]]; cbn [fst] in *; try discriminate.
  destruct (S3 h3 e eq_refl) as (M3 & y & Hy & He). destruct (tree_slot K h3 n y part e T3 Hy He) as (L & z & Hz).
  intros E. pose proof (fr_setitem_ f e (drop (plen K) (String a path)) d h3 T3 (nth_lt _ _ _ Hz)) as (_ & F4). rewrite E in F4. cbn [fst] in F4.
  destruct (IH _ _ _ _ _ T3 E) as (S4 & c4 & A4 & D4 & R4).
  assert (M13 : mono h h3) by (eapply mono_trans; eauto).
  split; [eapply keeps_trans; [apply mono_keeps|]; eauto|]. exists c4. split.
  { rewrite <- (take_drop (plen K) (String a path)). econstructor; [rewrite F4 by lia; exact Hy|exact He|exact A4]. }
  split; auto. intros k u Hu Hk. destruct (M13 k u Hu) as (v & Hv & _ & Ev). destruct (R4 k v Hv Hk) as (w & Hw & Ew). exists w. split; auto. congruence.
Qed.
Theorem setitem_at n path d h h' : tree_ok K h -> setitem K n path d h = (h', Ok tt) ->
  (forall m s c, at_path h m s c -> at_path h' m s c) /\
  exists c, at_path h' n path c /\ (exists y, nth_error h' c = Some y /\ ndat y = Some d) /\
    forall k x, nth_error h k = Some x -> k <> c -> exists x', nth_error h' k = Some x' /\ ndat x' = ndat x.
Proof.
  intros Hh E. destruct (setitem_at_ _ _ _ _ _ _ Hh E) as (S & R). split; auto. intros m s c. apply at_keeps. auto.
Qed.

(** ** Deletion *)
Lemma at_snoc h n s c : (forall k z t e, nth_error h k = Some z -> dget (nkids z) t = Some e -> t <> EmptyString) ->
  at_path h n s c -> s <> EmptyString -> exists q p x part, s = append q part /\ at_path h n q p /\
  nth_error h p = Some x /\ dget (nkids x) part = Some c.
Proof.
  intros Hh. induction 1 as [n x Hx|n x part k s d Hx Hk Hat IH]; intros Hs; [congruence|].
  destruct Hat as [k y Hy|k y part' k' s' d Hy Hk' Hat'].
  - exists EmptyString, n, x, part. rewrite append_nil_r. repeat split; auto. econstructor; eauto.
  - assert (Hs' : append part' s' <> EmptyString).
    { pose proof (Hh k y part' k' Hy Hk') as Hp. destruct part'; [congruence|discriminate]. }
    destruct (IH Hs') as (q & p & z & t & E & A & Hz & Ht). exists (append part q), p, z, t. split; [rewrite E; symmetry; apply append_assoc_s|].
    split; auto. econstructor; eauto.
Qed.
Lemma slot_nonempty h : tree_ok K h -> forall k z t e, nth_error h k = Some z -> dget (nkids z) t = Some e -> t <> EmptyString.
Proof.
  intros Hh k z t e Hz He. destruct (Hh k z Hz) as (_ & _ & _ & A4 & _). destruct (A4 t e He) as (Hp & _). destruct HK as (K1 & _ & K3).
  apply K3 in Hp. destruct t; [cbn in Hp; lia|discriminate].
Qed.
Lemma at_node h n s c : at_path h n s c -> exists x y, nth_error h n = Some x /\ nth_error h c = Some y.
Proof. induction 1 as [n x Hx|n x part k s d Hx Hk Hat (y & z & Hy & Hz)]; eauto. Qed.

(** After a deletion the path leads nowhere, and every path that does not start
    with it leads to the same node as before. *)
Theorem delitem_at n path h h' : tree_ok K h -> path <> EmptyString -> delitem K n path h = (h', Ok tt) ->
  exists h1 c, getitem K n path h = (h1, Ok c) /\
  (forall d, ~ at_path h' n path d) /\
  (forall s d, at_path h1 n s d -> (forall t, s <> append path t) -> at_path h' n s d) /\
  (forall k x, nth_error h1 k = Some x -> exists x', nth_error h' k = Some x' /\ ndat x' = ndat x).
Proof.
  intros Hh Hp. unfold delitem, bindM at 1. pose proof (ok_getitem_ K HK (S (String.length path)) n path h Hh) as (T1 & _).
  pose proof (getitem_at K HK n path h) as G. unfold getitem in *.
  destruct (getitem_ K (S (String.length path)) n path h) as [h1 [c| | |e]]; try discriminate. cbn [fst] in T1.
  specialize (G h1 c Hh eq_refl). intros E. exists h1, c. split; [reflexivity|].
  destruct (at_snoc h1 n path c (slot_nonempty h1 T1) G Hp) as (q & p & x & part & Eq & Aq & Hx & Hc).
  destruct (T1 p x Hx) as (ND & _ & _ & A4 & _). destruct (A4 part c Hc) as (Hpart & Lpc & y & Hy & Y1 & Y2 & Y3).
  destruct HK as (K1 & K2 & K3). pose proof (K3 part Hpart) as Elen.
  unfold bindM, get, put in E. rewrite Hy in E. rewrite Y1 in E. cbv zeta in E.
  assert (EL : last_part (plen K) (npath y) = part) by (rewrite Y2; apply last_part_app; lia).
  rewrite EL in E. destruct (String.eqb_spec part EmptyString) as [E0|]; [rewrite E0 in Elen; cbn in Elen; lia|].
  rewrite nth_set_nth_other in E by lia. rewrite Hx in E. injection E as <-.
  set (h' := set_nth p (set_kid x part None) (set_nth c (set_orphan y) h1)).
  pose proof (nth_lt _ _ _ Hx) as Lp. pose proof (nth_lt _ _ _ Hy) as Lc.
  assert (N : forall k, nth_error h' k = if Nat.eqb p k then Some (set_kid x part None) else if Nat.eqb c k then Some (set_orphan y) else nth_error h1 k).
  { intros k. unfold h'. rewrite nth_set_nth by (rewrite set_nth_length; auto). destruct (Nat.eqb p k); auto. rewrite nth_set_nth by auto. auto. }
  (* slots of h' are slots of h1 *)
  assert (B : forall k z', nth_error h' k = Some z' -> exists z, nth_error h1 k = Some z /\ slots z' z /\
              (forall t e, dget (nkids z) t = Some e -> (k = p /\ t = part) \/ dget (nkids z') t = Some e) /\ ndat z' = ndat z).
  { intros k z'. rewrite N. destruct (Nat.eqb_spec p k) as [<-|].
    - intros E. injection E as <-. exists x. split; auto. split; [|split; [|reflexivity]].
      + intros t e. cbn [nkids set_kid]. rewrite (dget_dremove_any _ _ _ ND). destruct (String.eqb part t); [discriminate|auto].
      + intros t e He. cbn [nkids set_kid]. rewrite (dget_dremove_any _ _ _ ND). destruct (String.eqb_spec part t) as [<-|]; auto.
    - destruct (Nat.eqb_spec c k) as [<-|].
      + intros E. injection E as <-. exists y. split; auto. split; [intros t e He; auto|]. split; auto.
      + intros E. exists z'. split; auto. split; [intros t e He; auto|]. split; auto. }
  assert (F : forall k z, nth_error h1 k = Some z -> exists z', nth_error h' k = Some z').
  { intros k z Hz. destruct (nth_error h' k) eqn:E; eauto. apply nth_error_None in E. unfold h' in E. rewrite !set_nth_length in E.
    apply nth_lt in Hz. lia. }
  assert (AB : forall a s d, at_path h' a s d -> at_path h1 a s d).
  { intros a s d H. apply (at_keeps h' h1); auto. intros k z' Hz'. destruct (B k z' Hz') as (z & Hz & S & _). eauto. }
  split; [|split].
  - intros d Hd. pose proof (AB _ _ _ Hd) as Hd1. assert (d = c) by (eapply at_path_fun; eauto; repeat split; auto). subst d.
    assert (NE : forall k z t e, nth_error h' k = Some z -> dget (nkids z) t = Some e -> t <> EmptyString).
    { intros k z' t e Hz' He. destruct (B k z' Hz') as (z & Hz & S & _). eapply (slot_nonempty h1); eauto. }
    pose proof (at_snoc h' n path c NE Hd Hp) as T'.
    destruct T' as (q' & p' & x' & part' & E' & _ & Hx' & Hc'). destruct (B p' x' Hx') as (z & Hz & S & _ & _).
    destruct (T1 p' z Hz) as (_ & _ & _ & A4' & _). destruct (A4' part' c (S _ _ Hc')) as (Hpart' & _ & y' & Hy' & Y1' & Y2' & _).
    assert (y' = y) by congruence. subst y'. assert (p' = p) by congruence. subst p'. assert (z = x) by congruence. subst z.
    assert (part' = part) by (rewrite Y2 in Y2'; apply append_inj in Y2'; auto). subst part'.
    rewrite N, Nat.eqb_refl in Hx'. injection Hx' as <-. cbn [nkids set_kid] in Hc'. rewrite (dget_dremove_any _ _ _ ND), String.eqb_refl in Hc'. discriminate.
  - (* follow the old path until it uses the removed slot *)
    assert (W : forall a s d, at_path h1 a s d -> at_path h' a s d \/ exists u t, s = append u (append part t) /\ at_path h1 a u p).
    { induction 1 as [a z Hz|a z t k s d Hz Hk Hat IH]; destruct (F a z Hz) as (z' & Hz'); destruct (B a z' Hz') as (w & Hw & _ & S & _).
      - left. econstructor; eauto.
      - assert (w = z) by congruence. subst w. destruct (S t k Hk) as [(-> & ->)|Hk'].
        + right. exists EmptyString, s. split; [reflexivity|]. econstructor; eauto.
        + destruct IH as [IH|(u & v & Eu & Au)]; [left; econstructor; eauto|].
          right. exists (append t u), v. split; [rewrite Eu; symmetry; apply append_assoc_s|]. econstructor; eauto. }
    intros s d Hd Hs. destruct (W n s d Hd) as [A|(u & t & Eu & Au)]; auto. exfalso.
    destruct (at_node _ _ _ _ Au) as (r & _ & Hr & _).
    assert (HK' : class_ok K) by (repeat split; auto).
    destruct (at_path_node K HK' h1 n u p T1 Au r Hr) as (z1 & Hz1 & P1 & _).
    destruct (at_path_node K HK' h1 n q p T1 Aq r Hr) as (z2 & Hz2 & P2 & _).
    assert (u = q) by (apply (append_inj (npath r)); congruence). subst u.
    apply (Hs t). rewrite Eq, append_assoc_s. auto.
  - intros k z Hz. destruct (F k z Hz) as (z' & Hz'). destruct (B k z' Hz') as (w & Hw & _ & _ & E). exists z'. split; auto. congruence.
Qed.
End Path2.
