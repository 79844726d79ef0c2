(** imran and imra2 on the terms of an analysis, the arguments mran and mra2 refuse, and their default level. *)
From Coq Require Import Ascii String.
From Verif Require Import Base BaseLemmas CConv Spec Lengths LengthsProofs Dwt Swt Multilevel Nd NdSpec Axis AxisProofs Multidim MultilevelNd MultilevelNdFacts SwtNd Mra MraProofs MranLoop.

Section M.
Variable C : CRing.
Add Ring Cring_ring_mrt : (rth C).

(** The keys agree and the position holds the array. *)
Definition at_heap (h : heap (C := C)) (c0 : nat) (e : string * nat) (e' : string * sarr C) : Prop :=
  fst e = fst e' /\ snd e <> c0 /\ nth_error h (snd e) = Some (val C (snd e')).
Definition at_heap2 (h : heap (C := C)) (c0 : nat) (c : nat) (v : sarr C) : Prop := c <> c0 /\ nth_error h c = Some (val C v).

Lemma hsum_dict h c0 (ds : list (dict nat)) (out : list (dict (sarr C))) idx : Forall2 (Forall2 (at_heap h c0)) ds out ->
  hsum C h (flat_map (map snd) ds) idx = psum C (fun '(_, v) => ndget (val C v) idx) (concat out).
Proof.
  induction 1 as [|d o ds out Hd _ IH]; [reflexivity|]. cbn [flat_map concat]. rewrite psum_app, <- IH. clear IH.
  induction Hd as [|[k c] [k' v] d o (E & Hne & Hn) _ IHd]; cbn [map app psum snd].
  - ring.
  - cbn [fst snd] in *. unfold hsum in *. cbn [fold_right]. rewrite IHd, Hn. ring.
Qed.
Lemma hsum_list h c0 ds (out : list (list (sarr C))) idx : Forall2 (Forall2 (at_heap2 h c0)) ds out ->
  hsum C h (concat ds) idx = psum C (fun v => ndget (val C v) idx) (concat out).
Proof.
  induction 1 as [|d o ds out Hd _ IH]; [reflexivity|]. cbn [concat]. rewrite psum_app, <- IH. clear IH.
  induction Hd as [|c v d o (Hne & Hn) _ IHd]; cbn [app psum].
  - ring.
  - unfold hsum in *. cbn [fold_right]. rewrite IHd, Hn. ring.
Qed.
Lemma Forall2_in {A B} (P : A -> B -> Prop) l l' x : Forall2 P l l' -> In x l -> exists y, In y l' /\ P x y.
Proof. induction 1 as [|a b l l' H _ IH]; (intros [E|Hi] || intros []); subst; [exists b; split; [left|]; auto|]. destruct (IH Hi) as (y & Hy & Hp). exists y. split; [right|]; auto. Qed.

Theorem imran_of_terms (h : heap (C := C)) c0 (ds : list (dict nat)) (cA : sarr C) (out : list (dict (sarr C))) (data : sarr C) :
  nth_error h c0 = Some (val C cA) -> Forall2 (Forall2 (at_heap h c0)) ds out -> sshape cA = sshape data ->
  (forall d k v, In d out -> In (k, v) d -> sshape v = sshape data) ->
  (forall idx, valid (sshape data) idx ->
     ndget (val C cA) idx [+] psum C (fun '(_, v) => ndget (val C v) idx) (concat out) = ndget (val C data) idx) ->
  exists h' y, imran h c0 ds = Ok (h', c0) /\ nth_error h' c0 = Some y /\ nshape y = sshape data /\
    forall idx, valid (sshape data) idx -> ndget y idx = ndget (val C data) idx.
Proof.
  intros H0 Hds Hs Ho Hsum.
  destruct (imran_sum C h c0 ds (sshape data)) as (h' & y & E & Hy & Hsh & Hv).
  - exists (val C cA). split; [auto|rewrite nshape_val; auto].
  - intros d k c Hd Hc. destruct (Forall2_in _ _ _ _ Hds Hd) as (o & Hoi & Hf). destruct (Forall2_in _ _ _ _ Hf Hc) as ([k' v] & Hvi & (_ & Hne & Hn)).
    cbn [snd] in *. split; auto. exists (val C v). split; [auto|rewrite nshape_val; eapply Ho; eauto].
  - exists h', y. repeat (split; [assumption|]). intros idx Hi. rewrite Hv by auto. rewrite <- Hsum by auto.
    rewrite <- (hsum_dict h c0 ds out idx Hds). unfold hsum. cbn [fold_right]. rewrite H0. reflexivity.
Qed.

Theorem imra2_of_terms (h : heap (C := C)) c0 (ds : list (list nat)) (cA : sarr C) (out : list (list (sarr C))) (data : sarr C) :
  nth_error h c0 = Some (val C cA) -> Forall2 (Forall2 (at_heap2 h c0)) ds out -> sshape cA = sshape data ->
  (forall d, In d out -> List.length d = 3%nat /\ forall v, In v d -> sshape v = sshape data) ->
  (forall idx, valid (sshape data) idx ->
     ndget (val C cA) idx [+] psum C (fun v => ndget (val C v) idx) (concat out) = ndget (val C data) idx) ->
  exists h' y, imra2 h c0 ds = Ok (h', c0) /\ nth_error h' c0 = Some y /\ nshape y = sshape data /\
    forall idx, valid (sshape data) idx -> ndget y idx = ndget (val C data) idx.
Proof.
  intros H0 Hds Hs Ho Hsum.
  destruct (imra2_sum C h c0 ds (sshape data)) as (h' & y & E & Hy & Hsh & Hv).
  - exists (val C cA). split; [auto|rewrite nshape_val; auto].
  - intros d Hd. destruct (Forall2_in _ _ _ _ Hds Hd) as (o & Hoi & Hf). replace (List.length d) with (List.length o); [apply (Ho o Hoi)|]. clear -Hf. induction Hf; cbn; auto.
  - intros d c Hd Hc. destruct (Forall2_in _ _ _ _ Hds Hd) as (o & Hoi & Hf). destruct (Forall2_in _ _ _ _ Hf Hc) as (v & Hvi & (Hne & Hn)).
    split; auto. exists (val C v). split; [auto|rewrite nshape_val; apply (Ho o Hoi); auto].
  - exists h', y. repeat (split; [assumption|]). intros idx Hi. rewrite Hv by auto. rewrite <- Hsum by auto.
    rewrite <- (hsum_list h c0 ds out idx Hds). unfold hsum. cbn [fold_right]. rewrite H0. reflexivity.
Qed.

Section D.
Variable fuel : nat.
Variable junk : Z -> C.
Variables half sq2 isq2 : C.

Lemma mra2_rejects (data : sarr C) w level axes m :
  mra2 fuel junk half sq2 isq2 data w level axes TOther m = Err ValueError /\
  (m <> One PERIODIZATION -> mra2 fuel junk half sq2 isq2 data w level axes TSwt m = Err ValueError).
Proof. split; auto. intros H. unfold mra2. destruct m as [m|ms]; [|reflexivity]. destruct m; try reflexivity. congruence. Qed.

Lemma mran_rejects (data : sarr C) w level axes m :
  (forall r, mran fuel junk half sq2 isq2 data w level axes TOther m <> Ok r) /\
  (m <> One PERIODIZATION -> forall r, mran fuel junk half sq2 isq2 data w level axes TSwt m <> Ok r).
Proof.
  unfold mran. destruct (prep_axes (sshape data) axes) as [[ax s]| | |]; cbn [bind]; try (split; intros; discriminate).
  destruct (objs_per_axis w (List.length ax)) as [ws| | |]; cbn [bind]; try (split; intros; discriminate).
  split; [intros; discriminate|]. intros H r. destruct m as [m|ms]; [|discriminate]. destruct m; try discriminate. congruence.
Qed.

Lemma all_levels sh l : sh <> [] -> (forall s, In s sh -> 1 <= s /\ (2 ^ l | s)) -> (exists s, In s sh /\ ~ (2 ^ (l + 1) | s)) -> 0 <= l ->
  exists ls, mapM swt_max_level sh = Ok ls /\ list_min ls = Some l.
Proof.
  intros Hne Hd Hx Hl.
  assert (G : exists ls, mapM swt_max_level sh = Ok ls /\ Forall2 (fun s j => swt_max_level_c s = Ok j) sh ls).
  { clear Hne Hx. induction sh as [|s sh IH]; [exists []; split; [reflexivity|constructor]|].
    destruct (Hd s (or_introl eq_refl)) as (H1 & _). destruct (swt_max_level_spec s H1) as (j & Ej & _).
    destruct IH as (ls & E & F); [intros; apply Hd; right; auto|]. exists (j :: ls). split; [|constructor; auto].
    cbn [mapM]. unfold swt_max_level at 1. destruct (s <? 1) eqn:El; [lia|]. rewrite Ej. cbn [bind]. rewrite E. reflexivity. }
  destruct G as (ls & E & F). exists ls. split; auto.
  destruct (list_min ls) as [x|] eqn:Em.
  2:{ destruct ls; [|discriminate]. inversion F; subst; congruence. }
  f_equal. apply list_min_spec in Em. destruct Em as (Hi & Hm).
  assert (Hlow : forall j, In j ls -> l <= j).
  { clear -F Hd Hl. induction F as [|s j sh ls Ej F IH]; [intros j []|]. intros j' [<-|Hj].
    - destruct (Hd s (or_introl eq_refl)) as (H1 & H2). apply (swt_max_level_iff s j l H1 Ej Hl). auto.
    - apply IH; auto. intros; apply Hd; right; auto. }
  pose proof (Hlow x Hi). destruct Hx as (s & Hs & Hn).
  assert (Hup : exists j, In j ls /\ j < l + 1).
  { clear -F Hd Hl Hs Hn. induction F as [|s' j sh ls Ej F IH]; [destruct Hs|]. destruct Hs as [->|Hs].
    - exists j. split; [left; auto|]. destruct (Hd s (or_introl eq_refl)) as (H1 & H2).
      destruct (Z.lt_ge_cases j (l + 1)); auto. exfalso. apply Hn. apply (swt_max_level_iff s j (l + 1)); auto; lia.
    - destruct IH as (j' & Hj & Hlt); auto; [intros; apply Hd; right; auto|]. exists j'. split; [right|]; auto. }
  destruct Hup as (j & Hj & Hlt). specialize (Hm j Hj). lia.
Qed.

(** Two-power divisibility of every axis of the data, transformed or not. *)
Definition common_depth (sh : list Z) (l : Z) : Prop :=
  sh <> [] /\ 0 <= l /\ (forall s, In s sh -> 1 <= s /\ (2 ^ l | s)) /\ exists s, In s sh /\ ~ (2 ^ (l + 1) | s).

Lemma mran_default (data : sarr C) w axes l : common_depth (sshape data) l ->
  mran fuel junk half sq2 isq2 data w None axes TSwt (One PERIODIZATION) = mran fuel junk half sq2 isq2 data w (Some l) axes TSwt (One PERIODIZATION).
Proof.
  intros (H1 & H2 & H3 & H4). destruct (all_levels (sshape data) l) as (ls & E1 & E2); auto. unfold mran. rewrite E1. cbn [bind]. rewrite E2. reflexivity.
Qed.
Lemma mra2_default (data : sarr C) w axes l : common_depth (sshape data) l ->
  mra2 fuel junk half sq2 isq2 data w None axes TSwt (One PERIODIZATION) = mra2 fuel junk half sq2 isq2 data w (Some l) axes TSwt (One PERIODIZATION).
Proof.
  intros (H1 & H2 & H3 & H4). destruct (all_levels (sshape data) l) as (ls & E1 & E2); auto. unfold mra2. rewrite E1. cbn [bind]. rewrite E2. reflexivity.
Qed.
End D.
End M.
