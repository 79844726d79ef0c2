(** The inverse n-D transforms are additive in the coefficients. *)
From Coq Require Import Ascii String Permutation.
From Verif Require Import Base BaseLemmas CConv Spec ExtLemmas Lengths Dwt DwtProofs PR Linear Swt SwtSpec SwtProofs Nd NdSpec NdLinear Axis AxisProofs AxisProofs2 Multidim MultidimProofs MultidimFacts MultilevelNd MultilevelNdProofs SwtNd SwtNdArgs AxisOps NdSynth NdSwtSpec SwtNdBand SwtNdSlices SwtNdLevel SwtNdLevel2 SwtNdFwd SwtNdInv MranLoop.

Section A.
Variable C : CRing.
Add Ring Cring_ring_mra2 : (rth C).
Notation step := (step C).

Lemma ndadd_wf (a b : nd C) : nd_wf a -> nd_wf (ndadd a b).
Proof. intros H. apply ndtab_wf. apply H. Qed.
Lemma ndget_ndadd (a b : nd C) idx : valid (nshape a) idx -> ndget (ndadd a b) idx = ndget a idx [+] ndget b idx.
Proof. intros H. unfold ndadd. rewrite ndget_ndtab; auto. Qed.

Definition good (sh : list Z) (x : nd C) : Prop := nd_wf x /\ nshape x = sh.

Lemma ndadd_swap (a b c d : nd C) sh : good sh a -> good sh b -> good sh c -> good sh d ->
  ndadd (ndadd a b) (ndadd c d) = ndadd (ndadd a c) (ndadd b d).
Proof.
  intros (Wa & Sa) (Wb & Sb) (Wc & Sc) (Wd & Sd). apply nd_ext; [apply ndadd_wf, ndadd_wf; auto|apply ndadd_wf, ndadd_wf; auto|reflexivity|].
  cbn [nshape ndadd ndtab]. intros idx V. rewrite !ndget_ndadd; auto; cbn [nshape ndadd ndtab]; try congruence. ring.
Qed.

Lemma sax_add ax m (g : list C) x y sh : good sh x -> good sh y -> (ax < List.length sh)%nat -> 0 <= rec_len m (nthz ax sh) (zlen g) ->
  sax ax m g (ndadd x y) = ndadd (sax ax m g x) (sax ax m g y).
Proof.
  intros (Wx & Sx) (Wy & Sy) Hax HL. unfold sax. rewrite Sy. change (nshape (ndadd x y)) with (nshape x). rewrite Sx.
  apply (along_ndadd C ax _ (nthz ax sh)); auto; try congruence. apply linop_synthesis. auto.
Qed.
Lemma sax_good ax m (g : list C) x sh : good sh x -> 0 <= rec_len m (nthz ax sh) (zlen g) -> good (setn ax (rec_len m (nthz ax sh) (zlen g)) sh) (sax ax m g x).
Proof. intros (W & S) H. unfold sax. split; [apply along_wf; [apply W|rewrite S; auto]|rewrite along_shape, S; auto]. Qed.

Lemma syn_add fuel (s : step) a a' d d' sh : good sh a -> good sh a' -> good sh d -> good sh d' -> (st_ax C s < List.length sh)%nat ->
  idwt_pre C fuel (st_w C s) (st_m C s) (nthz (st_ax C s) sh) ->
  syn C s (ndadd a a') (ndadd d d') = ndadd (syn C s a d) (syn C s a' d').
Proof.
  intros Ha Ha' Hd Hd' Hax (W & _ & _ & L). destruct (wf_flens C _ W) as (E1 & E2). unfold syn.
  rewrite !(sax_add _ _ _ _ _ sh) by (auto; congruence).
  apply (ndadd_swap _ _ _ _ (setn (st_ax C s) (rec_len (st_m C s) (nthz (st_ax C s) sh) (dec_len (st_w C s))) sh)).
  - rewrite <- E1. apply sax_good; auto. congruence.
  - rewrite <- E1. apply sax_good; auto. congruence.
  - rewrite <- E2. apply sax_good; auto. congruence.
  - rewrite <- E2. apply sax_good; auto. congruence.
Qed.

Lemma synth_good fuel B : forall plan Y sh, syn_good C fuel B sh plan -> (forall k, In k (ad_keys (List.length plan)) -> good sh (Y k)) ->
  nd_wf (synth C plan Y).
Proof.
  induction plan as [|s p IH] using rev_ind; intros Y sh Hg HY; [apply (HY EmptyString); left; auto|].
  rewrite synth_snoc.
  assert (Hg' : syn_good C fuel B sh (s :: p)) by (apply (syn_good_perm C fuel B sh (p ++ [s])); auto; apply Permutation_sym, Permutation_cons_append).
  apply (IH _ (ssh C s sh)); [apply syn_good_step; auto|]. intros k Hk.
  destruct Hg' as (_ & _ & _ & _ & _ & G6). destruct (G6 s (or_introl eq_refl)) as (A1 & (W & R & N & L) & A3).
  assert (Ka : In (append k "a"%string) (ad_keys (List.length (p ++ [s])))) by (rewrite app_length; cbn [List.length]; rewrite Nat.add_1_r; apply ad_keys_snoc; auto).
  destruct (HY _ Ka) as (Wk & Sk). split; [apply syn_wf; auto; rewrite Sk; auto|]. rewrite syn_shape by auto. rewrite Sk. reflexivity.
Qed.

Theorem synth_add fuel B : forall plan Y Y' sh, syn_good C fuel B sh plan ->
  (forall k, In k (ad_keys (List.length plan)) -> good sh (Y k)) -> (forall k, In k (ad_keys (List.length plan)) -> good sh (Y' k)) ->
  synth C plan (fun k => ndadd (Y k) (Y' k)) = ndadd (synth C plan Y) (synth C plan Y').
Proof.
  induction plan as [|s p IH] using rev_ind; intros Y Y' sh Hg HY HY'; [reflexivity|].
  rewrite !synth_snoc.
  assert (Hg' : syn_good C fuel B sh (s :: p)) by (apply (syn_good_perm C fuel B sh (p ++ [s])); auto; apply Permutation_sym, Permutation_cons_append).
  pose proof Hg' as (_ & _ & _ & _ & _ & G6). destruct (G6 s (or_introl eq_refl)) as (A1 & (W & R & N & L) & A3).
  assert (Ks : forall k, In k (ad_keys (List.length p)) -> In (append k "a"%string) (ad_keys (List.length (p ++ [s]))) /\ In (append k "d"%string) (ad_keys (List.length (p ++ [s])))).
  { intros k Hk. rewrite app_length; cbn [List.length]; rewrite Nat.add_1_r; apply ad_keys_snoc; auto. }
  rewrite <- (IH _ _ (ssh C s sh)).
  - apply synth_ext. intros k Hk. destruct (Ks k Hk) as (Ka & Kd). apply (syn_add fuel s _ _ _ _ sh); auto. repeat split; auto; apply W || apply R.
  - apply syn_good_step; auto.
  - intros k Hk. destruct (Ks k Hk) as (Ka & _). destruct (HY _ Ka) as (Wk & Sk). split; [apply syn_wf; auto; rewrite Sk; auto|]. rewrite syn_shape by auto. rewrite Sk. reflexivity.
  - intros k Hk. destruct (Ks k Hk) as (Ka & _). destruct (HY' _ Ka) as (Wk & Sk). split; [apply syn_wf; auto; rewrite Sk; auto|]. rewrite syn_shape by auto. rewrite Sk. reflexivity.
Qed.

(** ** The stationary inverse *)
Lemma pickS_add sl (x y : nd C) : nd_wf x -> nshape y = nshape x -> Forall2 sl_ok (nshape x) sl ->
  pickS C sl (ndadd x y) = ndadd (pickS C sl x) (pickS C sl y).
Proof.
  intros W S HS. unfold ndadd at 2, pickS at 1. change (nshape (ndadd x y)) with (nshape x). change (nshape (pickS C sl x)) with (sel_shape (nshape x) sl).
  apply ndtab_ext; [apply sel_shape_ok; apply W|]. intros idx V. unfold pickS. rewrite S, !ndget_ndtab by auto.
  rewrite ndget_ndadd; auto. apply sl_off_valid; auto.
Qed.
Lemma roll_add ax (x y : nd C) : nd_wf x -> nshape y = nshape x -> (ax < List.length (nshape x))%nat -> ndroll1 ax (ndadd x y) = ndadd (ndroll1 ax x) (ndroll1 ax y).
Proof.
  intros W S Hax. unfold ndadd at 2, ndroll1 at 1. change (nshape (ndadd x y)) with (nshape x). change (nshape (ndroll1 ax x)) with (nshape x).
  apply ndtab_ext; [apply W|]. intros idx V. unfold ndroll1. rewrite S, !ndget_ndtab by auto.
  pose proof (valid_nth _ _ ax V Hax) as Hb. rewrite ndget_ndadd; auto.
  apply valid_setn'; auto. apply Z.mod_pos_bound. lia.
Qed.
Lemma rolls_add (n : Z) (axes os : list Z) : forall (x y : nd C), nd_wf x -> nshape y = nshape x ->
  (forall ax : Z, In ax axes -> (Z.to_nat (if (ax <? 0)%Z then (ax + n)%Z else ax) < List.length (nshape x))%nat) ->
  rolls C n axes os (ndadd x y) = ndadd (rolls C n axes os x) (rolls C n axes os y).
Proof.
  unfold rolls. intros x y W S H.
  assert (H' : forall (o ax : Z), In (o, ax) (combine os axes) -> (Z.to_nat (if (ax <? 0)%Z then (ax + n)%Z else ax) < List.length (nshape x))%nat)
    by (intros o ax Hi; apply H; eapply in_combine_r; eauto). clear H. revert x y W S H'.
  induction (combine os axes) as [|[o ax] L IH]; intros x y W S H; cbn [fold_left]; auto.
  destruct (o =? 0).
  - apply IH; auto. intros; eapply H; right; eauto.
  - rewrite roll_add; auto; [|apply (H o); left; auto]. apply IH; [apply ndtab_wf; apply W|exact S|].
    intros o' ax' Hi. cbn [nshape ndroll1 ndtab]. eapply H. right; eauto.
Qed.

Variable fuel : nat.
Notation plan_t := (list (nat * wavelet C)).

Lemma Rr_add l sh (plan : plan_t) fs os Y Y' : 1 <= l -> plan_lev C fuel l sh plan -> fs_ok C l plan fs -> os_ok C plan os ->
  (forall k, In k (ad_keys (List.length plan)) -> good sh (Y k)) -> (forall k, In k (ad_keys (List.length plan)) -> good sh (Y' k)) ->
  Rr C l sh plan fs os (fun k => ndadd (Y k) (Y' k)) = ndadd (Rr C l sh plan fs os Y) (Rr C l sh plan fs os Y').
Proof.
  intros Hl HP Hf Ho HY HY'. unfold Rr.
  assert (Hg := syn_good_sel C fuel l sh plan Hl HP fs os Hf Ho).
  assert (L : List.length (map (pst C) plan) = List.length plan) by apply map_length.
  assert (G : forall Y0, (forall k, In k (ad_keys (List.length plan)) -> good sh (Y0 k)) ->
    forall k, In k (ad_keys (List.length (map (pst C) plan))) -> good (sel_shape sh (S2 C l sh plan fs os)) (pickS C (S2 C l sh plan fs os) (Y0 k))).
  { intros Y0 H0 k Hk. rewrite L in Hk. destruct (H0 k Hk) as (Wk & Sk). split; [apply pickS_wf; auto|]. cbn [nshape pickS ndtab]. rewrite Sk. reflexivity. }
  assert (E : synth C (map (pst C) plan) (fun k => pickS C (S2 C l sh plan fs os) (ndadd (Y k) (Y' k)))
    = ndadd (synth C (map (pst C) plan) (fun k => pickS C (S2 C l sh plan fs os) (Y k))) (synth C (map (pst C) plan) (fun k => pickS C (S2 C l sh plan fs os) (Y' k)))).
  { rewrite <- (synth_add fuel sh _ _ _ _ Hg (G Y HY) (G Y' HY')). apply synth_ext. intros k Hk. rewrite L in Hk. destruct (HY k Hk) as (Wk & Sk). destruct (HY' k Hk) as (Wk' & Sk').
    apply pickS_add; auto; [congruence|]. rewrite Sk. apply (S2_ok C fuel l sh plan Hl HP); auto. }
  rewrite E.
  assert (Sy : forall Y0, (forall k, In k (ad_keys (List.length plan)) -> good sh (Y0 k)) ->
     nshape (synth C (map (pst C) plan) (fun k => pickS C (S2 C l sh plan fs os) (Y0 k))) = sel_shape sh (S1 C l sh plan fs)).
  { intros Y0 H0. apply (synth_sel_shape C fuel l sh plan Hl HP); auto. intros k Hk. apply H0; auto. }
  apply rolls_add.
  - apply (synth_good fuel sh (map (pst C) plan) _ (sel_shape sh (S2 C l sh plan fs os))); auto.
  - rewrite !Sy; auto.
  - rewrite Sy by auto. intros ax Hax. rewrite sel_shape_len by (unfold S1; apply sls_of_length). unfold zaxes in Hax. apply in_map_iff in Hax as (p & <- & Hp).
    destruct HP as (_ & _ & _ & HP). destruct (HP p Hp) as (B & _). destruct (Z.ltb_spec (Z.of_nat (fst p)) 0); lia.
Qed.

Lemma fold_add {A} (f g : A -> C) l : forall a b, fold_left (fun s o => s [+] (f o [+] g o)) l (a [+] b) = fold_left (fun s o => s [+] f o) l a [+] fold_left (fun s o => s [+] g o) l b.
Proof. induction l as [|o l IH]; intros a b; cbn [fold_left]; auto. rewrite <- IH. f_equal. ring. Qed.
Lemma fold_ext {A} (f g : A -> C) l : (forall o, In o l -> f o = g o) -> forall a, fold_left (fun s o => s [+] f o) l a = fold_left (fun s o => s [+] g o) l a.
Proof. induction l as [|o l IH]; intros H a; cbn [fold_left]; auto. rewrite (H o) by (left; auto). apply IH. intros; apply H; right; auto. Qed.

Theorem ilev_add half l sh (plan : plan_t) Y Y' : 1 <= l -> plan_lev C fuel l sh plan ->
  (forall k, In k (ad_keys (List.length plan)) -> good sh (Y k)) -> (forall k, In k (ad_keys (List.length plan)) -> good sh (Y' k)) ->
  ilev C half l sh plan (fun k => ndadd (Y k) (Y' k)) = ndadd (ilev C half l sh plan Y) (ilev C half l sh plan Y').
Proof.
  intros Hl HP HY HY'. assert (Hs : shape_ok sh) by apply HP. unfold ndadd at 2. unfold ilev at 1. cbn [nshape ilev ndtab].
  apply ndtab_ext; auto. intros idx V. unfold ilev. rewrite !ndget_ndtab by auto.
  set (fs := resid C l plan idx). assert (Hf : fs_ok C l plan fs) by (apply (resid_ok C l sh plan Hl); auto).
  rewrite (fold_ext _ (fun os => ndget (Rr C l sh plan fs os Y) (posl idx (S1 C l sh plan fs)) [+] ndget (Rr C l sh plan fs os Y') (posl idx (S1 C l sh plan fs)))).
  - replace (@r0 C) with (@r0 C [+] r0) at 1 by ring. rewrite fold_add. ring.
  - intros os Ho. rewrite Rr_add by auto. apply ndget_ndadd. unfold Rr. rewrite rolls_shape.
    rewrite (synth_sel_shape C fuel l sh plan Hl HP) by (auto; intros k Hk; apply HY; auto).
    apply hit_pos; auto; [apply (S1_ok C fuel l sh plan Hl HP); auto|].
    rewrite (hits_resid C fuel l sh plan Hl HP) by auto. fold fs. destruct (list_eq_dec Z.eq_dec fs fs); congruence.
Qed.

Theorem isynth_add half sh (plan : plan_t) Y Y' : forall n a a', plan_lev C fuel (Z.of_nat n) sh plan -> good sh a -> good sh a' ->
  (forall l k, (1 <= l <= n)%nat -> In k (tl (ad_keys (List.length plan))) -> good sh (Y l k)) ->
  (forall l k, (1 <= l <= n)%nat -> In k (tl (ad_keys (List.length plan))) -> good sh (Y' l k)) ->
  isynth C half sh plan (fun l k => ndadd (Y l k) (Y' l k)) n (ndadd a a') = ndadd (isynth C half sh plan Y n a) (isynth C half sh plan Y' n a').
Proof.
  induction n as [|n IH]; intros a a' HP Ha Ha' HY HY'; cbn [isynth]; auto.
  assert (Hs : shape_ok sh) by apply HP.
  assert (Hk : forall k, In k (ad_keys (List.length plan)) -> k <> all_a (List.length plan) -> In k (tl (ad_keys (List.length plan)))).
  { intros k Hk Hne. rewrite ad_keys_head in Hk. destruct Hk as [Hk|Hk]; [congruence|auto]. }
  rewrite <- IH.
  - f_equal. rewrite <- ilev_add; auto; [|lia| |].
    + apply ilev_ext; auto. intros k Hi. destruct (String.eqb k (all_a (List.length plan))); auto.
    + intros k Hi. destruct (String.eqb_spec k (all_a (List.length plan))) as [->|E]; auto. apply HY; auto. lia.
    + intros k Hi. destruct (String.eqb_spec k (all_a (List.length plan))) as [->|E]; auto. apply HY'; auto. lia.
  - destruct n as [|n]; [|apply (plan_lev_le C fuel (Z.of_nat (S (S n)))); auto; lia].
    destruct HP as (P1 & P2 & P3 & P4). refine (conj P1 (conj P2 (conj P3 _))). intros p Hp. destruct (P4 p Hp) as (A & B & D & E). refine (conj A (conj B (conj _ E))).
    exists (nthz (fst p) sh). cbn. lia.
  - split; [apply ilev_wf; auto|reflexivity].
  - split; [apply ilev_wf; auto|reflexivity].
  - intros; apply HY; auto; lia.
  - intros; apply HY'; auto; lia.
Qed.
Lemma isynth_ext half sh (plan : plan_t) Y Y' : shape_ok sh -> forall n a, (forall l k, (1 <= l <= n)%nat -> In k (tl (ad_keys (List.length plan))) -> Y l k = Y' l k) ->
  isynth C half sh plan Y n a = isynth C half sh plan Y' n a.
Proof.
  intros Hs. induction n as [|n IH]; intros a H; cbn [isynth]; auto. rewrite IH by (intros; apply H; auto; lia). f_equal. apply ilev_ext; auto.
  intros k Hk. destruct (String.eqb_spec k (all_a (List.length plan))) as [->|E]; auto. apply H; [lia|]. rewrite ad_keys_head in Hk. destruct Hk as [Hk|Hk]; [congruence|auto].
Qed.
Lemma isynth_good half sh (plan : plan_t) Y : shape_ok sh -> forall n a, good sh a -> good sh (isynth C half sh plan Y n a).
Proof. intros Hs. induction n as [|n IH]; intros a Ha; cbn [isynth]; auto. apply IH. split; [apply ilev_wf; auto|reflexivity]. Qed.
End A.
