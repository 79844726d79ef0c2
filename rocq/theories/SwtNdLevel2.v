(** One level of iswtn: the loops over cosets and offsets, and the inverse of
    one level of swtn. *)
From Coq Require Import Ascii String Permutation.
From Verif Require Import Base BaseLemmas CConv Spec ExtLemmas Lengths LengthsProofs Dwt DwtProofs PR Linear Swt SwtSpec SwtProofs Nd NdSpec NdLinear Axis AxisProofs AxisProofs2 Multidim MultidimProofs MultidimFacts MultilevelNd SwtNd SwtNdArgs AxisOps NdSynth NdSwtSpec SwtNdBand SwtNdSlices SwtNdLevel.

Section L2.
Variable C : CRing.
Add Ring Cring_ring_snv2 : (rth C).
Notation plan_t := (list (nat * wavelet C)).

Lemma ndget_assign (out : nd C) sl f idx : valid (nshape out) idx ->
  ndget (assign out sl f) idx = if hits (nshape out) idx sl then f (ndget out idx) (posl idx sl) else ndget out idx.
Proof. intros V. unfold assign. rewrite ndget_ndtab by auto. reflexivity. Qed.
Lemma assign_shape (out : nd C) sl f : nshape (assign out sl f) = nshape out.
Proof. reflexivity. Qed.
Lemma assign_wf (out : nd C) sl f : nd_wf out -> nd_wf (assign out sl f).
Proof. intros H. apply ndtab_wf. apply H. Qed.

Section Lev.
Variables (fuel : nat) (junk : Z -> C) (half : C) (l : Z) (sh : list Z) (plan : plan_t) (D : dict (sarr C)) (Y : string -> nd C).
Hypothesis Hl : 1 <= l.
Hypothesis HP : plan_lev C fuel l sh plan.
Hypothesis HD : details_ok C sh plan D Y.
Hypothesis HYa : nshape (Y (all_a (List.length plan))) = sh.
Let odds := iswtn_odds fuel junk (zaxes C plan) (map snd plan) (List.length plan) D.
Let sizes := map (fun p : nat * wavelet C => nthz (fst p) sh) plan.

Lemma odds_fold cur fs : fs_ok C l plan fs -> nd_wf cur -> nshape cur = sh ->
  (forall os, os_ok C plan os -> pickS C (S2 C l sh plan fs os) cur = pickS C (S2 C l sh plan fs os) (Y (all_a (List.length plan)))) ->
  forall ol out, (forall os, In os ol -> os_ok C plan os) -> nd_wf out -> nshape out = sh ->
  exists r, foldM (odds cur fs sizes (2 ^ (l - 1))) out ol = Ok r /\ nd_wf r /\ nshape r = sh /\
    forall idx, valid sh idx -> ndget r idx = if hits sh idx (S1 C l sh plan fs)
      then fold_left (fun a os => a [+] ndget (Rr C l sh plan fs os Y) (posl idx (S1 C l sh plan fs))) ol (ndget out idx) else ndget out idx.
Proof.
  intros Hf Wc Sc Hc. induction ol as [|os ol IH]; intros out Ho Wo So; cbn [foldM fold_left].
  - exists out. split; auto. split; auto. split; auto. intros idx V. destruct (hits _ _ _); auto.
  - unfold odds at 1, sizes at 1. rewrite (odds_spec C fuel l sh plan Hl HP junk D Y cur out fs os); auto; [|apply Ho; left; auto|apply Hc; apply Ho; left; auto].
    cbn [bind]. destruct (IH (assign out (S1 C l sh plan fs) (fun v p => v [+] ndget (Rr C l sh plan fs os Y) p))) as (r & Er & Wr & Sr & Vr).
    + intros; apply Ho; right; auto.
    + apply assign_wf; auto.
    + auto.
    + exists r. split; auto. split; auto. split; auto. intros idx V. rewrite Vr by auto. rewrite ndget_assign by (rewrite So; auto). rewrite So.
      destruct (hits _ _ _); auto.
Qed.

Lemma first_spec cur fs : fs_ok C l plan fs -> nd_wf cur -> nshape cur = sh ->
  (forall os, os_ok C plan os -> pickS C (S2 C l sh plan fs os) cur = pickS C (S2 C l sh plan fs os) (Y (all_a (List.length plan)))) ->
  exists r, iswtn_first fuel junk half (zaxes C plan) (map snd plan) (List.length plan) D sizes (2 ^ (l - 1)) cur fs = Ok r /\ nd_wf r /\ nshape r = sh /\
    forall idx, valid sh idx -> ndget r idx = if list_eq_dec Z.eq_dec (resid C l plan idx) fs then ndget (ilev C half l sh plan Y) idx else ndget cur idx.
Proof.
  intros Hf Wc Sc Hc. unfold iswtn_first. rewrite Sc. unfold sizes. rewrite (slices1 C l sh plan fs Hf).
  destruct (odds_fold cur fs Hf Wc Sc Hc (product 2 (List.length plan)) (assign cur (S1 C l sh plan fs) (fun _ _ => r0))) as (r & Er & Wr & Sr & Vr); auto.
  { apply assign_wf; auto. }
  unfold odds, sizes in Er. rewrite Er. cbn [bind]. eexists. split; [reflexivity|]. split; [apply assign_wf; auto|]. split; [auto|].
  intros idx V. rewrite ndget_assign by (rewrite Sr; auto). rewrite Sr, Vr by auto. rewrite ndget_assign by (rewrite Sc; auto). rewrite Sc.
  rewrite (hits_resid C fuel l sh plan Hl HP fs idx Hf V).
  destruct (list_eq_dec Z.eq_dec (resid C l plan idx) fs) as [E|E]; auto.
  unfold ilev. rewrite ndget_ndtab by auto. rewrite E. reflexivity.
Qed.

Lemma firsts_fold : nd_wf (Y (all_a (List.length plan))) ->
  forall fl done cur, NoDup (done ++ fl) -> (forall fs, In fs fl -> fs_ok C l plan fs) -> nd_wf cur -> nshape cur = sh ->
  (forall idx, valid sh idx -> ndget cur idx = if in_dec (list_eq_dec Z.eq_dec) (resid C l plan idx) done then ndget (ilev C half l sh plan Y) idx else ndget (Y (all_a (List.length plan))) idx) ->
  exists r, foldM (iswtn_first fuel junk half (zaxes C plan) (map snd plan) (List.length plan) D sizes (2 ^ (l - 1))) cur fl = Ok r /\ nd_wf r /\ nshape r = sh /\
    forall idx, valid sh idx -> ndget r idx = if in_dec (list_eq_dec Z.eq_dec) (resid C l plan idx) (done ++ fl) then ndget (ilev C half l sh plan Y) idx else ndget (Y (all_a (List.length plan))) idx.
Proof.
  intros WY. induction fl as [|fs fl IH]; intros done cur Hd Hfl Wc Sc Hc; cbn [foldM].
  - exists cur. rewrite app_nil_r. auto.
  - assert (Hf : fs_ok C l plan fs) by (apply Hfl; left; auto).
    destruct (first_spec cur fs Hf Wc Sc) as (r & Er & Wr & Sr & Vr).
    { intros os Ho. unfold pickS. rewrite Sc, HYa. apply ndtab_ext; [apply sel_shape_ok; apply HP|]. intros idx V.
      pose proof (S2_ok C fuel l sh plan Hl HP fs os Hf Ho) as Hk.
      rewrite Hc by (apply sl_off_valid; auto). rewrite (resid_S2 C fuel l sh plan HP fs os idx Hf Ho V).
      destruct (in_dec _ fs done) as [Hi|Hi]; auto. exfalso. apply (NoDup_remove_2 _ _ _ Hd). apply in_or_app. auto. }
    rewrite Er. cbn [bind]. destruct (IH (done ++ [fs]) r) as (r' & Er' & Wr' & Sr' & Vr'); auto.
    + rewrite <- app_assoc. exact Hd.
    + intros; apply Hfl; right; auto.
    + intros idx V. rewrite Vr by auto. rewrite Hc by auto.
      destruct (list_eq_dec Z.eq_dec (resid C l plan idx) fs) as [E|E].
      * destruct (in_dec _ (resid C l plan idx) (done ++ [fs])) as [_|Hn]; auto. exfalso. apply Hn. apply in_or_app. right; left; auto.
      * destruct (in_dec _ (resid C l plan idx) done) as [Hi|Hn], (in_dec _ (resid C l plan idx) (done ++ [fs])) as [Hi'|Hn']; auto.
        -- exfalso. apply Hn'. apply in_or_app. auto.
        -- exfalso. apply in_app_or in Hi'. destruct Hi' as [Hi'|[Hi'|[]]]; auto.
    + exists r'. split; auto. split; auto. split; auto. intros idx V. rewrite Vr' by auto.
      replace ((done ++ [fs]) ++ fl) with (done ++ fs :: fl) by (rewrite <- app_assoc; reflexivity). reflexivity.
Qed.

Theorem level_spec : plan <> [] -> nd_wf (Y (all_a (List.length plan))) ->
  iswtn_level fuel junk half (zaxes C plan) (map snd plan) (List.length plan) (2 ^ (l - 1)) (Y (all_a (List.length plan))) D
  = Ok (ilev C half l sh plan Y).
Proof.
  intros Hne WY. pose proof HD as (HD1 & HD2).
  assert (ED : exists k0 v0 rest, D = (k0, v0) :: rest).
  { destruct plan as [|p P] eqn:EP; [congruence|].
    destruct (HD2 (String "d"%char (all_a (List.length P)))) as (v & Hv).
    - cbn [List.length ad_keys]. apply in_or_app. right. apply in_map. apply all_a_in.
    - cbn [List.length all_a]. congruence.
    - destruct D as [|[k0 v0] rest]; [discriminate|]. eauto. }
  destruct ED as (k0 & v0 & rest & ED). unfold iswtn_level. rewrite ED at 1.
    assert (Hs : forall k v, In (k, v) D -> sshape v = sh) by (intros k v Hi; apply (HD1 k v Hi)).
    assert (E1 : existsb (fun '(_, v) => negb (shape_eqb (sshape v) (sshape v0))) rest = false).
    { rewrite (Hs k0 v0) by (rewrite ED; left; auto).
      assert (G : forall k v, In (k, v) rest -> sshape v = sh) by (intros k v Hi; apply (Hs k v); rewrite ED; right; auto).
      clear -G. induction rest as [|[k v] t IH]; cbn; auto. rewrite (G k v) by (left; auto). unfold shape_eqb at 1.
      destruct (list_eq_dec _ _ _) as [_|Hn]; [|congruence]. cbn. apply IH. intros k' v' Hi; apply (G k' v'); right; auto. }
    rewrite E1. rewrite (Hs k0 v0) by (rewrite ED; left; auto). rewrite HYa.
    assert (EI : mapM (py_index sh) (zaxes C plan) = Ok sizes).
    { unfold sizes, zaxes. pose proof HP as (_ & _ & _ & P4). clear -P4. induction plan as [|p P IH]; cbn [map mapM]; auto.
      destruct (P4 p (or_introl eq_refl)) as (A & _). unfold py_index at 1.
      replace ((Z.of_nat (fst p) <? - zlen sh) || (zlen sh <=? Z.of_nat (fst p))) with false by (unfold zlen; lia).
      destruct (Z.ltb_spec (Z.of_nat (fst p)) 0); [lia|]. rewrite Nat2Z.id. cbn [bind]. rewrite IH by (intros; apply P4; right; auto). reflexivity. }
    rewrite EI. cbn [bind].
    destruct (firsts_fold WY (product (2 ^ (l - 1)) (List.length plan)) [] (Y (all_a (List.length plan)))) as (r & Er & Wr & Sr & Vr); auto.
    { apply product_nodup. }
    rewrite Er. f_equal. apply nd_ext; auto.
    + unfold ilev. apply ndtab_wf. apply HP.
    + rewrite Sr. intros idx V. rewrite Vr by auto. destruct (in_dec _ _ _) as [_|Hn]; auto. exfalso. apply Hn. apply (resid_ok C l sh plan Hl); auto.
Qed.
End Lev.

(** ** Inverse of one level *)
Lemma fold_const (c : C) n : forall a, fold_left (fun a (_ : list Z) => a [+] c) (product 2 n) a = a [+] rpow (r1 [+] r1) n [*] c.
Proof.
  assert (G : forall (L : list (list Z)) a, fold_left (fun a (_ : list Z) => a [+] c) L a = a [+] fold_left (fun a (_ : list Z) => a [+] c) L r0).
  { induction L as [|o L IH]; intros a; cbn [fold_left]; [ring|]. rewrite IH. rewrite (IH (r0 [+] c)). ring. }
  induction n as [|n IH]; intros a; [cbn; ring|].
  cbn [product rpow]. change (tab 2 (fun i => i)) with [0; 1]. cbn [flat_map]. rewrite app_nil_r, fold_left_app.
  assert (M : forall b a, fold_left (fun a (_ : list Z) => a [+] c) (map (cons b) (product 2 n)) a = fold_left (fun a (_ : list Z) => a [+] c) (product 2 n) a).
  { intros b. generalize (product 2 n). induction l as [|o L IHL]; intros a'; cbn; auto. }
  rewrite !M, !IH. ring.
Qed.
Lemma rpow_half half n : half [+] half = r1 -> rpow (r1 [+] r1) n [*] rpow half n = (r1 : C).
Proof.
  intros H. induction n as [|n IH]; cbn [rpow]; [ring|].
  transitivity ((half [+] half) [*] (rpow (r1 [+] r1) n [*] rpow half n)); [ring|]. rewrite IH, H. ring.
Qed.

Theorem Rr_swt l (x : nd C) plan plan' fs os : 1 <= l -> nd_wf x -> NoDup (map fst plan) ->
  (forall p, In p plan -> (fst p < List.length (nshape x))%nat /\ 1 <= nthz (fst p) (nshape x) /\ (2 ^ l | nthz (fst p) (nshape x)) /\ wf_bank (snd p)) ->
  plan_pair C plan plan' -> fs_ok C l plan fs -> os_ok C plan os ->
  Rr C l (nshape x) plan' fs os (fun k => swt_band l k plan x) = pickS C (S1 C l (nshape x) plan fs) x.
Proof.
  intros Hl Hx Hd HP HPP Hf Ho. set (sh := nshape x) in *.
  pose proof Hf as Hf'. apply in_product in Hf'. destruct Hf' as (F1 & F2). pose proof Ho as Ho'. apply in_product in Ho'. destruct Ho' as (O1 & O2).
  assert (Lp : List.length plan' = List.length plan) by (clear -HPP; induction HPP; cbn; congruence).
  assert (Ax : map fst plan' = map fst plan).
  { clear -HPP. induction HPP as [|p p' P P' (E & _) HPP IH]; cbn; congruence. }
  set (L := mkq C plan fs os). destruct (mkq_fst C plan fs os F1 O1) as (A & B & D). fold L in A, B, D.
  assert (HL : forall q, In q L -> q_ok C l sh q).
  { intros q Hq. destruct q as ((ax, w), (f, o)). unfold L, mkq in Hq. pose proof (in_combine_l _ _ _ _ Hq) as Hp. pose proof (in_combine_r _ _ _ _ Hq) as Hr.
    pose proof (in_combine_l _ _ _ _ Hr) as Hff. pose proof (in_combine_r _ _ _ _ Hr) as Hoo.
    rewrite Forall_forall in F2, O2. specialize (F2 _ Hff). specialize (O2 _ Hoo).
    destruct (HP _ Hp) as (A1 & A2 & A3 & A4). cbn [fst snd] in *. unfold q_ok, q_ax, q_f, q_o, q_w. cbn [fst snd].
    refine (conj A1 (conj A2 (conj A3 (conj F2 (conj _ A4))))). lia. }
  assert (Hdq : NoDup (map (q_ax C) L)) by (unfold L; rewrite mkq_ax; auto).
  (* the selections depend on the axes only *)
  assert (ES : S2 C l sh plan' fs os = sls_of (List.length sh) (map (sel2 C l sh) L)).
  { unfold S2. f_equal. unfold L, mkq. clear -Ax F1 O1. revert plan' fs os Ax F1 O1. induction plan as [|p P IH]; intros [|p' P'] [|f fs] [|o os] Ax F1 O1; cbn in *; try congruence; auto.
    injection Ax as E1 E2. f_equal; [|apply IH; auto]. unfold sel2, q_ax. cbn. rewrite E1. reflexivity. }
  unfold Rr. fold sh. rewrite ES.
  assert (Ez : zaxes C plan' = map (fun q => Z.of_nat (q_ax C q)) L).
  { unfold zaxes. transitivity (map Z.of_nat (map fst plan')); [rewrite map_map; reflexivity|]. rewrite Ax. unfold L. rewrite <- (mkq_ax C plan fs os) by auto. rewrite map_map. reflexivity. }
  assert (EB : synth C (map (pst C) plan') (fun k => pickS C (sls_of (List.length sh) (map (sel2 C l sh) L)) (swt_band l k plan x)) = the_rolled C l x L).
  { transitivity (synth C (map (pst C) plan') (fun k => band C k (map (pst C) plan) (the_rolled C l x L))).
    - apply synth_ext. intros k Hk. rewrite map_length, Lp in Hk. rewrite <- A. apply band_sel2; auto.
      rewrite (ad_keys_length _ _ Hk). unfold L, mkq. rewrite combine_length, combine_length. lia.
    - apply synth_band; auto.
      + apply rolled_wf; auto.
      + intros p Hp. rewrite rolled_shape by auto. rewrite <- A in Hp. apply in_map_iff in Hp. destruct Hp as (q & <- & Hq).
        change (fst (fst q)) with (q_ax C q). rewrite coset_shape_len by auto. rewrite coset_nth by auto.
        destruct (sel1_len C l (nshape x) q Hl (HL q Hq)) as (T1 & T2 & T3 & T4). split; [apply (HL q Hq)|]. split; [lia|auto]. }
  rewrite EB. unfold rolls. rewrite <- D, Ez. rewrite (rolls_aps C l x L (zlen sh)).
  - rewrite unrolled by auto. unfold the_coset. f_equal. unfold S1. fold sh. f_equal. unfold L, mkq. clear -F1 O1. revert fs os F1 O1.
    induction plan as [|p P IH]; intros [|f fs] [|o os] F1 O1; cbn in *; try congruence; auto. f_equal. apply IH; auto.
  - apply rolled_wf; auto.
  - auto.
  - intros q Hq. rewrite rolled_shape by auto. rewrite coset_shape_len by auto. rewrite coset_nth by auto.
    destruct (sel1_len C l (nshape x) q Hl (HL q Hq)) as (T1 & T2 & T3 & T4). split; [apply (HL q Hq)|]. split; [lia|auto].
Qed.

Theorem ilev_swt half l (x : nd C) plan plan' fuel : 1 <= l -> half [+] half = r1 -> nd_wf x ->
  plan_lev C fuel l (nshape x) plan' -> (forall p, In p plan -> wf_bank (snd p)) -> plan_pair C plan plan' ->
  ilev C half l (nshape x) plan' (fun k => swt_band l k plan x) = x.
Proof.
  intros Hl Hh Hx HPL HW HPP.
  assert (Lp : List.length plan' = List.length plan) by (clear -HPP; induction HPP; cbn; congruence).
  assert (Ax : map fst plan' = map fst plan).
  { clear -HPP. induction HPP as [|p p' P P' (E & _) HPP IH]; cbn; congruence. }
  assert (HP : forall p, In p plan -> (fst p < List.length (nshape x))%nat /\ 1 <= nthz (fst p) (nshape x) /\ (2 ^ l | nthz (fst p) (nshape x)) /\ wf_bank (snd p)).
  { intros p Hp. assert (Hi : In (fst p) (map fst plan')) by (rewrite Ax; apply in_map; auto). apply in_map_iff in Hi. destruct Hi as (p' & E & Hp').
    destruct HPL as (_ & _ & _ & P4). destruct (P4 p' Hp') as (A1 & A2 & A3 & _). rewrite <- E. auto. }
  assert (Hd : NoDup (map fst plan)) by (rewrite <- Ax; apply HPL).
  symmetry. unfold ilev. etransitivity; [symmetry; apply (ndtab_ndget x Hx)|]. apply ndtab_ext; [apply Hx|]. intros idx V.
  assert (RE : resid C l plan' idx = resid C l plan idx).
  { unfold resid. transitivity (map (fun a => nthz a idx mod 2 ^ (l - 1)) (map fst plan')); [rewrite map_map; reflexivity|]. rewrite Ax, map_map. reflexivity. }
  pose proof (resid_ok C l (nshape x) plan' Hl idx V) as Hf'.
  assert (Hf : fs_ok C l plan (resid C l plan' idx)) by (unfold fs_ok in *; rewrite <- Lp; auto).
  set (fs := resid C l plan' idx) in *.
  assert (E1 : S1 C l (nshape x) plan' fs = S1 C l (nshape x) plan fs).
  { unfold S1. f_equal. unfold mkq. clearbody fs. clear -Ax. revert plan' fs Ax. induction plan as [|p P IH]; intros [|p' P'] fs Ax; cbn in *; try congruence; auto.
    injection Ax as E1 E2. destruct fs as [|f fs]; cbn; auto. f_equal; [|apply IH; auto]. unfold sel1, q_ax. cbn. rewrite E1. reflexivity. }
  assert (EP : forall os, In os (product 2 (List.length plan')) -> ndget (Rr C l (nshape x) plan' fs os (fun k => swt_band l k plan x)) (posl idx (S1 C l (nshape x) plan' fs)) = ndget x idx).
  { intros os Ho. rewrite (Rr_swt l x plan plan' fs os) by (auto; unfold os_ok; rewrite <- Lp; auto).
    pose proof (S1_ok C fuel l (nshape x) plan' Hl HPL fs Hf') as Hk.
    pose proof (hits_resid C fuel l (nshape x) plan' Hl HPL fs idx Hf' V) as Hh'. destruct (list_eq_dec _ _ _) as [_|Hn]; [|exfalso; apply Hn; reflexivity].
    destruct (hit_pos _ _ _ Hk V Hh') as (P1 & P2).
    rewrite <- E1. unfold pickS. rewrite ndget_ndtab by auto. rewrite P2. reflexivity. }
  assert (EF : forall (L : list (list Z)) (a : C), (forall os, In os L -> In os (product 2 (List.length plan'))) ->
    fold_left (fun a os => a [+] ndget (Rr C l (nshape x) plan' fs os (fun k => swt_band l k plan x)) (posl idx (S1 C l (nshape x) plan' fs))) L a
    = fold_left (fun a _ => a [+] ndget x idx) L a).
  { induction L as [|os L IH]; intros a HL; cbn [fold_left]; auto. rewrite EP by (apply HL; left; auto). apply IH. intros; apply HL; right; auto. }
  rewrite EF by auto. rewrite fold_const.
  transitivity ((rpow (r1 [+] r1) (List.length plan') [*] rpow half (List.length plan')) [*] ndget x idx); [|ring].
  rewrite rpow_half by auto. ring.
Qed.
End L2.
