(** Inner products of n-dimensional data and of their coefficients. *)
From Coq Require Import Ascii String.
From Verif Require Import Base BaseLemmas CConv Spec ExtLemmas Lengths LengthsProofs Dwt DwtProofs PR Linear Swt SwtSpec SwtProofs Nd NdSpec NdLinear Axis AxisProofs AxisProofs2 Multidim MultidimProofs MultidimFacts Multilevel MultilevelProofs Facts1 MultilevelNd MultilevelNdProofs MultilevelNdFacts SwtNd SwtNdArgs AxisOps NdSynth NdSwtSpec SwtNdBand SwtNdSlices SwtNdLevel SwtNdLevel2 SwtNdFwd SwtNdInv Mra MraProofs MranLoop MranSum MranAdd MranSwt MranDwt Cyclic CyclicMain CyclicNd.

Section P.
Variable C : CRing.
Add Ring Cring_ring_pv : (rth C).
Variable fuel : nat.
Notation step := (step C).
Notation lev := (lev_shape C).

(** Sum over all multi-indices of a shape. *)
Fixpoint ndsum (sh : list Z) (f : list Z -> C) : C :=
  match sh with [] => f [] | n :: t => sumZ 0 n (fun i => ndsum t (fun idx => f (i :: idx))) end.
Definition ndinner (x y : nd C) : C := ndsum (nshape x) (fun idx => ndget x idx [*] ndget y idx).
Definition lsum (l : list C) : C := fold_right radd r0 l.
Definition linner (x y : list C) : C := sumZ 0 (zlen x) (fun i => gz x i [*] gz y i).

Lemma lsum_app a b : lsum (a ++ b) = lsum a [+] lsum b.
Proof. induction a as [|v a IH]; [change (lsum b = r0 [+] lsum b); ring|]. change (v [+] lsum (a ++ b) = v [+] lsum a [+] lsum b). rewrite IH. ring. Qed.
Lemma lsum_rev a : lsum (rev a) = lsum a.
Proof. induction a as [|v a IH]; cbn [rev]; auto. rewrite lsum_app, IH. change (lsum a [+] (v [+] r0) = v [+] lsum a). ring. Qed.

Lemma ndsum_ext sh : forall f g, (forall idx, valid sh idx -> f idx = g idx) -> ndsum sh f = ndsum sh g.
Proof.
  induction sh as [|n t IH]; intros f g H; cbn [ndsum]; [apply H; exact I|].
  apply sumZ_ext. intros i Hi. apply IH. intros idx V. apply H. split; auto.
Qed.
Lemma ndsum_add sh : forall f g, ndsum sh (fun idx => f idx [+] g idx) = ndsum sh f [+] ndsum sh g.
Proof.
  induction sh as [|n t IH]; intros f g; cbn [ndsum]; auto. rewrite <- sumZ_add. apply sumZ_ext. intros i _. apply IH.
Qed.
Lemma ndsum_sumZ sh : forall n f, ndsum sh (fun idx => sumZ 0 n (fun i => f i idx)) = sumZ 0 n (fun i => ndsum sh (f i)).
Proof.
  induction sh as [|k t IH]; intros n f; cbn [ndsum]; auto.
  rewrite (sumZ_swap C 0 n 0 k). apply sumZ_ext. intros j _. apply (IH n (fun i idx => f i (j :: idx))).
Qed.
Lemma ndsum_axis sh : forall ax f, (ax < List.length sh)%nat ->
  ndsum sh f = ndsum (setn ax 1 sh) (fun idx => sumZ 0 (nthz ax sh) (fun i => f (setn ax i idx))).
Proof.
  induction sh as [|n t IH]; intros ax f H; cbn in H; [lia|]. destruct ax as [|ax].
  - change (setn 0 1 (n :: t)) with (1 :: t). change (nthz 0 (n :: t)) with n. cbn [ndsum].
    rewrite (sumZ_single C 0 1 0) by (intros; lia || auto). cbn [setn]. rewrite ndsum_sumZ. reflexivity.
  - change (setn (S ax) 1 (n :: t)) with (n :: setn ax 1 t). change (nthz (S ax) (n :: t)) with (nthz ax t). cbn [ndsum].
    apply sumZ_ext. intros i _. rewrite (IH ax) by lia. reflexivity.
Qed.

(** The dual wavelet analyses with the reversed reconstruction filters. *)
Definition dual (w w' : wavelet C) : Prop :=
  pr_wavelet w /\ wf_bank w' /\ dec_lo w' = rev (rec_lo w) /\ dec_hi w' = rev (rec_hi w).
Lemma orthonormal_dual w : orthonormal w -> dual w w.
Proof. intros (H & E0 & E1). split; auto. split; [apply pr_wf; auto|]. rewrite E0, E1, !rev_involutive. auto. Qed.
Lemma dual_len w w' : dual w w' -> dec_len w' = dec_len w.
Proof. intros (H & _ & E & _). destruct (pr_wf w H) as (_ & H2 & _). unfold dec_len in *. rewrite E, zlen_rev. auto. Qed.

(** One line. *)
Lemma analysis_inner w w' (x y : list C) : dual w w' -> 2 <= zlen x -> zlen x mod 2 = 0 -> zlen y = zlen x ->
  linner (analysis PERIODIZATION (dec_lo w) x) (analysis PERIODIZATION (dec_lo w') y) [+]
  linner (analysis PERIODIZATION (dec_hi w) x) (analysis PERIODIZATION (dec_hi w') y) = linner x y.
Proof.
  intros (Hpr & _ & E0 & E1) HN HN2 Hy. destruct (pr_wf w Hpr) as (H1 & H2 & H3 & H4 & H5).
  set (h0 := dec_lo w) in *. set (h1 := dec_hi w) in *. set (g0 := rec_lo w) in *. set (g1 := rec_hi w) in *. unfold dec_len in *. fold h0 in H1, H2, H3, H4, H5.
  rewrite E0, E1.
  assert (La : forall h (v : list C), 2 <= zlen h -> 2 <= zlen v -> zlen v mod 2 = 0 -> zlen (analysis PERIODIZATION h v) = zlen v / 2)
    by (intros; rewrite zlen_analysis by lia; cbn [coeff_len]; lia).
  change linner with (@inner C). rewrite (analysis_adjoint C (rev g0) y), (analysis_adjoint C (rev g1) y) by (rewrite ?zlen_rev, ?La; lia).
  rewrite !rev_involutive.
  assert (Hs : forall h g, zlen h = zlen h0 -> zlen g = zlen h0 -> zlen (synthesis PERIODIZATION g (analysis PERIODIZATION h x)) = zlen x)
    by (intros h g E E'; rewrite zlen_synthesis; cbn [rec_len]; rewrite ?La; lia).
  rewrite <- inner_vadd by (rewrite !Hs by lia; lia). rewrite analysis_synthesis by (auto; cbn [min_len]; lia).
  unfold inner. rewrite Hy. apply sumZ_ext. intros i Hi. rewrite gz_tab by lia. rewrite ext_in by lia. ring.
Qed.

(** One axis. *)
Definition dual_step (sh : list Z) (s s' : step) : Prop :=
  st_ax C s' = st_ax C s /\ st_m C s = PERIODIZATION /\ st_m C s' = PERIODIZATION /\ dual (st_w C s) (st_w C s') /\
  (st_ax C s < List.length sh)%nat /\ 2 <= nthz (st_ax C s) sh /\ nthz (st_ax C s) sh mod 2 = 0.

Lemma dax_inner (s s' : step) (x y : nd C) : dual_step (nshape x) s s' -> nd_wf x -> nd_wf y -> nshape y = nshape x ->
  ndinner (dax (st_ax C s) (st_m C s) (dec_lo (st_w C s)) x) (dax (st_ax C s') (st_m C s') (dec_lo (st_w C s')) y) [+]
  ndinner (dax (st_ax C s) (st_m C s) (dec_hi (st_w C s)) x) (dax (st_ax C s') (st_m C s') (dec_hi (st_w C s')) y) = ndinner x y.
Proof.
  destruct s as [ax [w m]], s' as [ax' [w' m']]. cbn [st_ax st_w st_m fst snd]. unfold dual_step. cbn [st_ax st_w st_m fst snd].
  intros (-> & -> & -> & HD & Hax & HN & HN2) Wx Wy HS. set (n := nthz ax (nshape x)) in *.
  pose proof HD as (Hpr & Hw' & _). destruct (pr_wf w Hpr) as (H1 & _ & _ & H4 & H5). pose proof (dual_len _ _ HD) as HL. destruct Hw' as (H1' & _).
  assert (D : forall h h', zlen h = dec_len w -> zlen h' = dec_len w -> ndinner (dax ax PERIODIZATION h x) (dax ax PERIODIZATION h' y) =
    ndsum (setn ax 1 (nshape x)) (fun idx => linner (analysis PERIODIZATION h (line x ax idx)) (analysis PERIODIZATION h' (line y ax idx)))).
  { intros h h' Hh Hh'. unfold ndinner. unfold dax at 1. rewrite along_shape. fold n. cbn [coeff_len].
    rewrite (ndsum_axis _ ax) by (rewrite setn_length; auto). rewrite setn_setn, nthz_setn by auto.
    apply ndsum_ext. intros idx V. unfold linner. rewrite zlen_analysis by (rewrite ?zlen_line by auto; fold n; lia).
    rewrite zlen_line by auto. fold n. cbn [coeff_len]. apply sumZ_ext. intros i Hi.
    assert (Vi : valid (setn ax ((n + 1) / 2) (nshape x)) (setn ax i idx)).
    { rewrite <- (setn_setn ax ((n + 1) / 2) 1). apply valid_setn; auto. }
    assert (Li : nthz ax (setn ax i idx) = i) by (apply nthz_setn; rewrite (valid_len _ _ V), setn_length; auto).
    unfold dax. rewrite HS. fold n. cbn [coeff_len]. rewrite !ndget_along by (rewrite ?HS; auto). rewrite !line_setn, Li. reflexivity. }
  rewrite !D by (unfold dec_len in *; auto; congruence). rewrite <- ndsum_add. unfold ndinner. rewrite (ndsum_axis (nshape x) ax) by auto. fold n.
  apply ndsum_ext. intros idx V.
  rewrite analysis_inner; auto; rewrite ?zlen_line by auto; rewrite ?HS; fold n; auto.
  unfold linner. rewrite zlen_line by auto. fold n. apply sumZ_ext. intros i Hi. unfold line. rewrite HS. fold n. rewrite !gz_tab by auto. reflexivity.
Qed.

(** All axes of a plan. *)
Definition dual_plan (plan plan' : list step) (sh : list Z) : Prop :=
  NoDup (map (st_ax C) plan) /\ Forall2 (dual_step sh) plan plan'.

Lemma dual_plan_length p p' sh : Forall2 (dual_step sh) p p' -> List.length p' = List.length p.
Proof. induction 1; cbn; auto. Qed.

Lemma band_inner plan : forall plan' x y, dual_plan plan plan' (nshape x) -> nd_wf x -> nd_wf y -> nshape y = nshape x ->
  lsum (map (fun k => ndinner (band C k plan x) (band C k plan' y)) (ad_keys (List.length plan))) = ndinner x y.
Proof.
  induction plan as [|s p IH]; intros plan' x y (Hd & HO) Wx Wy HS; inversion HO as [|? s' ? p' Hs HP]; subst.
  - cbn. change (lsum [ndinner x y] = ndinner x y). change (ndinner x y [+] r0 = ndinner x y). ring.
  - cbn [List.length ad_keys]. rewrite map_app, !map_map, lsum_app. cbn [band].
    cbn [map] in Hd. inversion Hd as [|? ? Hni Hd']; subst.
    rewrite <- (dax_inner s s' x y) by auto.
    assert (G : forall c, let F := dax (st_ax C s) (st_m C s) (pick C c (st_w C s)) in let F' := dax (st_ax C s') (st_m C s') (pick C c (st_w C s')) in
      lsum (map (fun k => ndinner (band C k p (F x)) (band C k p' (F' y))) (ad_keys (List.length p))) = ndinner (F x) (F' y)).
    { intros c F F'. destruct Hs as (A & M & M' & (PR & W' & _) & Hax & HN & HN2).
      assert (SF : nshape (F x) = setn (st_ax C s) ((nthz (st_ax C s) (nshape x) + 1) / 2) (nshape x)) by (unfold F, dax; rewrite along_shape, M; reflexivity).
      assert (SF' : nshape (F' y) = setn (st_ax C s) ((nthz (st_ax C s) (nshape x) + 1) / 2) (nshape x)) by (unfold F', dax; rewrite along_shape, HS, M', A; reflexivity).
      apply IH; auto.
      - split; auto. rewrite SF. clear - HP Hni. induction HP as [|t t' q q' Ht HP IHp]; constructor.
        + destruct Ht as (T1 & T2 & T3 & T4 & T5 & T6 & T7).
          assert (Hne : st_ax C t <> st_ax C s) by (intros E; apply Hni; left; auto).
          unfold dual_step. rewrite setn_length, nthz_setn_ne by auto. auto 8.
        + apply IHp. intros Hi. apply Hni. right. auto.
      - apply dax_wf; auto. rewrite M. cbn [coeff_len]. lia.
      - apply dax_wf; auto. rewrite M', A, HS. cbn [coeff_len]. lia.
      - rewrite SF, SF'. reflexivity. }
    f_equal; [apply (G "a"%char)|apply (G "d"%char)].
Qed.

Definition dinner (X Y : dict (sarr C)) : C := lsum (map (fun '((_, u), (_, v)) => ndinner (val C u) (val C v)) (combine X Y)).
Lemma dinner_bands plan plan' (x y : nd C) l : (forall k, In k l -> nd_wf (band C k plan x) /\ nd_wf (band C k plan' y)) ->
  dinner (map (fun k => (k, of_nd (band C k plan x))) l) (map (fun k => (k, of_nd (band C k plan' y))) l) = lsum (map (fun k => ndinner (band C k plan x) (band C k plan' y)) l).
Proof.
  intros H. unfold dinner. f_equal. induction l as [|k t IH]; cbn [map combine]; auto.
  destruct (H k (or_introl eq_refl)) as (W1 & W2). rewrite !val_of_nd by auto. f_equal. apply IH. intros; apply H; right; auto.
Qed.

Theorem dwtn_inner junk (x y : sarr C) w w' m m' axes plan plan' : sarr_ok C x -> sarr_ok C y -> sshape y = sshape x -> 1 <= ndim x <= 64 -> plan <> [] ->
  resolves C (ndim x) w m (default_axes (ndim x) axes) plan -> plan_ok C fuel plan (sshape x) ->
  resolves C (ndim x) w' m' (default_axes (ndim x) axes) plan' -> plan_ok C fuel plan' (sshape x) -> dual_plan plan plan' (sshape x) ->
  exists X Y, dwtn fuel junk x w m axes = Ok X /\ dwtn fuel junk y w' m' axes = Ok Y /\ map fst X = ad_keys (List.length plan) /\ map fst Y = map fst X /\
    dinner X Y = ndinner (val C x) (val C y).
Proof.
  intros Ox Oy HS Hn Hne HR HP HR' HP' HO. assert (Hny : ndim y = ndim x) by (unfold ndim; rewrite HS; auto).
  pose proof (dual_plan_length _ _ _ (proj2 HO)) as HLn.
  assert (Hne' : plan' <> []) by (destruct plan, plan'; cbn in HLn; congruence).
  eexists _, _. split; [apply (dwtn_bands C fuel junk x w m axes plan); auto|].
  split; [apply (dwtn_bands C fuel junk y w' m' axes plan'); rewrite ?Hny, ?HS; auto|].
  rewrite !map_map. cbn [fst]. rewrite !map_id, HLn. split; auto. split; auto.
  assert (Wx := val_wf C x Ox). assert (Wy := val_wf C y Oy).
  rewrite <- (band_inner plan plan' (val C x) (val C y)); auto; rewrite ?nshape_val; auto.
  apply dinner_bands. intros k Hk. split; apply (band_wf C fuel); auto; rewrite nshape_val; rewrite ?HS; auto.
Qed.

(** Several levels. *)
Definition dual_levels (plan plan' : list step) (sh : list Z) (n : nat) : Prop :=
  Forall2 (fun s s' => st_ax C s' = st_ax C s /\ st_m C s = PERIODIZATION /\ st_m C s' = PERIODIZATION /\ dual (st_w C s) (st_w C s') /\
    (2 ^ Z.of_nat n | nthz (st_ax C s) sh)) plan plan'.
Lemma Forall2_left {A B} (P : A -> B -> Prop) l l' : Forall2 P l l' -> forall x, In x l -> exists y, In y l' /\ P x y.
Proof. induction 1 as [|x y l l' H HF IH]; intros z Hz; [destruct Hz|]. destruct Hz as [<-|Hz]; [exists y; cbn; auto|]. destruct (IH z Hz) as (u & Hu & Pu). exists u. cbn. auto. Qed.

Lemma levels_periodized plan plan' sh n : dual_levels plan plan' sh n -> periodized C plan sh n.
Proof. intros H s Hs. destruct (Forall2_left _ _ _ H s Hs) as (s' & _ & _ & M & _ & (PR & _) & D). auto. Qed.

Lemma level_dual plan plan' sh B N n : levels_good C fuel B sh plan N -> dual_levels plan plan' sh N -> (n < N)%nat -> dual_plan plan plan' (lev plan n sh).
Proof.
  intros HG HO Hn. pose proof (HG n Hn) as (_ & _ & _ & _ & Hd & H6). split; auto.
  assert (HE : forall s, In s plan -> nthz (st_ax C s) (lev plan n sh) mod 2 = 0)
    by (intros s Hs; apply (lev_even C fuel plan sh B N n s HG (levels_periodized _ _ _ _ HO) Hn Hs)).
  assert (HM : forall s, In s plan -> (st_ax C s < List.length (lev plan n sh))%nat /\ min_len (st_m C s) <= nthz (st_ax C s) (lev plan n sh)).
  { intros s Hs. destruct (H6 s Hs) as ((Ha & Hw & Hm & Hr) & _). auto. }
  clear - HO HE HM. revert HE HM. generalize (lev plan n sh). intros sh' HE HM. induction HO as [|s s' p p' (A & M & M' & D & _) HP IH]; constructor.
  - destruct (HM s (or_introl eq_refl)) as (A1 & A2). specialize (HE s (or_introl eq_refl)). rewrite M in A2. cbn [min_len] in A2.
    unfold dual_step. repeat (split; auto). lia.
  - apply IH; intros; [apply HE|apply HM]; right; auto.
Qed.

(** Both plans give the same shapes. *)
Lemma lev_dual plan plan' sh N : dual_levels plan plan' sh N -> forall n sh', lev plan' n sh' = lev plan n sh'.
Proof.
  intros HO. assert (E : forall sh', lev_step C plan' sh' = lev_step C plan sh').
  { unfold lev_step. induction HO as [|s s' p p' (A & M & M' & D & _) HP IH]; intros sh'; cbn [fold_left]; auto.
    assert (E : step_shape C s' sh' = step_shape C s sh') by (unfold step_shape; rewrite A, M, M', (dual_len _ _ D); reflexivity).
    rewrite IH, E. reflexivity. }
  induction n as [|n IH]; intros sh'; cbn [lev_shape]; auto. rewrite IH. apply E.
Qed.

Lemma appr_inner plan plan' B N (x y : nd C) : nd_wf x -> nd_wf y -> nshape y = nshape x ->
  levels_good C fuel B (nshape x) plan N -> levels_good C fuel B (nshape x) plan' N -> dual_levels plan plan' (nshape x) N ->
  forall n, (n <= N)%nat ->
  ndinner (appr C plan n x) (appr C plan' n y) [+]
  lsum (map (fun j => lsum (map (fun k => ndinner (band C k plan (appr C plan j x)) (band C k plan' (appr C plan' j y))) (tl (ad_keys (List.length plan))))) (seq 0 n))
  = ndinner x y.
Proof.
  intros Wx Wy HS HG HG' HO.
  assert (HLn : List.length plan' = List.length plan) by (clear - HO; induction HO; cbn; auto).
  induction n as [|n IH]; intros Hn; [change (ndinner x y [+] r0 = ndinner x y); ring|].
  rewrite <- IH by lia. rewrite seq_S, map_app, lsum_app. cbn [map Nat.add appr].
  destruct (appr_wf C fuel plan B n x Wx) as (Wn & Sn); [intros j Hj; apply HG; lia|].
  destruct (appr_wf C fuel plan' B n y Wy) as (Wn' & Sn'); [rewrite HS; intros j Hj; apply HG'; lia|]. rewrite HS, (lev_dual plan plan' (nshape x) N) in Sn' by auto.
  rewrite <- (band_inner plan plan' (appr C plan n x) (appr C plan' n y)); auto; [|rewrite Sn; apply (level_dual plan plan' (nshape x) B N n); auto|congruence].
  rewrite ad_keys_head, HLn. cbn [map tl]. set (u := map _ (tl _)). set (v := lsum (map _ (seq 0 n))).
  change (lsum [lsum u]) with (lsum u [+] r0). set (b := ndinner _ _). change (lsum (b :: u)) with (b [+] lsum u). ring.
Qed.

Theorem wavedecn_inner junk (x y : sarr C) w w' m m' axes plan plan' B N : sarr_ok C x -> sarr_ok C y -> sshape y = sshape x -> 1 <= ndim x <= 64 -> plan <> [] ->
  resolves C (ndim x) w m (default_axes (ndim x) axes) plan -> plan_good C fuel B (sshape x) plan ->
  resolves C (ndim x) w' m' (default_axes (ndim x) axes) plan' -> plan_good C fuel B (sshape x) plan' -> dual_levels plan plan' (sshape x) N ->
  exists a X b Y, wavedecn fuel junk x w m (Some (Z.of_nat N)) axes = Ok (a, X) /\ wavedecn fuel junk y w' m' (Some (Z.of_nat N)) axes = Ok (b, Y) /\
    List.length X = N /\ List.length Y = N /\ Forall (fun d => map fst d = tl (ad_keys (List.length plan))) (X ++ Y) /\
    ndinner (val C a) (val C b) [+] lsum (map (fun '(d, e) => dinner d e) (combine X Y)) = ndinner (val C x) (val C y).
Proof.
  intros Ox Oy HS Hn Hne HR HG HR' HG' HO. assert (Hny : ndim y = ndim x) by (unfold ndim; rewrite HS; auto).
  assert (HLn : List.length plan' = List.length plan) by (clear - HO; induction HO; cbn; auto).
  assert (Hne' : plan' <> []) by (destruct plan, plan'; cbn in HLn; congruence).
  assert (Hlev : forall q, (forall s, In s q -> st_m C s = PERIODIZATION) -> plan_good C fuel B (sshape x) q ->
    forall s, In s q -> levels_ok (st_m C s) (dec_len (st_w C s)) N (nthz (st_ax C s) (sshape x))).
  { intros q Hq (_ & _ & _ & _ & _ & H6) s Hs. destruct (H6 s Hs) as ((_ & Hw & Hm & _) & _).
    apply levels_ok_intro; auto; [apply Hw|rewrite (Hq s Hs); auto]. }
  assert (HM : forall s, In s plan -> st_m C s = PERIODIZATION) by (intros s Hs; apply (levels_periodized _ _ _ _ HO s Hs)).
  assert (HM' : forall s, In s plan' -> st_m C s = PERIODIZATION).
  { clear - HO. induction HO as [|s s' p p' (A & M & M' & D & _) HP IH]; intros t Ht; [destruct Ht|]. destruct Ht as [<-|Ht]; auto. }
  assert (HL : levels_good C fuel B (sshape x) plan N) by (apply levels_good_intro; auto; apply (Hlev plan); auto).
  assert (HL' : levels_good C fuel B (sshape x) plan' N) by (apply levels_good_intro; auto; apply (Hlev plan'); auto).
  specialize (Hlev plan HM HG) as Hl1. specialize (Hlev plan' HM' HG') as Hl2.
  assert (Hc : forall q, q <> [] -> check_level (level_pairs C (sshape x) q) (Some (Z.of_nat N)) = Ok (Z.of_nat N)).
  { intros q Hq. unfold check_level. destruct q as [|s p]; [congruence|]. unfold level_pairs. cbn [map list_min]. replace (Z.of_nat N <? 0) with false by lia. reflexivity. }
  destruct (wavedecn_spec C fuel junk x w m (Some (Z.of_nat N)) axes plan B (Z.of_nat N)) as (a & Ea & Oa & Va); auto; [rewrite Nat2Z.id; auto|].
  destruct (wavedecn_spec C fuel junk y w' m' (Some (Z.of_nat N)) axes plan' B (Z.of_nat N)) as (b & Eb & Ob & Vb); auto; rewrite ?Hny, ?HS; auto; [rewrite Nat2Z.id; auto|].
  rewrite Nat2Z.id in *. eexists _, _, _, _. split; [exact Ea|]. split; [exact Eb|].
  rewrite !map_length, !rev_length, !seq_length. split; auto. split; auto. split.
  { apply Forall_app. split; apply Forall_forall; intros d Hd; apply in_map_iff in Hd; destruct Hd as (j & <- & _); unfold det; rewrite map_map, ?HLn; apply map_id. }
  assert (Wx := val_wf C x Ox). assert (Wy := val_wf C y Oy).
  rewrite Va, Vb, <- (appr_inner plan plan' B N (val C x) (val C y)) with (n := N); rewrite ?nshape_val; auto. f_equal.
  assert (Hall : forall j, (j < N)%nat -> dinner (det C plan (appr C plan j (val C x))) (det C plan' (appr C plan' j (val C y))) =
    lsum (map (fun k => ndinner (band C k plan (appr C plan j (val C x))) (band C k plan' (appr C plan' j (val C y)))) (tl (ad_keys (List.length plan))))).
  { intros j Hj. unfold det. rewrite HLn. apply dinner_bands. intros k Hk. apply tl_keys in Hk. destruct Hk as (Hk & _).
    destruct (appr_wf C fuel plan B j (val C x) Wx) as (Wn & Sn); [rewrite nshape_val; intros q Hq; apply HL; lia|].
    destruct (appr_wf C fuel plan' B j (val C y) Wy) as (Wn' & Sn'); [rewrite nshape_val, HS; intros q Hq; apply HL'; lia|].
    rewrite nshape_val in *. pose proof (plan_good_ok _ _ _ _ _ (HL j Hj)) as Hpo. pose proof (plan_good_ok _ _ _ _ _ (HL' j Hj)) as Hpo'.
    split; apply (band_wf C fuel); auto; rewrite ?Sn, ?Sn', ?HS; auto; rewrite HLn; auto. }
  assert (G : forall l, (forall j, In j l -> (j < N)%nat) -> map (fun '(d, e) => dinner d e) (combine (map (fun j => det C plan (appr C plan j (val C x))) l) (map (fun j => det C plan' (appr C plan' j (val C y))) l))
    = map (fun j => lsum (map (fun k => ndinner (band C k plan (appr C plan j (val C x))) (band C k plan' (appr C plan' j (val C y)))) (tl (ad_keys (List.length plan))))) l).
  { intros l Hl. induction l as [|j t IHl]; cbn [map combine]; auto. rewrite Hall by (apply Hl; left; auto). f_equal. apply IHl. intros; apply Hl; right; auto. }
  rewrite G by (intros j Hj; apply in_rev in Hj; apply in_seq in Hj; lia). rewrite map_rev, lsum_rev. reflexivity.
Qed.

(** One dimension. *)
Lemma approx_inner w w' (x y : list C) N : dual w w' -> 1 <= zlen x -> (2 ^ Z.of_nat N | zlen x) -> zlen y = zlen x ->
  forall n, (n <= N)%nat ->
  linner (approx PERIODIZATION (dec_lo w) n x) (approx PERIODIZATION (dec_lo w') n y) [+]
  lsum (map (fun j => linner (analysis PERIODIZATION (dec_hi w) (approx PERIODIZATION (dec_lo w) j x)) (analysis PERIODIZATION (dec_hi w') (approx PERIODIZATION (dec_lo w') j y))) (seq 0 n))
  = linner x y.
Proof.
  intros HD Hx Hdiv Hy. pose proof HD as (Hpr & Hw' & _). pose proof (pr_wf w Hpr) as Hw. pose proof (dual_len _ _ HD) as HL.
  induction n as [|n IH]; intros Hn; [change (linner x y [+] r0 = linner x y); ring|].
  rewrite <- IH by lia. rewrite seq_S, map_app, lsum_app. cbn [map Nat.add approx].
  assert (Lx : zlen (approx PERIODIZATION (dec_lo w) n x) = approx_len PERIODIZATION (dec_len w) n (zlen x)) by (apply zlen_approx; [auto|destruct Hw as (_ & _ & _ & _ & ?); unfold dec_len in *; lia]).
  assert (Ly : zlen (approx PERIODIZATION (dec_lo w') n y) = approx_len PERIODIZATION (dec_len w) n (zlen x)) by (rewrite zlen_approx; [rewrite Hy; f_equal; exact HL|lia|destruct Hw' as (_ & _ & _ & _ & ?); unfold dec_len in *; lia]).
  assert (Hp : (2 ^ Z.of_nat (S n) | zlen x)).
  { destruct Hdiv as (q & Hq). replace (Z.of_nat N) with (Z.of_nat (N - S n) + Z.of_nat (S n)) in Hq by lia. rewrite Z.pow_add_r in Hq by lia. exists (q * 2 ^ Z.of_nat (N - S n)). rewrite Hq. ring. }
  assert (Hp' : (2 ^ Z.of_nat n | zlen x)) by (destruct Hp as (q & Hq); rewrite Nat2Z.inj_succ, Z.pow_succ_r in Hq by lia; exists (2 * q); rewrite Hq; ring).
  pose proof (half_len (dec_len w) (zlen x) n Hp') as E0. pose proof (half_len (dec_len w) (zlen x) (S n) Hp) as E1.
  rewrite Nat2Z.inj_succ, Z.pow_succ_r in E1 by lia. assert (0 < 2 ^ Z.of_nat n) by (apply Z.pow_pos_nonneg; lia).
  set (u := approx_len PERIODIZATION (dec_len w) n (zlen x)) in *. set (v := approx_len PERIODIZATION (dec_len w) (S n) (zlen x)) in *. clearbody u v.
  assert (u = 2 * v) by nia. assert (1 <= v) by nia.
  rewrite <- (analysis_inner w w' (approx PERIODIZATION (dec_lo w) n x)) by (auto; lia).
  set (p := linner _ _). set (q := linner _ _). set (t := lsum (map _ _)). change (lsum [?a]) with (a [+] r0). ring.
Qed.

Theorem wavedec_inner (x y : list C) w w' N : dual w w' -> 1 <= zlen x -> (2 ^ Z.of_nat N | zlen x) -> zlen y = zlen x ->
  resources fuel (zlen x) (dec_len w) ->
  exists X Y, wavedec fuel x w PERIODIZATION (Some (Z.of_nat N)) = Ok X /\ wavedec fuel y w' PERIODIZATION (Some (Z.of_nat N)) = Ok Y /\
    List.length X = S N /\ List.length Y = S N /\ lsum (map (fun '(u, v) => linner u v) (combine X Y)) = linner x y.
Proof.
  intros HD Hx Hdiv Hy Hr. pose proof HD as (Hpr & Hw' & _). pose proof (pr_wf w Hpr) as Hw. pose proof (dual_len _ _ HD) as HL.
  assert (Hlev : levels_ok PERIODIZATION (dec_len w) N (zlen x)) by (apply levels_ok_intro; auto; apply Hw).
  eexists _, _. split; [apply wavedec_spec; auto; rewrite ?Nat2Z.id; auto; lia|].
  split; [apply wavedec_spec; rewrite ?Hy, ?HL, ?Nat2Z.id; auto; lia|].
  rewrite Nat2Z.id. unfold multi_analysis. cbn [List.length]. rewrite !map_length, rev_length, seq_length. split; auto. split; auto.
  rewrite <- (approx_inner w w' x y N HD Hx Hdiv Hy N) by lia. cbn [combine map].
  match goal with |- lsum (?a :: ?l) = _ => change (lsum (a :: l)) with (a [+] lsum l) end. f_equal.
  match goal with |- _ = lsum (map ?f (seq 0 N)) => rewrite <- (lsum_rev (map f (seq 0 N))), <- (map_rev f (seq 0 N)) end. f_equal.
  induction (rev (seq 0 N)) as [|j t IH]; cbn [map combine]; auto. f_equal. exact IH.
Qed.
End P.
