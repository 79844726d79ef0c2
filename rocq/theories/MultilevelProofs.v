(** Multilevel 1-D transforms: structure, perfect reconstruction; downcoef and
    upcoef; idwt with missing arrays. *)
From Verif Require Import Base BaseLemmas CConv Spec ExtLemmas UpConv Lengths Dwt DwtProofs PR LengthsProofs Linear Multilevel.

Section ML.
Variable C : CRing.
Add Ring Cring_ring_ml : (rth C).
Variable fuel : nat.

Definition levels_ok m F (n : nat) N := forall j, (j < n)%nat -> min_len m <= approx_len m F j N.

Lemma min_len_1 m : 1 <= min_len m.
Proof. destruct m; cbn; lia. Qed.

Lemma approx_len_pos m F n N : 1 <= N -> 2 <= F -> 1 <= approx_len m F n N <= Z.max N F.
Proof.
  intros HN HF. induction n as [|n IH]; cbn [approx_len]; [lia|].
  pose proof (coeff_len_bounds m (approx_len m F n N) F). lia.
Qed.

(** Sufficient conditions: every mode but the reflections, or filters with at
    least four taps. *)
Lemma levels_ok_intro m F n N : 2 <= F -> min_len m <= N -> (min_len m = 1 \/ 4 <= F) -> levels_ok m F n N.
Proof.
  intros HF HN H j _. destruct H as [E|E].
  - rewrite E in *. apply approx_len_pos; auto.
  - induction j; cbn [approx_len]; auto. destruct m; cbn [min_len coeff_len] in *; lia.
Qed.

Lemma zlen_approx m h n (x : list C) : 1 <= zlen x -> 2 <= zlen h ->
  zlen (approx m h n x) = approx_len m (zlen h) n (zlen x).
Proof.
  intros HN HF. induction n as [|n IH]; cbn [approx approx_len]; [reflexivity|].
  pose proof (approx_len_pos m (zlen h) n (zlen x) HN HF).
  rewrite zlen_analysis by lia. rewrite IH. reflexivity.
Qed.

Lemma approx_S m h n (x : list C) : approx m h n (analysis m h x) = approx m h (S n) x.
Proof. induction n as [|n IH]; cbn [approx] in *; [reflexivity|]. rewrite IH. reflexivity. Qed.

Lemma approx_len_S m F n N : approx_len m F n (coeff_len m N F) = approx_len m F (S n) N.
Proof. induction n as [|n IH]; cbn [approx_len] in *; [reflexivity|]. rewrite IH. reflexivity. Qed.

Lemma resources_le fuel' N N' F : resources fuel' N F -> 1 <= N' <= Z.max N F -> resources fuel' N' F.
Proof. unfold resources. lia. Qed.

Lemma wavedec_loop_spec w m n : forall (x : list C) acc,
  wf_bank w -> 1 <= zlen x -> levels_ok m (dec_len w) n (zlen x) -> resources fuel (zlen x) (dec_len w) ->
  wavedec_loop fuel x w m n acc = Ok (multi_analysis m (dec_lo w) (dec_hi w) n x ++ rev acc).
Proof.
  induction n as [|n IH]; intros x acc Hw HN Hl Hr; cbn [wavedec_loop].
  - rewrite rev_app_distr. reflexivity.
  - pose proof Hw as (H1 & H2 & H3 & H4 & H5).
    assert (Hx : min_len m <= zlen x) by (apply (Hl O); lia).
    unfold dwt. rewrite dwt_single_spec by auto. cbn [bind fst snd].
    assert (Hz : zlen (analysis m (dec_lo w) x) = coeff_len m (zlen x) (dec_len w))
      by (apply zlen_analysis; unfold dec_len in *; lia).
    pose proof (coeff_len_bounds m (zlen x) (dec_len w) HN H5).
    rewrite IH; auto; try lia.
    + rewrite rev_app_distr. cbn [rev app]. unfold multi_analysis. rewrite approx_S.
      cbn [app]. do 2 f_equal. cbn [seq rev]. rewrite map_app. cbn [map]. rewrite <- app_assoc. cbn [app]. f_equal.
      rewrite <- seq_shift, <- map_rev, map_map. apply map_ext. intros j. rewrite approx_S. reflexivity.
    + intros j Hj. rewrite Hz, approx_len_S. apply Hl. lia.
    + rewrite Hz. apply resources_le with (zlen x); auto.
Qed.

Lemma check_level_1 N F l : check_level [(N, F)] l =
  match l with None => Ok (dwt_max_level_c N F) | Some l => if l <? 0 then Err ValueError else Ok l end.
Proof. reflexivity. Qed.

Theorem wavedec_spec (x : list C) w m level :
  wf_bank w -> 1 <= zlen x -> 0 <= level -> levels_ok m (dec_len w) (Z.to_nat level) (zlen x) ->
  resources fuel (zlen x) (dec_len w) ->
  wavedec fuel x w m (Some level) = Ok (multi_analysis m (dec_lo w) (dec_hi w) (Z.to_nat level) x).
Proof.
  intros. unfold wavedec. rewrite check_level_1. replace (level <? 0) with false by lia. cbn [bind].
  rewrite wavedec_loop_spec by auto. cbn [rev]. rewrite app_nil_r. reflexivity.
Qed.

Theorem wavedec_default (x : list C) w m :
  wavedec fuel x w m None = wavedec fuel x w m (Some (dwt_max_level_c (zlen x) (dec_len w))).
Proof.
  unfold wavedec. rewrite !check_level_1. pose proof (dwt_max_level_nonneg (zlen x) (dec_len w)).
  replace (_ <? 0) with false by lia. reflexivity.
Qed.

Theorem wavedec_negative (x : list C) w m level : level < 0 -> wavedec fuel x w m (Some level) = Err ValueError.
Proof. intros. unfold wavedec. rewrite check_level_1. replace (level <? 0) with true by lia. reflexivity. Qed.

(** If some level meets a signal too short for its extension mode, an error is
    raised: nothing else can happen. *)
Lemma wavedec_loop_fail w m n : forall (x : list C) acc,
  wf_bank w -> 1 <= zlen x -> resources fuel (zlen x) (dec_len w) ->
  ~ levels_ok m (dec_len w) n (zlen x) -> wavedec_loop fuel x w m n acc = Err ValueError.
Proof.
  induction n as [|n IH]; intros x acc Hw HN Hr Hl.
  - exfalso. apply Hl. intros j Hj. lia.
  - cbn [wavedec_loop]. pose proof Hw as (H1 & H2 & H3 & H4 & H5).
    destruct (Z_le_gt_dec (min_len m) (zlen x)) as [Hx|Hx].
    + unfold dwt. rewrite dwt_single_spec by auto. cbn [bind fst snd].
      assert (Hz : zlen (analysis m (dec_lo w) x) = coeff_len m (zlen x) (dec_len w))
        by (apply zlen_analysis; unfold dec_len in *; lia).
      pose proof (coeff_len_bounds m (zlen x) (dec_len w) HN H5).
      apply IH; auto; try lia.
      * rewrite Hz. apply resources_le with (zlen x); auto.
      * intros Hl'. apply Hl. intros [|j] Hj; [exact Hx|]. rewrite <- approx_len_S, <- Hz. apply Hl'. lia.
    + assert (Hx1 : zlen x = 1) by (destruct m; cbn in Hx; lia).
      assert (Hm : m = REFLECT \/ m = ANTIREFLECT) by (destruct m; cbn in Hx; auto; lia).
      destruct x as [|a [|? ?]]; try (unfold zlen in Hx1; cbn in Hx1; lia).
      unfold dwt. rewrite dwt_single_reflect1; auto.
Qed.

Theorem wavedec_fail (x : list C) w m level :
  wf_bank w -> 1 <= zlen x -> 0 <= level -> ~ levels_ok m (dec_len w) (Z.to_nat level) (zlen x) ->
  resources fuel (zlen x) (dec_len w) ->
  wavedec fuel x w m (Some level) = Err ValueError.
Proof.
  intros. unfold wavedec. rewrite check_level_1. replace (level <? 0) with false by lia. cbn [bind].
  apply wavedec_loop_fail; auto.
Qed.

(** ** Reconstruction *)
Lemma waverec_loop_app (a : option (list C)) ds ds' w m :
  waverec_loop fuel a (ds ++ ds') w m = (b <- waverec_loop fuel a ds w m ;; waverec_loop fuel b ds' w m).
Proof.
  revert a. induction ds as [|d ds IH]; intros a; cbn [waverec_loop app]; [reflexivity|].
  destruct (waverec_step fuel a d w m); cbn [bind]; auto.
Qed.

Lemma waverec_loop_nonempty a d ds w m :
  waverec (C:=C) fuel (a :: d :: ds) w m = waverec_loop fuel a (d :: ds) w m.
Proof. reflexivity. Qed.

Lemma waverec_as_loop a ds w m : waverec (C:=C) fuel (a :: ds) w m = waverec_loop fuel a ds w m.
Proof. destruct ds; reflexivity. Qed.

Lemma multi_analysis_S m h0 h1 n (x : list C) :
  multi_analysis m h0 h1 (S n) x = multi_analysis m h0 h1 n (analysis m h0 x) ++ [analysis m h1 x].
Proof.
  unfold multi_analysis. rewrite approx_S. cbn [seq rev]. rewrite map_app. cbn [map app approx]. f_equal. f_equal.
  rewrite <- seq_shift, <- map_rev, map_map. apply map_ext. intros j. rewrite approx_S. reflexivity.
Qed.

(** What waverec returns: the data, extended by one sample if the length is odd
    and at least one level was undone. *)
Definition rec_result (m : mode) (n : nat) (x : list C) : list C :=
  match n with O => x | _ => tab (zlen x + zlen x mod 2) (ext m x) end.

Lemma waverec_multi w m n : forall (x : list C),
  pr_wavelet w -> 1 <= zlen x -> levels_ok m (dec_len w) n (zlen x) -> resources fuel (zlen x) (dec_len w) ->
  waverec fuel (map Some (multi_analysis m (dec_lo w) (dec_hi w) n x)) w m = Ok (Some (rec_result m n x)).
Proof.
  induction n as [|n IH]; intros x Hpr HN Hl Hr; [reflexivity|].
  rewrite multi_analysis_S, map_app. unfold multi_analysis at 1. cbn [map app]. rewrite waverec_as_loop, waverec_loop_app.
  pose proof (pr_wf w Hpr) as Hw. pose proof Hw as (H1 & H2 & H3 & H4 & H5).
  assert (Hx : min_len m <= zlen x) by (apply (Hl O); lia).
  set (a := analysis m (dec_lo w) x). set (d := analysis m (dec_hi w) x).
  assert (Hza : zlen a = coeff_len m (zlen x) (dec_len w)) by (apply zlen_analysis; unfold dec_len in *; lia).
  assert (Hzd : zlen d = coeff_len m (zlen x) (dec_len w))
    by (unfold d; rewrite zlen_analysis by lia; rewrite H1; reflexivity).
  pose proof (coeff_len_bounds m (zlen x) (dec_len w) HN H5).
  specialize (IH a Hpr). unfold multi_analysis in IH. cbn [map] in IH. rewrite waverec_as_loop in IH.
  rewrite IH; try lia.
  2: { intros j Hj. rewrite Hza, approx_len_S. apply Hl. lia. }
  2: { rewrite Hza. apply resources_le with (zlen x); auto. }
  cbn [bind waverec_loop].
  assert (Hr' : resources fuel (zlen a) (dec_len w)) by (rewrite Hza; apply resources_le with (zlen x); auto).
  assert (Hstep : waverec_step fuel (Some (rec_result m n a)) (Some d) w m = idwt fuel (Some a) (Some d) w m).
  { unfold waverec_step. unfold rec_result. destruct n as [|n'].
    - replace (zlen a =? zlen d + 1) with false by lia. replace (zlen a =? zlen d) with true by lia. reflexivity.
    - assert (Hma : min_len m <= zlen a) by (rewrite Hza; apply (Hl 1%nat); lia).
      pose proof (tab_ext_firstn C m a Hma) as Hfirst.
      assert (Hlen : length d = length a) by (unfold zlen in *; lia).
      rewrite zlen_tab by lia. destruct (Z.eq_dec (zlen a mod 2) 0) as [E|E].
      + replace (zlen a + zlen a mod 2 =? zlen d + 1) with false by lia.
        replace (zlen a + zlen a mod 2 =? zlen d) with true by lia. cbn [negb bind].
        rewrite E, Z.add_0_r in *.
        assert (Ha : tab (zlen a) (ext m a) = a).
        { rewrite <- Hfirst at 3. symmetry. apply firstn_all2.
          pose proof (zlen_tab (zlen a) (ext m a)). unfold zlen in *. lia. }
        rewrite Ha. reflexivity.
      + replace (zlen a + zlen a mod 2 =? zlen d + 1) with true by lia. cbn [bind].
        rewrite Hlen, Hfirst. reflexivity. }
  rewrite Hstep. destruct (idwt_dwt C fuel x w m Hpr Hx Hr) as (cA & cD & Hd & Hi).
  unfold dwt in Hd. rewrite dwt_single_spec in Hd by auto. injection Hd as <- <-.
  unfold a, d. rewrite Hi. reflexivity.
Qed.

Theorem waverec_wavedec (x : list C) w m level :
  pr_wavelet w -> 1 <= zlen x -> 0 <= level -> levels_ok m (dec_len w) (Z.to_nat level) (zlen x) ->
  resources fuel (zlen x) (dec_len w) ->
  exists cs, wavedec fuel x w m (Some level) = Ok cs /\
    waverec fuel (map Some cs) w m = Ok (Some (rec_result m (Z.to_nat level) x)).
Proof.
  intros. eexists. split.
  - apply wavedec_spec; auto. apply pr_wf; auto.
  - apply waverec_multi; auto.
Qed.

Lemma rec_result_props m n (x : list C) : (n = O \/ min_len m <= zlen x) ->
  firstn (length x) (rec_result m n x) = x /\
  zlen (rec_result m n x) = zlen x + (if (0 <? Z.of_nat n) then zlen x mod 2 else 0).
Proof.
  intros Hx. destruct n as [|n]; cbn [rec_result].
  - rewrite firstn_all. split; [reflexivity|]. change (0 <? Z.of_nat 0) with false. cbv iota. lia.
  - destruct Hx as [?|Hx]; [discriminate|]. split; [apply tab_ext_firstn; auto|].
    replace (0 <? Z.of_nat (S n)) with true by lia. apply zlen_tab. pose proof (min_len_1 m). lia.
Qed.

(** ** downcoef *)
Lemma downcoef_loop_spec b w m n : forall (x : list C),
  wf_bank w -> 1 <= zlen x -> levels_ok m (dec_len w) (S n) (zlen x) -> resources fuel (zlen x) (dec_len w) ->
  downcoef_loop fuel b x w m (S n) =
    Ok (analysis m (if b then dec_lo w else dec_hi w) (approx m (dec_lo w) n x)).
Proof.
  induction n as [|n IH]; intros x Hw HN Hl Hr; pose proof Hw as (H1 & H2 & H3 & H4 & H5);
    assert (Hx : min_len m <= zlen x) by (apply (Hl O); lia);
    pose proof (coeff_len_bounds m (zlen x) (dec_len w) HN H5);
    rewrite (eq_refl : downcoef_loop fuel b x w m (S _) = 
      (let output_len := dwt_buffer_length (zlen x) (dec_len w) m in
      if output_len <? 1 then Err RuntimeError else
      coeffs <- np_zeros output_len ;;
      coeffs <- (if b || _
                 then as_runtime (dec_a fuel x w coeffs m)
                 else as_runtime (dec_d fuel x w coeffs m)) ;;
      downcoef_loop fuel b coeffs w m _));
    cbv zeta; rewrite coeff_len_buffer by lia;
    replace (coeff_len m (zlen x) (dec_len w) <? 1) with false by lia;
    (destruct (np_zeros_ok C (coeff_len m (zlen x) (dec_len w))) as (z & Hz & Hzl & _); [unfold resources in Hr; lia|]);
    rewrite Hz; cbn [bind].
  - destruct b; cbn [orb].
    + rewrite dec_a_ok by auto. reflexivity.
    + rewrite dec_d_ok by auto. reflexivity.
  - replace (b || true) with true by (destruct b; reflexivity).
    rewrite dec_a_ok by auto. cbn [as_runtime bind].
    assert (Hza : zlen (analysis m (dec_lo w) x) = coeff_len m (zlen x) (dec_len w)) by (apply zlen_analysis; unfold dec_len in *; lia).
    rewrite IH; auto; try lia.
    + rewrite approx_S. reflexivity.
    + intros j Hj. rewrite Hza, approx_len_S. apply Hl. lia.
    + rewrite Hza. apply resources_le with (zlen x); auto.
Qed.

Theorem downcoef_spec b (x : list C) w m level :
  wf_bank w -> 1 <= zlen x -> 1 <= level -> levels_ok m (dec_len w) (Z.to_nat level) (zlen x) ->
  resources fuel (zlen x) (dec_len w) ->
  downcoef fuel b x w m level =
    Ok (analysis m (if b then dec_lo w else dec_hi w) (approx m (dec_lo w) (Z.to_nat (level - 1)) x)).
Proof.
  intros Hw HN HL Hl Hr. unfold downcoef. replace (level <? 1) with false by lia.
  replace (Z.to_nat level) with (S (Z.to_nat (level - 1))) in * by lia.
  apply downcoef_loop_spec; auto.
Qed.

(** downcoef returns the first (part 'a') or second (part 'd') entry of wavedec. *)
Theorem downcoef_wavedec (x : list C) w m level :
  wf_bank w -> 1 <= zlen x -> 1 <= level -> levels_ok m (dec_len w) (Z.to_nat level) (zlen x) ->
  resources fuel (zlen x) (dec_len w) ->
  exists cA cD rest, wavedec fuel x w m (Some level) = Ok (cA :: cD :: rest) /\
    downcoef fuel true x w m level = Ok cA /\ downcoef fuel false x w m level = Ok cD.
Proof.
  intros Hw HN HL Hl Hr. rewrite wavedec_spec by (auto; lia).
  rewrite !downcoef_spec by auto.
  replace (Z.to_nat level) with (S (Z.to_nat (level - 1))) by lia.
  unfold multi_analysis. rewrite seq_S. cbn [Nat.add]. rewrite rev_app_distr. cbn [rev app map].
  eexists _, _, _. split; [reflexivity|]. split; reflexivity.
Qed.

Theorem downcoef_level b (x : list C) w m level : level < 1 -> downcoef fuel b x w m level = Err ValueError.
Proof. intros. unfold downcoef. replace (level <? 1) with true by lia. reflexivity. Qed.

(** ** idwt with missing arrays *)
Theorem idwt_none_right (a : list C) w m : idwt fuel (Some a) None w m = idwt fuel (Some a) (Some (repeat r0 (length a))) w m.
Proof. reflexivity. Qed.
Theorem idwt_none_left (d : list C) w m : idwt fuel None (Some d) w m = idwt fuel (Some (repeat r0 (length d))) (Some d) w m.
Proof. reflexivity. Qed.
Theorem idwt_none_none (w : wavelet C) m : idwt fuel None None w m = Err ValueError.
Proof. reflexivity. Qed.

Lemma zlen_syn m (g c : list C) : 0 <= rec_len m (zlen c) (zlen g) -> zlen (synthesis m g c) = rec_len m (zlen c) (zlen g).
Proof. apply zlen_synthesis. Qed.

Theorem idwt_spec (cA cD : list C) w m :
  wf_bank w -> zlen cA = zlen cD -> 1 <= zlen cA -> 1 <= rec_len m (zlen cA) (dec_len w) ->
  resources fuel (zlen cA) (dec_len w) ->
  idwt fuel (Some cA) (Some cD) w m = Ok (vadd (synthesis m (rec_lo w) cA) (synthesis m (rec_hi w) cD)) /\
  idwt fuel (Some cA) None w m = Ok (synthesis m (rec_lo w) cA) /\
  idwt fuel None (Some cD) w m = Ok (synthesis m (rec_hi w) cD).
Proof.
  intros Hw Hl Hn Hrec Hr. pose proof Hw as (H1 & H2 & H3 & H4 & H5).
  assert (Hla : length cA = length cD) by (unfold zlen in Hl; lia).
  split; [apply idwt_single_spec; auto|]. cbn [idwt]. split.
  - rewrite idwt_single_spec; auto; try (rewrite zlen_repeat; reflexivity).
    f_equal. rewrite synthesis_zero by (fold (zlen cA); rewrite H3; lia). fold (zlen cA).
    rewrite <- (vadd_zero_r C (synthesis m (rec_lo w) cA)) at 2. f_equal. f_equal.
    pose proof (zlen_synthesis C m (rec_lo w) cA). rewrite H2 in *. rewrite H3. unfold zlen in *. lia.
  - rewrite idwt_single_spec; auto; try (rewrite zlen_repeat; fold (zlen cD); lia || rewrite <- Hl; auto).
    + f_equal. rewrite synthesis_zero by (fold (zlen cD); rewrite H2, <- Hl; lia). fold (zlen cD).
      rewrite <- (vadd_zero_l C (synthesis m (rec_hi w) cD)) at 2. f_equal. f_equal.
      assert (Hs : zlen (synthesis m (rec_hi w) cD) = rec_len m (zlen cD) (zlen (rec_hi w)))
        by (apply zlen_synthesis; rewrite H3, <- Hl; lia).
      rewrite H2, <- H3, <- Hs. unfold zlen. lia.
Qed.

(** ** upcoef *)
(** Full upsampled convolution: length 2n + F - 2. *)
Definition full_synthesis (g c : list C) : list C :=
  tab (2 * zlen c + zlen g - 2) (fun n => up_conv g (gz c) n).

Fixpoint full_approx (g : list C) (n : nat) (c : list C) : list C :=
  match n with O => c | S n' => full_approx g n' (full_synthesis g c) end.

Fixpoint full_len (F : Z) (n : nat) (N : Z) : Z :=
  match n with O => N | S n' => full_len F n' (2 * N + F - 2) end.

Lemma full_len_ge F n : forall N, 1 <= N -> 2 <= F -> N <= full_len F n N.
Proof. induction n as [|n IH]; intros N HN HF; cbn [full_len]; [lia|]. specialize (IH (2*N+F-2)). lia. Qed.

Lemma zlen_full g (c : list C) : 1 <= zlen c -> 2 <= zlen g -> zlen (full_synthesis g c) = 2 * zlen c + zlen g - 2.
Proof. intros. apply zlen_tab. lia. Qed.

Lemma full_up (c g : list C) :
  1 <= zlen c -> 2 <= zlen g -> zlen g mod 2 = 0 -> 2 * zlen c + zlen g - 2 + 16 <= Z.of_nat fuel ->
  upsampling_convolution_full fuel c g (repeat r0 (Z.to_nat (2 * zlen c + zlen g - 2))) = Ok (full_synthesis g c).
Proof.
  intros. rewrite upsampling_convolution_full_spec; auto; rewrite ?zlen_repeat; try lia.
  f_equal. unfold full_synthesis. replace (Z.of_nat (Z.to_nat (2 * zlen c + zlen g - 2))) with (2 * zlen c + zlen g - 2) by lia.
  apply tab_ext. intros. rewrite gz_repeat0. ring.
Qed.

Lemma upcoef_step (b first : bool) (c : list C) w n :
  wf_bank w -> 1 <= zlen c ->
  2 * zlen c + dec_len w - 2 + 16 <= Z.of_nat fuel -> 2 * zlen c + dec_len w - 2 < max_alloc ->
  upcoef_loop fuel b first c w (S n) =
    upcoef_loop fuel b false (full_synthesis (if b || negb first then rec_lo w else rec_hi w) c) w n.
Proof.
  intros Hw Hc Hf Ha. pose proof Hw as (H1 & H2 & H3 & H4 & H5).
  cbn [upcoef_loop]. cbv zeta.
  assert (Hrb : reconstruction_buffer_length (zlen c) (dec_len w) = 2 * zlen c + dec_len w - 2).
  { unfold reconstruction_buffer_length. replace ((zlen c <? 1) || (dec_len w <? 1)) with false by lia. lia. }
  rewrite Hrb. replace (2 * zlen c + dec_len w - 2 <? 1) with false by lia.
  destruct (np_zeros_ok C (2 * zlen c + dec_len w - 2)) as (z & Hz & Hzl & Hze); [lia|].
  rewrite Hz. cbn [bind]. subst z.
  destruct (b || negb first); unfold rec_a, rec_d, rec_flen; rewrite H2, Hzl, Hrb, Z.eqb_refl.
  - rewrite <- H2. rewrite full_up by lia. reflexivity.
  - rewrite <- H3. rewrite full_up by lia. reflexivity.
Qed.

Lemma upcoef_loop_false (b : bool) w n : forall (c : list C),
  wf_bank w -> 1 <= zlen c ->
  full_len (dec_len w) n (zlen c) + 16 <= Z.of_nat fuel -> full_len (dec_len w) n (zlen c) < max_alloc ->
  upcoef_loop fuel b false c w n = Ok (full_approx (rec_lo w) n c).
Proof.
  induction n as [|n IH]; intros c Hw Hc Hf Ha; [reflexivity|].
  pose proof Hw as (H1 & H2 & H3 & H4 & H5). cbn [full_len] in *.
  pose proof (full_len_ge (dec_len w) n (2 * zlen c + dec_len w - 2)).
  rewrite upcoef_step by (auto; lia). replace (b || negb false) with true by (destruct b; reflexivity).
  cbn [full_approx]. apply IH; auto; rewrite zlen_full; rewrite ?H2; lia.
Qed.

Theorem upcoef_spec (b : bool) (c : list C) w level :
  wf_bank w -> 1 <= zlen c -> 1 <= level ->
  let L := Z.to_nat level in
  full_len (dec_len w) L (zlen c) + 16 <= Z.of_nat fuel -> full_len (dec_len w) L (zlen c) < max_alloc ->
  upcoef fuel b c w level 0 =
    Ok (full_approx (rec_lo w) (Z.to_nat (level - 1)) (full_synthesis (if b then rec_lo w else rec_hi w) c)).
Proof.
  intros Hw Hc HL L Hf Ha. unfold upcoef. replace (level <? 1) with false by lia. fold L.
  assert (EL : L = S (Z.to_nat (level - 1))) by lia. rewrite EL in *. cbn [full_len] in *.
  pose proof Hw as (H1 & H2 & H3 & H4 & H5).
  pose proof (full_len_ge (dec_len w) (Z.to_nat (level - 1)) (2 * zlen c + dec_len w - 2)).
  rewrite upcoef_step by (auto; lia).
  replace (b || negb true) with b by (destruct b; reflexivity).
  assert (Hz : zlen (full_synthesis (if b then rec_lo w else rec_hi w) c) = 2 * zlen c + dec_len w - 2)
    by (destruct b; rewrite zlen_full; rewrite ?H2, ?H3; lia).
  rewrite upcoef_loop_false by (auto; rewrite Hz; lia). reflexivity.
Qed.

Theorem upcoef_level (b : bool) (c : list C) w level take : level < 1 -> upcoef fuel b c w level take = Err ValueError.
Proof. intros. unfold upcoef. replace (level <? 1) with true by lia. reflexivity. Qed.

(** take: the central part. *)
Theorem upcoef_take (b : bool) (c out : list C) w level take :
  upcoef fuel b c w level 0 = Ok out ->
  upcoef fuel b c w level take =
    Ok (if (0 <? take) && (take <? zlen out)
        then tab take (fun i => gz out (i + (zlen out - take) / 2)) else out).
Proof.
  unfold upcoef. destruct (level <? 1); [discriminate|].
  destruct (upcoef_loop fuel b true c w (Z.to_nat level)) as [o| | |]; cbn [bind]; try discriminate.
  cbn [Z.ltb Z.compare andb]. injection 1 as ->.
  destruct ((0 <? take) && (take <? zlen out)) eqn:E; [|reflexivity]. f_equal.
  apply andb_prop in E. destruct E as [E1 E2].
  unfold slice_neg.
  set (l := (zlen out - take) / 2). set (r := l + _).
  assert (Hlr : zlen out - r - l = take) by (unfold r, l; destruct (Z.eqb_spec ((zlen out - take) mod 2) 0); lia).
  rewrite Hlr. assert (Hl : 0 <= l /\ l + take <= zlen out) by (unfold r, l in *; lia).
  apply list_ext.
  - rewrite zlen_tab by lia. unfold zlen in *. rewrite firstn_length, skipn_length. lia.
  - intros i Hi.
    assert (Hi' : 0 <= i < take) by (unfold zlen in *; rewrite firstn_length, skipn_length in Hi; lia).
    rewrite gz_tab by lia. rewrite gz_firstn, gz_skipn by lia. f_equal. lia.
Qed.

(** idwt is the interior of the sum of the two full reconstructions. *)
Theorem synthesis_full m (g c : list C) : m <> PERIODIZATION -> 2 <= zlen g -> 1 <= zlen c ->
  synthesis m g c = tab (2 * zlen c - zlen g + 2) (fun n => gz (full_synthesis g c) (n + zlen g - 2)).
Proof.
  intros Hm Hg Hc. replace (synthesis m g c) with (synthesis ZEROPAD g c) by (destruct m; reflexivity || congruence).
  cbn [synthesis]. apply tab_ext. intros n Hn. unfold full_synthesis. rewrite gz_tab by lia. reflexivity.
Qed.

End ML.
Arguments rec_result {C}. Arguments full_synthesis {C}. Arguments full_approx {C}.
