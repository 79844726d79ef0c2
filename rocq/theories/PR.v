(** Perfect reconstruction of one level, linearity, shift covariance. *)
From Verif Require Import Base BaseLemmas CConv Spec ExtLemmas Lengths Dwt DwtProofs.

Section PR.
Variable C : CRing.
Add Ring Cring_ring_pr1 : (rth C).

Lemma ext_per_periodic (x : list C) n q : 1 <= zlen x ->
  ext PERIODIZATION x (n + q * (zlen x + zlen x mod 2)) = ext PERIODIZATION x n.
Proof.
  intros H. cbn [ext]. unfold pext. rewrite Z_mod_plus_full. reflexivity.
Qed.

Lemma conv_ext (h : list C) e e' i : (forall n, e n = e' n) -> conv h e i = conv h e' i.
Proof. intros H. unfold conv. apply sumZ_ext. intros. rewrite H. reflexivity. Qed.

Lemma conv_per_periodic (h x : list C) i q : 1 <= zlen x ->
  conv h (ext PERIODIZATION x) (i + q * (zlen x + zlen x mod 2)) = conv h (ext PERIODIZATION x) i.
Proof.
  intros H. unfold conv. apply sumZ_ext. intros t Ht. f_equal.
  replace (i + q * (zlen x + zlen x mod 2) - t) with (i - t + q * (zlen x + zlen x mod 2)) by lia.
  apply ext_per_periodic. auto.
Qed.

Lemma gz_analysis_per (h x : list C) k : 1 <= zlen x ->
  gz (analysis PERIODIZATION h x) (k mod zlen (analysis PERIODIZATION h x))
  = conv h (ext PERIODIZATION x) (2 * k + zlen h / 2).
Proof.
  intros H. unfold analysis. cbn [coeff_len first_pos].
  set (n := (zlen x + 1) / 2). assert (0 < n) by (unfold n; lia).
  rewrite zlen_tab by lia. rewrite gz_tab by (apply Z.mod_pos_bound; lia).
  rewrite (Z.div_mod k n) at 2 by lia.
  replace (2 * (n * (k / n) + k mod n) + zlen h / 2)
    with (2 * (k mod n) + zlen h / 2 + (k / n) * (zlen x + zlen x mod 2)).
  - rewrite conv_per_periodic by auto. reflexivity.
  - assert (E : zlen x + zlen x mod 2 = 2 * n) by (unfold n; lia). rewrite E. ring.
Qed.

Theorem analysis_synthesis (h0 h1 g0 g1 : list C) m (x : list C) :
  pr_bank h0 h1 g0 g1 -> min_len m <= zlen x ->
  vadd (synthesis m g0 (analysis m h0 x)) (synthesis m g1 (analysis m h1 x))
  = tab (zlen x + zlen x mod 2) (ext m x).
Proof.
  intros Hpr Hx. pose proof Hpr as (Hh1 & Hg0 & Hg1 & HF2 & HF & _).
  set (F := zlen h0) in *. set (N := zlen x) in *.
  assert (HN : 1 <= N) by (destruct m; cbn in Hx; lia).
  assert (Hl0 : zlen (analysis m h0 x) = coeff_len m N F) by (apply zlen_analysis; fold N F; lia).
  assert (Hl1 : zlen (analysis m h1 x) = coeff_len m N F) by (rewrite zlen_analysis by (fold N; lia); rewrite Hh1; reflexivity).
  pose proof (rec_coeff_len m N F HN HF HF2) as Hr.
  assert (Hd : m = PERIODIZATION \/ m <> PERIODIZATION) by (destruct m; auto; right; discriminate).
  destruct Hd as [->|Hm].
  - cbn [synthesis]. cbn [rec_len] in Hr. rewrite Hl0, Hl1, Hr.
    rewrite vadd_tab. apply tab_ext. intros n Hn. rewrite Hg0, Hg1.
    rewrite (pr_core C h0 h1 g0 g1 (ext PERIODIZATION x)
       (fun k => gz (analysis PERIODIZATION h0 x) (k mod coeff_len PERIODIZATION N F))
       (fun k => gz (analysis PERIODIZATION h1 x) (k mod coeff_len PERIODIZATION N F)) (n + F / 2 - 1) (F / 2) Hpr).
    + f_equal. fold F. lia.
    + intros t Ht Hp. rewrite <- Hl0. rewrite gz_analysis_per by auto. f_equal. fold F. lia.
    + intros t Ht Hp. rewrite <- Hl1. rewrite gz_analysis_per by auto. f_equal. rewrite Hh1. lia.
  - assert (Hsy : forall g c : list C, synthesis m g c = synthesis ZEROPAD g c) by (intros; destruct m; reflexivity || congruence).
    rewrite !Hsy. cbn [synthesis].
    assert (Hr' : 2 * coeff_len m N F - F + 2 = N + N mod 2) by (rewrite <- Hr; destruct m; reflexivity || congruence).
    assert (Hc : coeff_len m N F = (N + F - 1) / 2) by (destruct m; reflexivity || congruence).
    assert (Hfp : first_pos m F = 1) by (destruct m; reflexivity || congruence).
    rewrite Hl0, Hl1, Hg0, Hg1, Hr'. rewrite vadd_tab. apply tab_ext. intros n Hn.
    rewrite (pr_core C h0 h1 g0 g1 (ext m x) (gz (analysis m h0 x)) (gz (analysis m h1 x)) (n + F - 2) 1 Hpr).
    + f_equal. fold F. lia.
    + intros t Ht Hp. fold F in Ht. unfold analysis. fold N F. rewrite Hc, Hfp. rewrite gz_tab by lia. f_equal. lia.
    + intros t Ht Hp. fold F in Ht. unfold analysis. rewrite Hh1. fold N. rewrite Hc, Hfp. rewrite gz_tab by lia. f_equal. lia.
Qed.

(** idwt inverts dwt, with at most one extra sample. *)
Theorem idwt_dwt fuel (x : list C) w m :
  pr_wavelet w -> min_len m <= zlen x -> resources fuel (zlen x) (dec_len w) ->
  exists cA cD, dwt fuel x w m = Ok (cA, cD) /\
    idwt fuel (Some cA) (Some cD) w m = Ok (tab (zlen x + zlen x mod 2) (ext m x)).
Proof.
  intros Hpr Hx Hr. pose proof (pr_wf w Hpr) as Hw. pose proof Hw as (H1 & H2 & H3 & H4 & H5).
  assert (HN : 1 <= zlen x) by (destruct m; cbn in Hx; lia).
  eexists _, _. split; [apply dwt_single_spec; auto|].
  cbn [idwt].
  assert (Hl0 : zlen (analysis m (dec_lo w) x) = coeff_len m (zlen x) (dec_len w))
    by (apply zlen_analysis; unfold dec_len in *; lia).
  assert (Hl1 : zlen (analysis m (dec_hi w) x) = coeff_len m (zlen x) (dec_len w))
    by (rewrite zlen_analysis by lia; rewrite H1; reflexivity).
  pose proof (coeff_len_bounds m (zlen x) (dec_len w) HN H5).
  rewrite idwt_single_spec; auto; try lia.
  - f_equal. apply analysis_synthesis; auto.
  - rewrite Hl0, rec_coeff_len by auto. lia.
  - rewrite Hl0. unfold resources in *. lia.
Qed.

(** The reconstruction starts with the data. *)
Lemma tab_ext_firstn m (x : list C) : min_len m <= zlen x ->
  firstn (length x) (tab (zlen x + zlen x mod 2) (ext m x)) = x.
Proof.
  intros Hx. assert (HN : 1 <= zlen x) by (destruct m; cbn in Hx; lia).
  replace (length x) with (Z.to_nat (zlen x)) by (unfold zlen; lia).
  rewrite firstn_tab by lia.
  rewrite (tab_ext _ _ (gz x)); [apply tab_gz|].
  intros i Hi. apply ext_in; auto.
Qed.
End PR.
