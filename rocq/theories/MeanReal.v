(** Real orthonormal banks: the sums of the taps, and denoising keeps the mean. *)
From Coq Require Import String List.
From Verif Require Import Base BaseLemmas CConv Spec ExtLemmas Lengths Dwt DwtProofs PR Linear Multilevel MultilevelProofs Facts1 CwtReal CyclicMain Denoise DenoiseSpec DenoiseReal MeanSpec Mean.
From Coq Require Import Reals Lra Psatz.
Import ListNotations.
Open Scope list_scope.
Open Scope R_scope.

Lemma pair_energy (h : list R) (x0 x1 : R) : let c := ((zlen h / 2) mod 2)%Z in
  energy (C := Rring) (analysis (C := Rring) PERIODIZATION h [x0; x1]) = (taps_sum (C := Rring) c h * x0 + taps_sum (C := Rring) (1 - c) h * x1) * (taps_sum (C := Rring) c h * x0 + taps_sum (C := Rring) (1 - c) h * x1).
Proof.
  intros c. pose proof (analysis_total Rring h [x0; x1] ltac:(cbn; lia) eq_refl) as K. cbn zeta in K. fold c in K.
  assert (L : zlen (analysis (C := Rring) PERIODIZATION h [x0; x1]) = 1%Z) by reflexivity.
  unfold total in K. unfold energy, inner. rewrite L in *. change (zlen [x0; x1] / 2)%Z with 1%Z in K.
  set (g := gz (C := Rring) (analysis (C := Rring) PERIODIZATION h [x0; x1]) 0).
  change (0 + g = taps_sum (C := Rring) c h * (0 + x0) + taps_sum (C := Rring) (1 - c) h * (0 + x1)) in K.
  change (0 + g * g = (taps_sum (C := Rring) c h * x0 + taps_sum (C := Rring) (1 - c) h * x1) * (taps_sum (C := Rring) c h * x0 + taps_sum (C := Rring) (1 - c) h * x1)).
  replace g with (taps_sum (C := Rring) c h * x0 + taps_sum (C := Rring) (1 - c) h * x1) by lra. lra.
Qed.

(** The sums of every second tap. *)
Lemma orthonormal_sums w : orthonormal (C := Rring) w ->
  let E := taps_sum (C := Rring) 0 (dec_lo w) in let O := taps_sum (C := Rring) 1 (dec_lo w) in
  let E' := taps_sum (C := Rring) 0 (dec_hi w) in let O' := taps_sum (C := Rring) 1 (dec_hi w) in
  E * E + E' * E' = 1 /\ O * O + O' * O' = 1 /\ E * O + E' * O' = 0.
Proof.
  intros (Hpr & Hr0 & Hr1) E O E' O'. unfold pr_wavelet in Hpr. rewrite Hr0, Hr1 in Hpr.
  assert (K : forall x0 x1 : R, let c := ((zlen (dec_lo w) / 2) mod 2)%Z in
     (taps_sum (C := Rring) c (dec_lo w) * x0 + taps_sum (C := Rring) (1 - c) (dec_lo w) * x1) * (taps_sum (C := Rring) c (dec_lo w) * x0 + taps_sum (C := Rring) (1 - c) (dec_lo w) * x1) +
     (taps_sum (C := Rring) c (dec_hi w) * x0 + taps_sum (C := Rring) (1 - c) (dec_hi w) * x1) * (taps_sum (C := Rring) c (dec_hi w) * x0 + taps_sum (C := Rring) (1 - c) (dec_hi w) * x1) = x0 * x0 + x1 * x1).
  { intros x0 x1 c. pose proof (analysis_energy Rring (dec_lo w) (dec_hi w) [x0; x1] Hpr ltac:(cbn; lia) eq_refl) as A.
    rewrite (pair_energy (dec_lo w) x0 x1), (pair_energy (dec_hi w) x0 x1) in A. cbn zeta in A.
    change (car Rring) with R in *. assert (HL : zlen (A := R) (dec_hi w) = zlen (A := R) (dec_lo w)) by exact (proj1 Hpr). rewrite HL in A.
    match type of A with _ = ?r => change r with (0 + x0 * x0 + x1 * x1) in A end.
    etransitivity; [exact A|]. lra. }
  cbn zeta in K. pose proof (K 1 0) as K1. pose proof (K 0 1) as K2. pose proof (K 1 1) as K3. revert K1 K2 K3. unfold E, O, E', O'.
  assert ((zlen (dec_lo w) / 2) mod 2 = 0 \/ (zlen (dec_lo w) / 2) mod 2 = 1)%Z as [-> | ->] by lia; cbn [Z.sub Z.add Z.opp Z.pos_sub];
  generalize (taps_sum (C := Rring) 0 (dec_lo w)), (taps_sum (C := Rring) 1 (dec_lo w)), (taps_sum (C := Rring) 0 (dec_hi w)), (taps_sum (C := Rring) 1 (dec_hi w));
  cbn; clear; intros; repeat split; lra.
Qed.
Lemma total_taps (h : list R) : total (C := Rring) h = taps_sum (C := Rring) 0 h + taps_sum (C := Rring) 1 h.
Proof.
  change (total (C := Rring) h = radd (c := Rring) (taps_sum (C := Rring) 0 h) (taps_sum (C := Rring) 1 h)). unfold total, taps_sum. rewrite <- sumZ_add. apply sumZ_ext. intros i _.
  destruct (Z.eqb_spec (i mod 2) 0); destruct (Z.eqb_spec (i mod 2) 1); try lia; [change (gz (C := Rring) h i = gz (C := Rring) h i + 0)|change (gz (C := Rring) h i = 0 + gz (C := Rring) h i)]; change (car Rring) with R in *; lra.
Qed.
Theorem sqrt2_sums w : orthonormal (C := Rring) w -> total (C := Rring) (dec_lo w) = sqrt 2 ->
  taps_sum (C := Rring) 0 (dec_lo w) = sqrt 2 / 2 /\ taps_sum (C := Rring) 1 (dec_lo w) = sqrt 2 / 2 /\ total (C := Rring) (dec_hi w) = 0.
Proof.
  intros Ho Ht. pose proof (orthonormal_sums w Ho) as K. cbn zeta in K. rewrite total_taps in *. pose proof (sqrt_sqrt 2 ltac:(lra)) as S.
  revert K Ht. generalize (taps_sum (C := Rring) 0 (dec_lo w)), (taps_sum (C := Rring) 1 (dec_lo w)), (taps_sum (C := Rring) 0 (dec_hi w)), (taps_sum (C := Rring) 1 (dec_hi w)).
  change (car Rring) with R. intros E O E' O' (K1 & K2 & K3) Ht.
  assert (H : E * E + O * O = 1).
  { assert (H1 : (E * E) * (O * O) = (E' * E') * (O' * O')). { transitivity ((E * O) * (E * O)); [ring|]. replace (E * O) with (- (E' * O')) by lra. ring. }
    replace (E' * E') with (1 - E * E) in H1 by lra. replace (O' * O') with (1 - O * O) in H1 by lra. assert (H2 : (1 - E * E) * (1 - O * O) = 1 - E * E - O * O + E * E * (O * O)) by ring. lra. }
  assert (E = O). { apply Rminus_diag_uniq. apply Rsqr_0_uniq. unfold Rsqr. assert (H1 : (E + O) * (E + O) = 2) by (rewrite Ht; exact S). assert (H2 : (E + O) * (E + O) + (E - O) * (E - O) = 2 * (E * E + O * O)) by ring. lra. }
  subst O. split; [lra|]. split; [lra|]. apply Rsqr_0_uniq. unfold Rsqr. assert (H2 : (E' + O') * (E' + O') = E' * E' + O' * O' + 2 * (E' * O')) by ring. lra.
Qed.

(** Denoising does not change the mean. *)
Theorem denoised_mean fuel w N v mode x y ds ds' : orthonormal w -> total (C := Rring) (dec_lo w) = sqrt 2 -> data_ok fuel w N x -> denoised fuel w N v mode x y ds ds' ->
  zlen y = zlen x /\ total (C := Rring) y = total (C := Rring) x.
Proof.
  intros Ho Ht Hx Hd. destruct (denoised_dist fuel w N v mode x y ds ds' Ho Hx Hd) as (a & E & E' & L & _). split; auto. destruct Hx as (H1 & H2 & H3).
  destruct (sqrt2_sums w Ho Ht) as (S0 & S1 & _).
  destruct (wavedec_mean Rring fuel x w N (sqrt 2 / 2) (proj1 Ho) H1 H2 H3 S0 S1) as (b & es & W & T).
  destruct (wavedec_mean Rring fuel y w N (sqrt 2 / 2) (proj1 Ho)) as (b' & es' & W' & T'); change (car Rring) with R in *; rewrite ?L; auto.
  assert (b = a) by congruence. assert (b' = a) by congruence. subst b b'. rewrite T in T'.
  assert (P : forall n, power (C := Rring) (sqrt 2 / 2) n <> 0).
  { induction n as [|n IH]; [cbn; exact R1_neq_R0|]. cbn [power]. apply Rmult_integral_contrapositive_currified; auto. pose proof (Rlt_sqrt2_0). lra. }
  symmetry. exact (Rmult_eq_reg_l _ _ _ T' (P N)).
Qed.
