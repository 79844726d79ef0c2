(** Denoising of n-dimensional real data keeps the mean. *)
From Coq Require Import String List.
From Verif Require Import Base BaseLemmas CConv Spec Lengths Dwt DwtProofs Nd NdSpec Axis AxisProofs Multidim MultidimProofs Multilevel MultilevelProofs Facts1 MultilevelNd MultilevelNdProofs MultilevelNdFacts CyclicMain CyclicNd ParsevalNd
  CwtReal DenoiseSpec DenoiseReal DenoiseNdSpec DenoiseNd DenoiseNdReal MeanSpec Mean MeanReal MeanNd.
From Coq Require Import Reals Lra.
Import ListNotations.
Open Scope list_scope. Open Scope R_scope.

Definition lowpass_plan (plan : list (step Rring)) : Prop := forall s, In s plan -> total (C := Rring) (dec_lo (st_w Rring s)) = sqrt 2.

Theorem image_denoised_mean fuel junk w m axes plan B N v mode x y X X' : image_ok fuel w m axes plan B N x -> lowpass_plan plan ->
  image_denoised fuel junk w m axes N v mode x y X X' -> sshape y = sshape x /\ nd_total (C := Rring) (val Rring y) = nd_total (C := Rring) (val Rring x).
Proof.
  intros Hx Ht Hd. destruct (denoised_back fuel junk w m axes plan B N v mode x y X X' Hx Hd) as (a & a2 & X2 & E1 & E2 & Va & _).
  destruct Hd as (_ & _ & _ & _ & Oy & Sy). split; auto. pose proof (image_same fuel w m axes plan B N x y Hx Oy Sy) as Hy.
  destruct Hx as (O & H1 & H2 & H3 & H4 & H5 & H6). destruct Hy as (_ & I1 & _ & I3 & _ & I5 & I6).
  assert (Hs : forall s, In s plan -> taps_sum (C := Rring) 0 (dec_lo (st_w Rring s)) = sqrt 2 / 2 /\ taps_sum (C := Rring) 1 (dec_lo (st_w Rring s)) = sqrt 2 / 2).
  { intros s Hs. destruct (H6 s Hs) as (_ & Ho & _). destruct (sqrt2_sums _ Ho (Ht s Hs)) as (S0 & S1 & _). auto. }
  assert (Hb : balanced (C := Rring) plan) by (intros s Hi; destruct (Hs s Hi) as (S0 & S1); congruence).
  assert (P : forall z, orthonormal_levels Rring plan (sshape z) N -> periodized Rring plan (sshape (C := Rring) z) N) by (intros z K s Hi; destruct (K s Hi) as (M & Ho & D); split; auto; split; auto; apply Ho).
  destruct (wavedecn_mean Rring fuel junk x w m (Some axes) plan B N O H1 H2 H3 H5 (P x H6) Hb) as (b & ds & W & T).
  destruct (wavedecn_mean Rring fuel junk y w m (Some axes) plan B N Oy I1 H2 I3 I5 (P y I6) Hb) as (b' & ds' & W' & T').
  assert (b = a) by congruence. assert (b' = a2) by congruence. subst b b'. rewrite Va, T in T'.
  assert (G0 : gains (C := Rring) plan <> 0).
  { clear - Hs. unfold gains. induction plan as [|s p IH]; [cbn; exact R1_neq_R0|]. cbn [fold_right]. apply Rmult_integral_contrapositive_currified; [|apply IH; intros; apply Hs; right; auto].
    destruct (Hs s (or_introl eq_refl)) as (S0 & _). pose proof Rlt_sqrt2_0. change (car Rring) with R in *. lra. }
  assert (G : forall n, power (C := Rring) (gains plan) n <> 0).
  { induction n as [|n IH]; [cbn; exact R1_neq_R0|]. cbn [power]. apply Rmult_integral_contrapositive_currified; auto. }
  symmetry. exact (Rmult_eq_reg_l _ _ _ T' (G N)).
Qed.
