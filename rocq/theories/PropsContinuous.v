(** Property theorems for the continuous wavelets (C84-C89). *)
From Coq Require Import QArith Reals Qreals Lra Lia ZArith List String.
Import ListNotations.
From Verif Require Import Base BaseLemmas CConv Dwt Filters Names Wavefun.
From Verif Require Import ContinuousSpec ContinuousPoly Continuous ContinuousDoc ContinuousProofs ContinuousMain ExContinuous.
Open Scope R_scope.

(** C84. *)
Theorem C84_derivative : forall n, (1 <= n <= 8)%nat ->
  exists g, nth_derivative n (fun x => exp (- x ^ 2)) g /\
    forall x, gaus (Z.of_nat n) x = (-1) ^ (n / 2) * g x / sqrt (odd_factorial n * sqrt (PI / 2)).
Proof. exact gaus_derivative. Qed.
Print Assumptions C84_derivative.
Example C84_derivative_ex : (1 <= 3 <= 8)%nat /\ gaus 3 1 = - (4 * exp (-1)) / sqrt (15 * sqrt (PI / 2)).
Proof. split; [lia|exact gaus3_val]. Qed.

Theorem C84_energy : forall n, (1 <= n <= 8)%nat -> integral_over_line (fun x => gaus (Z.of_nat n) x ^ 2) 1.
Proof. exact gaus_energy. Qed.
Print Assumptions C84_energy.
Example C84_energy_ex : (1 <= 8 <= 8)%nat /\ gaus 3 1 = - (4 * exp (-1)) / sqrt (15 * sqrt (PI / 2)).
Proof. split; [lia|exact gaus3_val]. Qed.

Theorem C84_moments : forall n m, (1 <= n <= 8)%nat -> (m < n)%nat -> integral_over_line (fun x => x ^ m * gaus (Z.of_nat n) x) 0.
Proof. exact gaus_moments. Qed.
Print Assumptions C84_moments.
Example C84_moments_ex : (1 <= 4 <= 8)%nat /\ (3 < 4)%nat.
Proof. lia. Qed.

Theorem C84_last_moment : forall n, (1 <= n <= 8)%nat -> exists v, v <> 0 /\ integral_over_line (fun x => x ^ n * gaus (Z.of_nat n) x) v.
Proof. exact gaus_last_moment. Qed.
Print Assumptions C84_last_moment.
Example C84_last_moment_ex : (1 <= 2 <= 8)%nat.
Proof. lia. Qed.

Theorem C84_parity : forall n x, (1 <= n <= 8)%nat -> gaus (Z.of_nat n) (- x) = (-1) ^ n * gaus (Z.of_nat n) x.
Proof. exact gaus_parity. Qed.
Print Assumptions C84_parity.
Example C84_parity_ex : (1 <= 3 <= 8)%nat /\ gaus 3 1 = - (4 * exp (-1)) / sqrt (15 * sqrt (PI / 2)).
Proof. split; [lia|exact gaus3_val]. Qed.

(** C85. Real and imaginary part of the n-th derivative of exp(-i x) exp(-x^2). *)
Theorem C85_derivative : forall n, (1 <= n <= 8)%nat ->
  exists k gr gi, 0 < k /\ nth_derivative n (fun x => cos x * exp (- x ^ 2)) gr /\ nth_derivative n (fun x => - sin x * exp (- x ^ 2)) gi /\
    forall x, cgau_r (Z.of_nat n) x = gr x / k /\ cgau_i (Z.of_nat n) x = gi x / k.
Proof. exact cgau_derivative. Qed.
Print Assumptions C85_derivative.
Example C85_derivative_ex : (1 <= 2 <= 8)%nat /\ cgau_r 2 0 = -3 / sqrt (10 * sqrt (PI / 2)) /\ cgau_i 2 0 = 0.
Proof. split; [lia|exact cgau2_val]. Qed.

Theorem C85_energy : forall n, (1 <= n <= 8)%nat -> integral_over_line (fun x => cgau_r (Z.of_nat n) x ^ 2 + cgau_i (Z.of_nat n) x ^ 2) 1.
Proof. exact cgau_energy. Qed.
Print Assumptions C85_energy.
Example C85_energy_ex : (1 <= 2 <= 8)%nat /\ cgau_r 2 0 = -3 / sqrt (10 * sqrt (PI / 2)) /\ cgau_i 2 0 = 0.
Proof. split; [lia|exact cgau2_val]. Qed.

Theorem C85_moments : forall n m, (1 <= n <= 8)%nat -> (m < n)%nat ->
  integral_over_line (fun x => x ^ m * cgau_r (Z.of_nat n) x) 0 /\ integral_over_line (fun x => x ^ m * cgau_i (Z.of_nat n) x) 0.
Proof. exact cgau_moments. Qed.
Print Assumptions C85_moments.
Example C85_moments_ex : (1 <= 7 <= 8)%nat /\ (6 < 7)%nat.
Proof. lia. Qed.

(** C86. *)
Theorem C86_mexh_derivative : exists g, nth_derivative 2 (fun x => exp (- x ^ 2 / 2)) g /\ forall x, mexh x = - (2 / (sqrt 3 * sqrt (sqrt PI))) * g x.
Proof. exact mexh_derivative. Qed.
Print Assumptions C86_mexh_derivative.
Example C86_mexh_ex : mexh 0 = 2 / (sqrt 3 * sqrt (sqrt PI)) /\ mexh 1 = 0.
Proof. exact mexh_val. Qed.

Theorem C86_mexh_energy : integral_over_line (fun x => mexh x ^ 2) 1.
Proof. exact mexh_energy. Qed.
Print Assumptions C86_mexh_energy.

Theorem C86_mexh_moments : forall m, (m < 2)%nat -> integral_over_line (fun x => x ^ m * mexh x) 0.
Proof. exact mexh_moments. Qed.
Print Assumptions C86_mexh_moments.
Example C86_mexh_moments_ex : (1 < 2)%nat.
Proof. lia. Qed.

Theorem C86_morl : forall x, morl x = exp (- x ^ 2 / 2) * cos (5 * x) /\ Rabs (morl x) <= exp (- x ^ 2 / 2) /\ morl (- x) = morl x.
Proof. exact (fun x => conj (Rmult_comm _ _) (conj (morl_bound x) (morl_even x))). Qed.
Print Assumptions C86_morl.
Example C86_morl_ex : morl 0 = 1.
Proof. exact morl_val. Qed.

(** C87. *)
Theorem C87_shan : forall B C x, 0 < B ->
  shan_r B C x = sqrt B * sinc (PI * B * x) * cos (2 * PI * C * x) /\ shan_i B C x = sqrt B * sinc (PI * B * x) * sin (2 * PI * C * x).
Proof. exact shan_doc. Qed.
Print Assumptions C87_shan.
Example C87_shan_ex : 0 < 1 /\ shan_r 1 1 0 = 1 /\ shan_r 1 1 1 = 0.
Proof. split; [lra|exact shan_val]. Qed.

Theorem C87_fbsp : forall M B C x, (0 < M)%Z -> 0 < B ->
  fbsp_r M B C x = sqrt B * sinc (PI * B * x / INR (Z.to_nat M)) ^ Z.to_nat M * cos (2 * PI * C * x) /\
  fbsp_i M B C x = sqrt B * sinc (PI * B * x / INR (Z.to_nat M)) ^ Z.to_nat M * sin (2 * PI * C * x).
Proof. exact fbsp_doc. Qed.
Print Assumptions C87_fbsp.
Example C87_fbsp_ex : (0 < 2)%Z /\ 0 < 1 /\ fbsp_r 2 1 1 0 = 1 /\ fbsp_r 2 1 1 2 = 0.
Proof. split; [lia|]. split; [lra|exact fbsp_val]. Qed.

Theorem C87_cmor : forall B C x,
  cmor_r B C x = / sqrt (PI * B) * exp (- x ^ 2 / B) * cos (2 * PI * C * x) /\ cmor_i B C x = / sqrt (PI * B) * exp (- x ^ 2 / B) * sin (2 * PI * C * x).
Proof. exact cmor_doc. Qed.
Print Assumptions C87_cmor.
Example C87_cmor_ex : cmor_r (/ PI) 1 0 = 1 /\ cmor_i (/ PI) 1 0 = 0.
Proof. exact cmor_val. Qed.

Theorem C87_continuous : forall M B C, (0 < M)%Z -> 0 < B ->
  continuity sinc /\ continuity (shan_r B C) /\ continuity (shan_i B C) /\ continuity (fbsp_r M B C) /\ continuity (fbsp_i M B C).
Proof. exact (fun M B C HM HB => conj sinc_cont (conj (proj1 (shan_cont B C HB)) (conj (proj2 (shan_cont B C HB)) (fbsp_cont M B C HM HB)))). Qed.
Print Assumptions C87_continuous.
Example C87_continuous_ex : (0 < 2)%Z /\ 0 < 1 /\ shan_r 1 1 0 = 1 /\ fbsp_r 2 1 1 0 = 1.
Proof. split; [lia|]. split; [lra|]. exact (conj (proj1 shan_val) (proj1 fbsp_val)). Qed.

Theorem C87_fbsp_1 : forall B C x, 0 < B -> fbsp_r 1 B C x = shan_r B C x /\ fbsp_i 1 B C x = shan_i B C x.
Proof. exact fbsp_1. Qed.
Print Assumptions C87_fbsp_1.
Example C87_fbsp_1_ex : 0 < 1 /\ shan_r 1 1 0 = 1 /\ shan_r 1 1 1 = 0.
Proof. split; [lra|exact shan_val]. Qed.

Theorem C87_modulus : forall M B C x, (0 < M)%Z -> 0 < B ->
  shan_r B C x ^ 2 + shan_i B C x ^ 2 = B * sinc (PI * B * x) ^ 2 /\
  fbsp_r M B C x ^ 2 + fbsp_i M B C x ^ 2 = B * (sinc (PI * B * x / INR (Z.to_nat M)) ^ Z.to_nat M) ^ 2 /\
  sqrt (cmor_r B C x ^ 2 + cmor_i B C x ^ 2) = exp (- x ^ 2 / B) / sqrt (PI * B).
Proof. exact (fun M B C x HM HB => conj (shan_modulus B C x HB) (conj (fbsp_modulus M B C x HM HB) (cmor_modulus B C x HB))). Qed.
Print Assumptions C87_modulus.
Example C87_modulus_ex : (0 < 2)%Z /\ 0 < 1 /\ fbsp_r 2 1 1 0 = 1 /\ fbsp_r 2 1 1 2 = 0.
Proof. split; [lia|]. split; [lra|exact fbsp_val]. Qed.

Theorem C87_cmor_l1 : forall B C, 0 < B -> integral_over_line (fun x => sqrt (cmor_r B C x ^ 2 + cmor_i B C x ^ 2)) 1.
Proof. exact cmor_l1. Qed.
Print Assumptions C87_cmor_l1.
Example C87_cmor_l1_ex : 0 < / PI /\ cmor_r (/ PI) 1 0 = 1.
Proof. exact (conj (Rinv_0_lt_compat _ PI_RGT_0) (proj1 cmor_val)). Qed.

(** C88. Missing: wavelets whose name gives a frequency 0. *)
Theorem C88_wavefun_partial : forall name a level length n, continuous_attrs name = Ok a -> usable a ->
  (length = Some n \/ length = None /\ (0 <= level)%Z /\ n = (2 ^ level)%Z) -> (1 <= n < max_alloc)%Z ->
  exists p x f, c_wavefun a level length = Ok (p, x) /\ documented_psi a f /\ zlen x = n /\ samples p = Z.to_nat n /\ is_complex p = a_complex a /\
    (forall i, (0 <= i < n)%Z -> (nth (Z.to_nat i) x 0 == a_lower a + inject_Z i * ((a_upper a - a_lower a) / inject_Z (n - 1)))%Q) /\
    (forall i, (0 <= i < n)%Z -> sample p (Z.to_nat i) = f (Q2R (nth (Z.to_nat i) x 0%Q))).
Proof. exact c_wavefun_values. Qed.
Print Assumptions C88_wavefun_partial.
Example C88_wavefun_ex : continuous_attrs "cmor1.5-1.0" = Ok cmor_a /\ usable cmor_a /\ (1 <= 2 ^ 8 < max_alloc)%Z.
Proof. split; [exact attrs_cmor|]. split; [exact cmor_usable|unfold max_alloc; lia]. Qed.

Theorem C88_errors : forall name a level length, continuous_attrs name = Ok a ->
  ((exists n, length = Some n /\ (n < 0)%Z) -> c_wavefun a level length = Err ValueError) /\
  (length = Some 0%Z \/ (length = None /\ (level < 0)%Z) -> c_wavefun a level length = Err RuntimeError) /\
  (~ usable a -> (exists n, (length = Some n \/ length = None /\ (0 <= level)%Z /\ n = (2 ^ level)%Z) /\ (1 <= n < max_alloc)%Z) ->
     c_wavefun a level length = Err TypeError).
Proof. exact c_wavefun_errors. Qed.
Print Assumptions C88_errors.
Example C88_errors_ex : continuous_attrs "cmor1.0-0" = Ok cmor_0 /\ ~ usable cmor_0.
Proof. exact (conj attrs_cmor_0 cmor_0_unusable). Qed.

Theorem C88_zero_frequency_refuted : exists name a, continuous_attrs name = Ok a /\ c_wavefun a 8 None = Err TypeError.
Proof. exact (ex_intro _ _ (ex_intro _ _ (conj attrs_cmor_0 cmor_0_err))). Qed.
Print Assumptions C88_zero_frequency_refuted.

(** C89. Missing: the complex wavelets. *)
Theorem C89_real_partial : forall name a level length n p x, continuous_attrs name = Ok a -> a_complex a = false ->
  (length = Some n \/ length = None /\ (0 <= level)%Z /\ n = (2 ^ level)%Z) -> (2 <= n < max_alloc)%Z ->
  c_wavefun a level length = Ok (p, x) ->
  (a_symmetry a = Symmetric /\ forall i, (0 <= i < n)%Z -> fst (sample p (Z.to_nat (n - 1 - i))) = fst (sample p (Z.to_nat i))) \/
  (a_symmetry a = AntiSymmetric /\ forall i, (0 <= i < n)%Z -> fst (sample p (Z.to_nat (n - 1 - i))) = - fst (sample p (Z.to_nat i))).
Proof. exact symmetry_real. Qed.
Print Assumptions C89_real_partial.
Example C89_real_ex : continuous_attrs "gaus3" = Ok (mkAttrs GAUS 3 AntiSymmetric false (-5) 5 0 0 0) /\ (2 <= 2 ^ 8 < max_alloc)%Z.
Proof. split; [exact attrs_gaus3|unfold max_alloc; lia]. Qed.

Theorem C89_conjugate : forall name a level length n p x, continuous_attrs name = Ok a -> usable a -> a_complex a = true ->
  (length = Some n \/ length = None /\ (0 <= level)%Z /\ n = (2 ^ level)%Z) -> (2 <= n < max_alloc)%Z ->
  c_wavefun a level length = Ok (p, x) ->
  exists s, (s = 1 \/ s = -1) /\ (a_family a <> CGAU -> s = 1) /\
    forall i, (0 <= i < n)%Z -> sample p (Z.to_nat (n - 1 - i)) = (s * fst (sample p (Z.to_nat i)), - s * snd (sample p (Z.to_nat i))).
Proof. exact symmetry_conj. Qed.
Print Assumptions C89_conjugate.
Example C89_conjugate_ex : continuous_attrs "cmor1.5-1.0" = Ok cmor_a /\ usable cmor_a /\ a_complex cmor_a = true /\ (2 <= 2 ^ 8 < max_alloc)%Z.
Proof. split; [exact attrs_cmor|]. split; [exact cmor_usable|]. split; [reflexivity|unfold max_alloc; lia]. Qed.

Theorem C89_complex_refuted : exists name a p x, continuous_attrs name = Ok a /\ a_symmetry a = AntiSymmetric /\ c_wavefun a 8 (Some 3%Z) = Ok (p, x) /\
  (nth 1 x 0 == 0)%Q /\ snd (sample p 1) <> - snd (sample p 1).
Proof. exact cgau1_not_odd. Qed.
Print Assumptions C89_complex_refuted.
