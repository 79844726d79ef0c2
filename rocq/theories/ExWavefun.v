(** Concrete wavelets for the theorems about wavefun. *)
From Verif Require Import Base BaseLemmas CConv Spec Instances Lengths Dwt Swt DwtProofs ExBanks ExBanks2 FilterSpec Filters FiltersProofs FiltersFacts ExFilters.
From Verif Require Import Cwt Wavefun WavefunSpec WavefunProofs WavefunFacts WavefunMain WavefunMore.
From Coq Require Import QArith Qcanon.
Open Scope Z_scope.

(** An orthonormal scaling filter of length 4: sqrt 2 / 50 times 21 28 4 -3. *)
Definition h4 : list QS2 := [qs 0 1 21 50; qs 0 1 28 50; qs 0 1 4 50; qs 0 1 (-3) 50].
Definition W4 : dwave QS2 := mkDwave (bi_bank h4 h4) true true 2 0.
Lemma h4_dual : even_shift_dual (C := QS2) h4 h4.
Proof. apply (esd_check_ok QS2 qs_eqb qs_eqb_ok). vm_compute. reflexivity. Qed.
Lemma h4_sum : (sumZ 0 (zlen h4) (gz h4) : QS2) = sqrt2.
Proof. apply qs_eqb_ok. vm_compute. reflexivity. Qed.
Lemma h4_high : (sumZ 0 (zlen (rec_hi (w_bank W4))) (gz (rec_hi (w_bank W4))) : QS2) = r0.
Proof. apply qs_eqb_ok. vm_compute. reflexivity. Qed.
Lemma h4_even : (sqrt2 [*] even_part h4 : QS2) = r1.
Proof. apply qs_eqb_ok. vm_compute. reflexivity. Qed.
Lemma h4_odd : (sqrt2 [*] odd_part h4 : QS2) = r1.
Proof. apply qs_eqb_ok. vm_compute. reflexivity. Qed.
Lemma W4_wf : wf_bank (w_bank W4).
Proof. apply bi_wf; [reflexivity|reflexivity|vm_compute; discriminate]. Qed.
Lemma res4 level : level <= 3 -> wf_res 60 4 level.
Proof.
  intros H. unfold wf_res. assert (2 ^ level <= 2 ^ 3) by (apply Z.pow_le_mono_r; lia). change (2 ^ 3) with 8 in H0.
  assert (100 < max_alloc) by (vm_compute; reflexivity). lia.
Qed.
Lemma W4_run level : 1 <= level <= 3 -> exists phi psi x, wavefun 60 sqrt2 W4 level = Ok (WfOrth phi psi x).
Proof.
  intros H. destruct (wavefun_orth QS2 60 sqrt2 W4 level W4_wf eq_refl) as (phi & psi & x & E & _); [lia|apply res4; lia|].
  exists phi, psi, x. exact E.
Qed.

(** The 5/3 biorthogonal wavelet (bior2.2): sqrt 2 / 4 times 1 2 1 and
    sqrt 2 / 8 times -1 2 6 2 -1. *)
Definition a6 : list QS2 := [qs 0 1 0 1; qs 0 1 1 4; qs 0 1 1 2; qs 0 1 1 4; qs 0 1 0 1; qs 0 1 0 1].
Definition b6 : list QS2 := [qs 0 1 (-1) 8; qs 0 1 1 4; qs 0 1 3 4; qs 0 1 1 4; qs 0 1 (-1) 8; qs 0 1 0 1].
Definition W6 : dwave QS2 := mkDwave (bi_bank a6 b6) false true 2 2.
Lemma ab6_dual : even_shift_dual (C := QS2) a6 b6.
Proof. apply (esd_check_ok QS2 qs_eqb qs_eqb_ok). vm_compute. reflexivity. Qed.
Lemma W6_wf : wf_bank (w_bank W6).
Proof. apply bi_wf; [reflexivity|reflexivity|vm_compute; discriminate]. Qed.
Lemma res6 level : level <= 3 -> wf_res 60 6 level.
Proof.
  intros H. unfold wf_res. assert (2 ^ level <= 2 ^ 3) by (apply Z.pow_le_mono_r; lia). change (2 ^ 3) with 8 in H0.
  assert (100 < max_alloc) by (vm_compute; reflexivity). lia.
Qed.
Lemma W6_run level : 1 <= level <= 3 -> exists phi_d psi_d phi_r psi_r x, wavefun 60 sqrt2 W6 level = Ok (WfBior phi_d psi_d phi_r psi_r x).
Proof.
  intros H. destruct (wavefun_bior QS2 60 sqrt2 W6 level W6_wf eq_refl) as (a & b & c & d & x & E & _); [lia|apply res6; lia|].
  exists a, b, c, d, x. exact E.
Qed.
Lemma W6_sums : total (dec_lo (w_bank W6)) = (sqrt2 : QS2) /\ total (dec_hi (w_bank W6)) = (r0 : QS2) /\
  total (rec_lo (w_bank W6)) = (sqrt2 : QS2) /\ total (rec_hi (w_bank W6)) = (r0 : QS2).
Proof. repeat split; apply qs_eqb_ok; vm_compute; reflexivity. Qed.
Lemma W6_parts : (sqrt2 [*] even_part (rec_lo (w_bank W6)) : QS2) = r1 /\ (sqrt2 [*] odd_part (rec_lo (w_bank W6)) : QS2) = r1 /\
  (sqrt2 [*] even_part (rev (dec_lo (w_bank W6))) : QS2) = r1 /\ (sqrt2 [*] odd_part (rev (dec_lo (w_bank W6))) : QS2) = r1.
Proof. repeat split; apply qs_eqb_ok; vm_compute; reflexivity. Qed.
(** Two vanishing moments on both sides. *)
Lemma W6_moments r : (r <= 1)%nat -> (moment (rev (dec_hi (w_bank W6))) r : QS2) = r0 /\ (moment (rec_hi (w_bank W6)) r : QS2) = r0.
Proof. intros H. destruct r as [|[|r]]; [split; apply qs_eqb_ok; vm_compute; reflexivity..|lia]. Qed.
Lemma h4_moment0 r : (r <= 0)%nat -> (moment (rec_hi (w_bank W4)) r : QS2) = r0.
Proof. intros H. destruct r as [|r]; [apply qs_eqb_ok; vm_compute; reflexivity|lia]. Qed.

(** Integer filters, with 3 in the place of the square root of 2. *)
Definition wz : wavelet Zring := mkWavelet (C := Zring) [2; 0; -1; 5] [1; 1; 0; 2] [1; 2; 3; 4] [1; -2; 1; 0].
Definition Wz : dwave Zring := mkDwave wz true true 2 0.
Definition Wzb : dwave Zring := mkDwave wz false true 2 0.
Definition Wzc : dwave Zring := mkDwave wz false true 5 0.
Lemma wz_wf : wf_bank wz. Proof. repeat split; vm_compute; congruence. Qed.

Definition mag7 : list Q := [0; 1; 2; 5; 5; 2; 1]%Q.
Definition mag8 : list Q := [9; 1; 2; 1; 0; 1; 3; 1]%Q.
Definition grid7 : list Q := [0; 1 # 2; 1; 3 # 2; 2; 5 # 2; 3]%Q.
Definition grid8 : list Q := [0; 1 # 2; 1; 3 # 2; 2; 5 # 2; 3; 4]%Q.
Lemma mag7_peak : peak mag7 3.
Proof.
  assert (Hl : zlen mag7 = 7) by reflexivity.
  split; [lia|]. split; intros j Hj.
  - assert (H : j = 1 \/ j = 2 \/ j = 3 \/ j = 4 \/ j = 5 \/ j = 6) by lia.
    repeat (destruct H as [-> | H]); [..|subst j]; vm_compute; discriminate.
  - assert (H : j = 1 \/ j = 2) by lia. destruct H as [-> | ->]; reflexivity.
Qed.
Lemma mag8_peak : peak mag8 6.
Proof.
  assert (Hl : zlen mag8 = 8) by reflexivity.
  split; [lia|]. split; intros j Hj.
  - assert (H : j = 1 \/ j = 2 \/ j = 3 \/ j = 4 \/ j = 5 \/ j = 6 \/ j = 7) by lia.
    repeat (destruct H as [-> | H]); [..|subst j]; vm_compute; discriminate.
  - assert (H : j = 1 \/ j = 2 \/ j = 3 \/ j = 4 \/ j = 5) by lia. repeat (destruct H as [-> | H]); [..|subst j]; reflexivity.
Qed.

(** The largest magnitude is at the frequencies 3 and -3 of 7 (a real signal has
    a symmetric spectrum); the frequency 4 / (grid width) is reported. *)
Lemma central_odd_length : exists (x mag : list Q) k f,
  peak mag k /\ (0 < grid_width x)%Q /\ zlen x = zlen mag /\
  (forall j, 1 <= j < zlen mag -> nth (Z.to_nat j) mag 0%Q = nth (Z.to_nat (zlen mag - j)) mag 0%Q) /\
  central_frequency qgt x mag = Ok f /\ ~ (f == inject_Z (Z.min k (zlen mag - k)) / grid_width x)%Q.
Proof.
  exists grid7, mag7, 3. eexists. split; [exact mag7_peak|]. split; [reflexivity|]. split; [reflexivity|]. split.
  - assert (Hl : zlen mag7 = 7) by reflexivity. rewrite Hl. intros j Hj. assert (H : j = 1 \/ j = 2 \/ j = 3 \/ j = 4 \/ j = 5 \/ j = 6) by lia.
    repeat (destruct H as [-> | H]); [..|subst j]; reflexivity.
  - split; [vm_compute; reflexivity|]. vm_compute. discriminate.
Qed.
