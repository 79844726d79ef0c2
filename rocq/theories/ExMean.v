(** Example banks for the mean. *)
From Coq Require Import String List.
From Verif Require Import Base BaseLemmas CConv Spec Instances Lengths Dwt DwtProofs Multilevel MultilevelProofs Facts1 ExBanks CwtReal FilterSpec FiltersProofs CyclicMain Denoise DenoiseSpec ThreshC ThreshCSpec ThreshCProofs DenoiseReal MeanSpec.
From Coq Require Import Reals Lra Psatz.
Import ListNotations.
Open Scope list_scope.

(** Both sums of every second tap are -1. *)
Definition zmean : wavelet Zring := (mkWavelet (C := Zring) [-1; -1] [2; 1] [-2; 1] [-1; 1])%Z.
Lemma zmean_pr : pr_wavelet zmean.
Proof. apply (pr_check_ok Zring Z.eqb). { intros. now apply Z.eqb_eq. } vm_compute. reflexivity. Qed.

(** The sums are 1. *)
Definition zmean2 : wavelet Zring := (mkWavelet (C := Zring) [1; 1] [2; 1] [2; -1] [-1; 1])%Z.
Lemma zmean2_pr : pr_wavelet zmean2.
Proof. apply (pr_check_ok Zring Z.eqb). { intros. now apply Z.eqb_eq. } vm_compute. reflexivity. Qed.

Open Scope R_scope.
(** The Haar bank. *)
Definition rhaar : wavelet Rring := bi_bank (C := Rring) [sqrt 2 / 2; sqrt 2 / 2] [sqrt 2 / 2; sqrt 2 / 2].
Lemma rhaar_orthonormal : orthonormal rhaar.
Proof.
  split; [|split; unfold rhaar, bi_bank; cbn [dec_lo dec_hi rec_lo rec_hi]; rewrite rev_involutive; reflexivity].
  apply bi_bank_pr; [reflexivity|reflexivity|cbn; lia|]. intros u Hu. unfold corr. change (zlen _) with 2%Z.
  set (l := [sqrt 2 / 2; sqrt 2 / 2] : list Rring). assert (G : forall i, (i < 0 \/ 2 <= i)%Z -> gz l i = r0).
  { intros i [H|H]; [exact (gz_neg (C := Rring) _ _ H)|exact (gz_big (C := Rring) l i H)]. }
  unfold sumZ. change (Z.to_nat (2 - 0)) with 2%nat. cbn [sumn]. pose proof (sqrt_sqrt 2 ltac:(lra)) as S.
  destruct (Z.eqb_spec u 0) as [->|H].
  - cbn. change (0 + sqrt 2 / 2 * (sqrt 2 / 2) + sqrt 2 / 2 * (sqrt 2 / 2) = 1). lra.
  - rewrite (G (0 + Z.of_nat 0 + u)%Z), (G (0 + Z.of_nat 1 + u)%Z) by lia. change (0 + sqrt 2 / 2 * 0 + sqrt 2 / 2 * 0 = 0). lra.
Qed.
Lemma rhaar_total : total (C := Rring) (dec_lo rhaar) = sqrt 2.
Proof. change (0 + sqrt 2 / 2 + sqrt 2 / 2 = sqrt 2). lra. Qed.
Lemma rhaar_data : data_ok 99 rhaar 2 [1; 2; 0; 5; 3; -1; 4; 4].
Proof. split; [cbn; lia|]. split; [exists 2%Z; reflexivity|]. unfold resources. vm_compute. repeat split; congruence || lia. Qed.
Lemma rhaar_denoised : exists y ds ds', denoised 99 rhaar 2 2 "soft" [1; 2; 0; 5; 3; -1; 4; 4] y ds ds'.
Proof. assert (P : 0 < 2) by lra. exact (denoise_total 99 rhaar 2 2 "soft" _ rhaar_orthonormal rhaar_data (fun d => soft_total 2 d P)). Qed.
