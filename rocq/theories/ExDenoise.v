(** An orthonormal bank of real numbers, and thresholded details. *)
From Coq Require Import String List.
From Verif Require Import Base BaseLemmas CConv Spec Lengths Dwt DwtProofs Multilevel MultilevelProofs Facts1 CwtReal FilterSpec FiltersProofs Denoise DenoiseSpec ThreshC ThreshCSpec ThreshCProofs DenoiseReal.
From Coq Require Import Reals Lra Psatz.
Import ListNotations.
Open Scope list_scope.
Open Scope R_scope.

Definition w35 : wavelet Rring := bi_bank (C := Rring) [3 / 5; 4 / 5] [3 / 5; 4 / 5].
Lemma w35_orthonormal : orthonormal w35.
Proof.
  split; [|split; unfold w35, bi_bank; cbn [dec_lo dec_hi rec_lo rec_hi]; rewrite rev_involutive; reflexivity].
  apply bi_bank_pr; [reflexivity|reflexivity|cbn; lia|]. intros u Hu. unfold corr. change (zlen _) with 2%Z.
  set (l := [3 / 5; 4 / 5] : list Rring). assert (G : forall i, (i < 0 \/ 2 <= i)%Z -> gz l i = r0).
  { intros i [H|H]; [exact (gz_neg (C := Rring) _ _ H)|exact (gz_big (C := Rring) l i H)]. }
  unfold sumZ. change (Z.to_nat (2 - 0)) with 2%nat. cbn [sumn].
  destruct (Z.eqb_spec u 0) as [->|H].
  - cbn. change (0 + 3 / 5 * (3 / 5) + 4 / 5 * (4 / 5) = 1). lra.
  - rewrite (G (0 + Z.of_nat 0 + u)%Z), (G (0 + Z.of_nat 1 + u)%Z) by lia. change (0 + 3 / 5 * 0 + 4 / 5 * 0 = 0). lra.
Qed.
Lemma w35_data : data_ok 99 w35 2 [1; 2; 0; 5; 3; -1; 4; 4].
Proof. split; [cbn; lia|]. split; [exists 2%Z; reflexivity|]. unfold resources. vm_compute. repeat split; congruence || lia. Qed.
Lemma soft_ex : thresholded 2 "soft" [5; -1; -3] [3; 0; -1].
Proof.
  assert (A5 : Rabs 5 = 5) by (apply Rabs_pos_eq; lra). assert (A1 : Rabs (-1) = 1) by (rewrite Rabs_left by lra; lra). assert (A3 : Rabs (-3) = 3) by (rewrite Rabs_left by lra; lra).
  unfold thresholded. rewrite soft_is. unfold csoft1. destruct (is0_spec (0, 0)) as [(_ & ->)|(E & _)]; [|tauto]. cbn [map]. rewrite !csoft1_point by lra.
  unfold soft_point. rewrite !norm_real, A5, A1, A3. destruct (Rlt_dec 2 5); [|lra]. destruct (Rlt_dec 2 1); [lra|]. destruct (Rlt_dec 2 3); [|lra].
  unfold real_. cbn [fst snd]. repeat (f_equal; try lra).
Qed.
Lemma hard_ex : thresholded 2 "hard" [5; -1; -3] [5; 0; -3].
Proof.
  assert (A5 : Rabs 5 = 5) by (apply Rabs_pos_eq; lra). assert (A1 : Rabs (-1) = 1) by (rewrite Rabs_left by lra; lra). assert (A3 : Rabs (-3) = 3) by (rewrite Rabs_left by lra; lra).
  unfold thresholded. rewrite hard_is. unfold chard1, cless. cbn [map]. rewrite <- !norm_cabs, !norm_real, A5, A1, A3.
  destruct (rltb_spec 5 2) as [(L & _)|(_ & ->)]; [lra|]. destruct (rltb_spec 1 2) as [(_ & ->)|(L & _)]; [|lra]. destruct (rltb_spec 3 2) as [(L & _)|(_ & ->)]; [lra|]. reflexivity.
Qed.
Lemma hard_numbers : nonzeros [5; 0; -3] = 2 /\ small2 2 [5; -1; -3] = 1.
Proof.
  assert (A5 : Rabs 5 = 5) by (apply Rabs_pos_eq; lra). assert (A1 : Rabs (-1) = 1) by (rewrite Rabs_left by lra; lra). assert (A3 : Rabs (-3) = 3) by (rewrite Rabs_left by lra; lra).
  split.
  - cbn [nonzeros]. destruct (Req_EM_T 5 0); [lra|]. destruct (Req_EM_T 0 0); [|lra]. destruct (Req_EM_T (-3) 0); lra.
  - cbn [small2]. rewrite A5, A1, A3. destruct (Rlt_dec 5 2); [lra|]. destruct (Rlt_dec 1 2); [|lra]. destruct (Rlt_dec 3 2); lra.
Qed.
Lemma contraction_ex : orthonormal w35 /\ data_ok 99 w35 2 [1; 2; 0; 5; 3; -1; 4; 4] /\
  (exists y ds ds', denoised 99 w35 2 2 "soft" [1; 2; 0; 5; 3; -1; 4; 4] y ds ds') /\ exists y ds ds', denoised 99 w35 2 2 "soft" [0; 2; 0; 5; 3; 1; 4; 4] y ds ds'.
Proof.
  assert (P : 0 < 2) by lra. split; [exact w35_orthonormal|]. split; [exact w35_data|]. split.
  - exact (denoise_total 99 w35 2 2 "soft" _ w35_orthonormal w35_data (fun d => soft_total 2 d P)).
  - exact (denoise_total 99 w35 2 2 "soft" [0; 2; 0; 5; 3; 1; 4; 4] w35_orthonormal w35_data (fun d => soft_total 2 d P)).
Qed.
