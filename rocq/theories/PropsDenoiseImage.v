(** Property theorems for denoising of n-dimensional data (C117). *)
From Coq Require Import String List.
From Verif Require Import Base BaseLemmas CConv Spec Lengths Dwt DwtProofs Nd NdSpec Axis AxisProofs Multidim MultidimProofs Multilevel MultilevelProofs Facts1 MultilevelNd MultilevelNdProofs MultilevelNdFacts CyclicMain CyclicNd ParsevalNd
  CwtReal DenoiseSpec DenoiseReal ExDenoise DenoiseNdSpec DenoiseNd DenoiseNdReal ExDenoiseImage.
From Coq Require Import Reals Lra.
Import ListNotations.
Open Scope list_scope. Open Scope R_scope.

Theorem C117_image_soft : forall fuel junk w m axes plan B N v x, image_ok fuel w m axes plan B N x -> 0 < v ->
  exists y X X', image_denoised fuel junk w m axes N v "soft" x y X X' /\
  forall z, sarr_ok Rring z -> sshape z = sshape x -> exists b E, wavedecn fuel junk z w m (Some (Z.of_nat N)) (Some axes) = Ok (b, E) /\
    nddist2 (C := Rring) (val Rring x) (val Rring y) / 2 + v * size1 (concat (arrays_of (C := Rring) X')) + nddist2 (C := Rring) (val Rring y) (val Rring z) / 2
    <= nddist2 (C := Rring) (val Rring x) (val Rring z) / 2 + v * size1 (concat (arrays_of (C := Rring) E)).
Proof. exact soft_image. Qed.
Print Assumptions C117_image_soft.
Example C117_image_soft_ex : image_ok 99 (One w35) (One PERIODIZATION) [0; 1]%Z iplan [16; 16]%Z 2 (img 3) /\ thresholded 2 "soft" [5; -1; -3] [3; 0; -1].
Proof. exact (conj (img_ok 3) soft_ex). Qed.

Theorem C117_image_hard : forall fuel junk w m axes plan B N v x, image_ok fuel w m axes plan B N x -> 0 <= v ->
  exists y X X', image_denoised fuel junk w m axes N v "hard" x y X X' /\ nddist2 (C := Rring) (val Rring x) (val Rring y) = small2 v (concat (arrays_of (C := Rring) X)) /\
  forall z, sarr_ok Rring z -> sshape z = sshape x -> exists b E, wavedecn fuel junk z w m (Some (Z.of_nat N)) (Some axes) = Ok (b, E) /\
    nddist2 (C := Rring) (val Rring x) (val Rring y) + v * v * nonzeros (concat (arrays_of (C := Rring) X'))
    <= nddist2 (C := Rring) (val Rring x) (val Rring z) + v * v * nonzeros (concat (arrays_of (C := Rring) E)).
Proof. exact hard_image. Qed.
Print Assumptions C117_image_hard.
Example C117_image_hard_ex : image_ok 99 (One w35) (One PERIODIZATION) [0; 1]%Z iplan [16; 16]%Z 2 (img 3) /\ thresholded 2 "hard" [5; -1; -3] [5; 0; -3].
Proof. exact (conj (img_ok 3) hard_ex). Qed.

Theorem C117_image_contraction : forall fuel junk w m axes plan B N v x1 x2 y1 y2 X1 X1' X2 X2', image_ok fuel w m axes plan B N x1 -> sarr_ok Rring x2 -> sshape x2 = sshape x1 -> 0 < v ->
  image_denoised fuel junk w m axes N v "soft" x1 y1 X1 X1' -> image_denoised fuel junk w m axes N v "soft" x2 y2 X2 X2' ->
  nddist2 (C := Rring) (val Rring y1) (val Rring y2) <= nddist2 (C := Rring) (val Rring x1) (val Rring x2).
Proof. exact soft_image_contraction. Qed.
Print Assumptions C117_image_contraction.
Example C117_image_contraction_ex : image_ok 99 (One w35) (One PERIODIZATION) [0; 1]%Z iplan [16; 16]%Z 2 (img 3) /\ sshape (img 8) = sshape (img 3) /\
  (exists y X X', image_denoised 99 (fun _ => 7) (One w35) (One PERIODIZATION) [0; 1]%Z 2 2 "soft" (img 3) y X X') /\
  (exists y X X', image_denoised 99 (fun _ => 7) (One w35) (One PERIODIZATION) [0; 1]%Z 2 2 "soft" (img 8) y X X').
Proof. exact (conj (img_ok 3) (conj eq_refl (conj (img_soft (fun _ => 7) 3 2 Rlt_0_2) (img_soft (fun _ => 7) 8 2 Rlt_0_2)))). Qed.
