(** Property theorems for changes of the coefficients: distances (C116) and
    denoising by thresholding (C117). *)
From Coq Require Import QArith Qcanon String.
From Verif Require Import Base BaseLemmas CConv Spec Instances Lengths Dwt DwtProofs Multilevel MultilevelProofs Facts1 ExBanks CyclicMain ExCyclic CwtReal ThreshC Denoise DenoiseSpec DenoiseReal ExDenoise ExDenoiseQ.
From Coq Require Import Reals Lra.
Import ListNotations.
Open Scope list_scope.

(** C116 *)
Local Open Scope Z_scope.

Theorem C116_wavedec : forall (C : CRing) fuel (x y : list C) w N, orthonormal w -> 1 <= zlen x -> (2 ^ Z.of_nat N | zlen x) -> zlen y = zlen x -> resources fuel (zlen x) (dec_len w) ->
  exists X Y, wavedec fuel x w PERIODIZATION (Some (Z.of_nat N)) = Ok X /\ wavedec fuel y w PERIODIZATION (Some (Z.of_nat N)) = Ok Y /\
    same_shape C X Y /\ dist2s X Y = dist2 x y.
Proof. exact wavedec_dist. Qed.
Print Assumptions C116_wavedec.
Example C116_wavedec_ex : orthonormal qbank /\ this_of (dist2 qx qy) = (22 # 1)%Q /\
  match wavedec 99 qx qbank PERIODIZATION (Some 2), wavedec 99 qy qbank PERIODIZATION (Some 2) with
  | Ok X, Ok Y => this_of (dist2s X Y) = (22 # 1)%Q /\ map (fun u => map this_of u) X <> map (fun u => map this_of u) Y
  | _, _ => False
  end.
Proof. split; [exact (conj qbank_pr (conj eq_refl eq_refl))|]. split; [vm_compute; reflexivity|]. vm_compute. split; [reflexivity|discriminate]. Qed.

Theorem C116_changed : forall (C : CRing) fuel (x : list C) w N X Y, orthonormal w -> 1 <= zlen x -> (2 ^ Z.of_nat N | zlen x) -> resources fuel (zlen x) (dec_len w) ->
  wavedec fuel x w PERIODIZATION (Some (Z.of_nat N)) = Ok X -> same_shape C X Y ->
  exists y, waverec fuel (map Some Y) w PERIODIZATION = Ok (Some y) /\ zlen y = zlen x /\
    wavedec fuel y w PERIODIZATION (Some (Z.of_nat N)) = Ok Y /\ dist2 x y = dist2s X Y.
Proof. exact waverec_changed. Qed.
Print Assumptions C116_changed.
(** The details of the finest level set to zero. *)
Example C116_changed_ex : orthonormal qbank /\
  match wavedec 99 qx qbank PERIODIZATION (Some 1) with
  | Ok [a; d] => match waverec 99 (map Some [a; map (fun _ => qc 0 1) d]) qbank PERIODIZATION with
                 | Ok (Some y) => this_of (dist2 qx y) = this_of (dist2 d (map (fun _ => qc 0 1) d)) /\ this_of (dist2 qx y) <> (0 # 1)%Q
                 | _ => False end
  | _ => False end.
Proof. split; [exact (conj qbank_pr (conj eq_refl eq_refl))|]. vm_compute. split; [reflexivity|discriminate]. Qed.

Theorem C116_waverec : forall (C : CRing) fuel (a a' : list C) ds ds' w, orthonormal w -> 1 <= zlen a -> doubling C (zlen a) ds -> same_shape C (a :: ds) (a' :: ds') ->
  resources fuel (2 ^ zlen ds * zlen a) (dec_len w) ->
  exists x x', waverec fuel (map Some (a :: ds)) w PERIODIZATION = Ok (Some x) /\ waverec fuel (map Some (a' :: ds')) w PERIODIZATION = Ok (Some x') /\
    zlen x = zlen x' /\ dist2 x x' = dist2s (a :: ds) (a' :: ds').
Proof. exact waverec_dist. Qed.
Print Assumptions C116_waverec.
Example C116_waverec_ex : orthonormal qbank /\ doubling Qcring (zlen [qc 1 1]) [[qc 2 1]; [qc 3 1; qc 4 1]] /\
  match waverec 99 (map Some [[qc 1 1]; [qc 2 1]; [qc 3 1; qc 4 1]]) qbank PERIODIZATION, waverec 99 (map Some [[qc 1 1]; [qc 7 1]; [qc 3 1; qc 2 1]]) qbank PERIODIZATION with
  | Ok (Some x), Ok (Some y) => this_of (dist2 x y) = (29 # 1)%Q
  | _, _ => False
  end.
Proof. split; [exact (conj qbank_pr (conj eq_refl eq_refl))|]. split; [repeat split|]. vm_compute. reflexivity. Qed.

(** C117 *)
Local Open Scope R_scope.

Theorem C117_soft : forall fuel w N v x, orthonormal w -> data_ok fuel w N x -> 0 < v ->
  exists y ds ds', denoised fuel w N v "soft" x y ds ds' /\
    forall z, zlen z = zlen x -> exists b es, wavedec (C := Rring) fuel z w PERIODIZATION (Some (Z.of_nat N)) = Ok (b :: es) /\
      dist2 (C := Rring) x y / 2 + v * size1 (concat ds') + dist2 (C := Rring) y z / 2 <= dist2 (C := Rring) x z / 2 + v * size1 (concat es).
Proof. exact soft_denoising. Qed.
Print Assumptions C117_soft.
Example C117_soft_ex : orthonormal w35 /\ data_ok 99 w35 2 [1; 2; 0; 5; 3; -1; 4; 4] /\ thresholded 2 "soft" [5; -1; -3] [3; 0; -1].
Proof. exact (conj w35_orthonormal (conj w35_data soft_ex)). Qed.

Theorem C117_hard : forall fuel w N v x, orthonormal w -> data_ok fuel w N x -> 0 <= v ->
  exists y ds ds', denoised fuel w N v "hard" x y ds ds' /\ dist2 (C := Rring) x y = small2 v (concat ds) /\
    forall z, zlen z = zlen x -> exists b es, wavedec (C := Rring) fuel z w PERIODIZATION (Some (Z.of_nat N)) = Ok (b :: es) /\
      dist2 (C := Rring) x y + v * v * nonzeros (concat ds') <= dist2 (C := Rring) x z + v * v * nonzeros (concat es).
Proof. exact hard_denoising. Qed.
Print Assumptions C117_hard.
Example C117_hard_ex : orthonormal w35 /\ data_ok 99 w35 2 [1; 2; 0; 5; 3; -1; 4; 4] /\ thresholded 2 "hard" [5; -1; -3] [5; 0; -3] /\ nonzeros [5; 0; -3] = 2 /\ small2 2 [5; -1; -3] = 1.
Proof. exact (conj w35_orthonormal (conj w35_data (conj hard_ex hard_numbers))). Qed.

Theorem C117_contraction : forall fuel w N v x1 x2 y1 y2 ds1 ds1' ds2 ds2', orthonormal w -> data_ok fuel w N x1 -> zlen x2 = zlen x1 -> 0 < v ->
  denoised fuel w N v "soft" x1 y1 ds1 ds1' -> denoised fuel w N v "soft" x2 y2 ds2 ds2' -> dist2 (C := Rring) y1 y2 <= dist2 (C := Rring) x1 x2.
Proof. exact soft_denoising_contraction. Qed.
Print Assumptions C117_contraction.
Example C117_contraction_ex : orthonormal w35 /\ data_ok 99 w35 2 [1; 2; 0; 5; 3; -1; 4; 4] /\
  (exists y ds ds', denoised 99 w35 2 2 "soft" [1; 2; 0; 5; 3; -1; 4; 4] y ds ds') /\ exists y ds ds', denoised 99 w35 2 2 "soft" [0; 2; 0; 5; 3; 1; 4; 4] y ds ds'.
Proof. exact contraction_ex. Qed.
