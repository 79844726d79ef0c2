(** Property theorems for the sums of coefficients (C119). *)
From Coq Require Import String List.
From Verif Require Import Base BaseLemmas CConv Spec Instances Lengths Dwt DwtProofs Multilevel MultilevelProofs Facts1 ExBanks CyclicMain Swt SwtSpec SwtProofs FactsSwt CwtReal ThreshC Denoise DenoiseSpec DenoiseReal MeanSpec Mean MeanReal ExMean.
From Coq Require Import Reals Lra.
Import ListNotations.
Open Scope list_scope.
Local Open Scope Z_scope.

Theorem C119_wavedec : forall (C : CRing) fuel (x : list C) w N s, pr_wavelet w -> 1 <= zlen x -> (2 ^ Z.of_nat N | zlen x) -> resources fuel (zlen x) (dec_len w) ->
  taps_sum 0 (dec_lo w) = s -> taps_sum 1 (dec_lo w) = s ->
  exists a ds, wavedec fuel x w PERIODIZATION (Some (Z.of_nat N)) = Ok (a :: ds) /\ total a = power s N [*] total x.
Proof. exact wavedec_mean. Qed.
Print Assumptions C119_wavedec.
Example C119_wavedec_ex : pr_wavelet zmean /\ taps_sum (C := Zring) 0 (dec_lo zmean) = -1 /\ taps_sum (C := Zring) 1 (dec_lo zmean) = -1 /\
  (2 ^ Z.of_nat 3 | zlen [3; 1; 4; 1; 5; 9; 2; 6]) /\
  match wavedec (C := Zring) 99 [3; 1; 4; 1; 5; 9; 2; 6] zmean PERIODIZATION (Some 3) with Ok (a :: _) => total (C := Zring) a = -31 | _ => False end.
Proof. split; [exact zmean_pr|]. split; [reflexivity|]. split; [reflexivity|]. split; [exists 1; reflexivity|]. vm_compute. reflexivity. Qed.

Theorem C119_swt : forall (C : CRing) fuel w (x : list C) level s norm, wf_bank w -> 1 <= zlen x -> 0 <= s -> 1 <= level ->
  (2 ^ (s + level) | zlen x) -> swt_resources fuel (zlen x) (dec_len w) (s + level) ->
  exists a d : nat -> list C,
    swt fuel x w (Some level) s false norm = Ok (map (fun j => SPair (a j) (d j)) (rev (seq 1 (Z.to_nat level)))) /\
    swt fuel x w (Some level) s true norm = Ok (SArr (a (Z.to_nat level)) :: map (fun j => SArr (d j)) (rev (seq 1 (Z.to_nat level)))) /\
    forall j, let g := norm_factor norm [*] total (dec_lo w) in
    total (a j) = power g j [*] total x /\ total (d (S j)) = norm_factor norm [*] total (dec_hi w) [*] power g j [*] total x.
Proof. exact swt_mean. Qed.
Print Assumptions C119_swt.
Example C119_swt_ex : wf_bank zbank2 /\ (2 ^ (1 + 2) | zlen [3; 1; 4; 1; 5; 9; 2; 6]) /\ swt_resources 99 8 (dec_len zbank2) (1 + 2) /\
  total (C := Zring) (dec_lo zbank2) = 3 /\ total (C := Zring) (dec_hi zbank2) = 2 /\ total (C := Zring) [3; 1; 4; 1; 5; 9; 2; 6] = 31 /\
  match swt (C := Zring) 99 [3; 1; 4; 1; 5; 9; 2; 6] zbank2 (Some 2) 1 false (Some 5) with
  | Ok [SPair a2 d2; SPair a1 d1] => total (C := Zring) a2 = 15 * 15 * 31 /\ total (C := Zring) d2 = 10 * 15 * 31 /\ total (C := Zring) a1 = 15 * 31 /\ total (C := Zring) d1 = 10 * 31
  | _ => False end.
Proof. split; [repeat split; try reflexivity; vm_compute; congruence|]. split; [exists 1; reflexivity|]. split; [vm_compute; repeat split; congruence|]. vm_compute. repeat split. Qed.

Local Open Scope R_scope.
Theorem C119_taps : forall w, orthonormal (C := Rring) w -> total (C := Rring) (dec_lo w) = sqrt 2 ->
  taps_sum (C := Rring) 0 (dec_lo w) = sqrt 2 / 2 /\ taps_sum (C := Rring) 1 (dec_lo w) = sqrt 2 / 2 /\ total (C := Rring) (dec_hi w) = 0.
Proof. exact sqrt2_sums. Qed.
Print Assumptions C119_taps.
Example C119_taps_ex : orthonormal rhaar /\ total (C := Rring) (dec_lo rhaar) = sqrt 2.
Proof. exact (conj rhaar_orthonormal rhaar_total). Qed.

Theorem C119_denoised : forall fuel w N v mode x y ds ds', orthonormal w -> total (C := Rring) (dec_lo w) = sqrt 2 -> data_ok fuel w N x -> denoised fuel w N v mode x y ds ds' ->
  zlen y = zlen x /\ total (C := Rring) y = total (C := Rring) x.
Proof. exact denoised_mean. Qed.
Print Assumptions C119_denoised.
Example C119_denoised_ex : orthonormal rhaar /\ total (C := Rring) (dec_lo rhaar) = sqrt 2 /\ data_ok 99 rhaar 2 [1; 2; 0; 5; 3; -1; 4; 4] /\
  exists y ds ds', denoised 99 rhaar 2 2 "soft" [1; 2; 0; 5; 3; -1; 4; 4] y ds ds'.
Proof. exact (conj rhaar_orthonormal (conj rhaar_total (conj rhaar_data rhaar_denoised))). Qed.
