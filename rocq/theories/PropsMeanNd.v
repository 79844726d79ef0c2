(** Property theorems for the sums of coefficients of n-dimensional data (C119). *)
From Coq Require Import String List.
From Verif Require Import Base BaseLemmas CConv Spec Instances Lengths Dwt DwtProofs Nd NdSpec Axis AxisProofs Multidim MultidimProofs Multilevel MultilevelProofs Facts1 MultilevelNd MultilevelNdProofs MultilevelNdFacts ExBanks CyclicMain CyclicNd ParsevalNd
  CwtReal DenoiseSpec DenoiseReal DenoiseNdSpec DenoiseNd DenoiseNdReal MeanSpec Mean MeanReal MeanNd MeanNdReal ExMean ExMeanNd.
From Coq Require Import Reals Lra.
Import ListNotations.
Open Scope list_scope.
Local Open Scope Z_scope.

Theorem C119_wavedecn : forall (C : CRing) fuel junk (x : sarr C) w m axes plan B N, sarr_ok C x -> 1 <= ndim x <= 64 -> plan <> [] ->
  resolves C (ndim x) w m (default_axes (ndim x) axes) plan -> plan_good C fuel B (sshape x) plan -> periodized C plan (sshape x) N -> balanced plan ->
  exists a ds, wavedecn fuel junk x w m (Some (Z.of_nat N)) axes = Ok (a, ds) /\ nd_total (val C a) = power (gains plan) N [*] nd_total (val C x).
Proof. exact wavedecn_mean. Qed.
Print Assumptions C119_wavedecn.
Example C119_wavedecn_ex : sarr_ok Zring zmx /\ resolves Zring 2 (Seq [zmean; zmean2]) (One PERIODIZATION) [0; 1] zmplan /\ plan_good Zring 99 [16; 16] (sshape zmx) zmplan /\ periodized Zring zmplan (sshape zmx) 2 /\
  balanced zmplan /\ gains zmplan = -1 /\ nd_total (val Zring zmx) = 49 /\
  match wavedecn 99 (fun _ => 7 : Zring) zmx (Seq [zmean; zmean2]) (One PERIODIZATION) (Some 1) (Some [0; 1]) with Ok (a, _) => nd_total (val Zring a) = -49 | _ => False end /\
  match wavedecn 99 (fun _ => 7 : Zring) zmx (Seq [zmean; zmean2]) (One PERIODIZATION) (Some 2) (Some [0; 1]) with Ok (a, _) => nd_total (val Zring a) = 49 | _ => False end.
Proof.
  split; [exact zmx_ok|]. split; [repeat split; reflexivity|]. split; [exact zmx_good|]. split; [exact zmx_per|]. split; [intros s [<-|[<-|[]]]; reflexivity|]. split; [reflexivity|]. split; [vm_compute; reflexivity|]. split; vm_compute; reflexivity.
Qed.

Local Open Scope R_scope.
Theorem C119_image_denoised : forall fuel junk w m axes plan B N v mode x y X X', image_ok fuel w m axes plan B N x -> lowpass_plan plan ->
  image_denoised fuel junk w m axes N v mode x y X X' -> sshape y = sshape x /\ nd_total (C := Rring) (val Rring y) = nd_total (C := Rring) (val Rring x).
Proof. exact image_denoised_mean. Qed.
Print Assumptions C119_image_denoised.
Example C119_image_denoised_ex : image_ok 99 (One rhaar) (One PERIODIZATION) [0; 1]%Z hplan [16; 16]%Z 2 himg /\ lowpass_plan hplan /\
  exists y X X', image_denoised 99 (fun _ => 7) (One rhaar) (One PERIODIZATION) [0; 1]%Z 2 3 "hard" himg y X X'.
Proof. exact (conj himg_ok (conj himg_lowpass (himg_hard (fun _ => 7)))). Qed.
