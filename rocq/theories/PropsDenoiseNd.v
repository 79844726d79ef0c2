(** Property theorems for changes of n-dimensional coefficients (C116). *)
From Coq Require Import QArith Qcanon String.
From Verif Require Import Base BaseLemmas CConv Spec Instances Lengths Dwt DwtProofs Multilevel MultilevelProofs Facts1 Nd NdSpec Axis AxisProofs Multidim MultidimProofs ExBanks ExNd MultilevelNd MultilevelNdProofs MultilevelNdFacts
  MultidimFacts CyclicMain CyclicNd ParsevalNd DenoiseNdSpec DenoiseNd ExDenoiseQ ExDenoiseNd.
Open Scope list_scope. Open Scope Z_scope.

Theorem C116_wavedecn : forall (C : CRing) fuel junk (x y : sarr C) w m axes plan B N, sarr_ok C x -> sarr_ok C y -> sshape y = sshape x -> 1 <= ndim x <= 64 -> plan <> [] ->
  resolves C (ndim x) w m (default_axes (ndim x) axes) plan -> plan_good C fuel B (sshape x) plan -> orthonormal_levels C plan (sshape x) N ->
  exists a X b Y, wavedecn fuel junk x w m (Some (Z.of_nat N)) axes = Ok (a, X) /\ wavedecn fuel junk y w m (Some (Z.of_nat N)) axes = Ok (b, Y) /\
    sshape b = sshape a /\ Forall2 alike X Y /\ nddist2 (val C a) (val C b) [+] ddist2s X Y = nddist2 (val C x) (val C y).
Proof. exact wavedecn_dist. Qed.
Print Assumptions C116_wavedecn.
Example C116_wavedecn_ex : sarr_ok Qcring ox /\ sarr_ok Qcring oy /\ resolves Qcring 2 ow om [0; 1] oplan /\ plan_good Qcring 99 [16; 16] [4; 4] oplan /\ orthonormal_levels Qcring oplan [4; 4] 2 /\
  match wavedecn 99 (fun _ => qc 9 1) ox ow om (Some 2) None, wavedecn 99 (fun _ => qc 9 1) oy ow om (Some 2) None with
  | Ok (a, X), Ok (b, Y) => this_of (nddist2 (val Qcring a) (val Qcring b) [+] ddist2s X Y) = (53 # 1)%Q
  | _, _ => False
  end.
Proof. split; [apply ox_ok|]. split; [apply ox_ok|]. split; [exact oplan_resolves|]. split; [exact oplan_good|]. split; [exact oplan_orth|]. vm_compute. reflexivity. Qed.

Theorem C116_waverecn : forall (C : CRing) fuel junk (x a a' : sarr C) X X' w m axes plan B N, sarr_ok C x -> 1 <= ndim x <= 64 -> plan <> [] ->
  resolves C (ndim x) w m axes plan -> NoDup axes -> plan_good C fuel B (sshape x) plan -> orthonormal_levels C plan (sshape x) N ->
  wavedecn fuel junk x w m (Some (Z.of_nat N)) (Some axes) = Ok (a, X) -> sarr_ok C a' -> sshape a' = sshape a -> Forall2 alike X X' ->
  exists y, waverecn fuel junk (Some a') (map (map (fun '(k, v) => (k, Some v))) X') w m (Some axes) = Ok (Some y) /\ sshape y = sshape x /\
    nddist2 (val C x) (val C y) = nddist2 (val C a) (val C a') [+] ddist2s X X'.
Proof. exact waverecn_changed. Qed.
Print Assumptions C116_waverecn.
(** The details of the finest level set to zero. *)
Example C116_waverecn_ex : sarr_ok Qcring ox /\ resolves Qcring 2 ow om [0; 1] oplan /\ plan_good Qcring 99 [16; 16] [4; 4] oplan /\ orthonormal_levels Qcring oplan [4; 4] 2 /\
  match wavedecn 99 (fun _ => qc 9 1) ox ow om (Some 2) (Some [0; 1]) with
  | Ok (a, X) => match waverecn 99 (fun _ => qc 9 1) (Some a) (map (map (fun '(k, v) => (k, Some v))) (drop_fine X)) ow om (Some [0; 1]) with
                 | Ok (Some y) => this_of (nddist2 (val Qcring ox) (val Qcring y)) = this_of (ddist2s X (drop_fine X)) /\ this_of (ddist2s X (drop_fine X)) <> (0 # 1)%Q
                 | _ => False end
  | _ => False
  end.
Proof. split; [apply ox_ok|]. split; [exact oplan_resolves|]. split; [exact oplan_good|]. split; [exact oplan_orth|]. vm_compute. split; [reflexivity|discriminate]. Qed.
