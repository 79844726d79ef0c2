(** Property theorem for the energy of swtn (C19). *)
From Coq Require Import QArith Qcanon Ascii String ZArith List. Import ListNotations. Local Open Scope Z_scope.
From Verif Require Import Base BaseLemmas CConv Spec Instances Lengths Dwt DwtProofs Facts1 Swt SwtSpec SwtProofs Nd NdSpec Axis AxisProofs Multidim MultidimProofs MultilevelNd MultilevelNdProofs SwtNd NdSwtSpec SwtNdFwd EnergySwtNd ExBanks ExBanks2 ExNd ExSwtNd.

Theorem C19_swtn_energy : forall (C : CRing) fuel (isq2 : C), (r1 [+] r1) [*] (isq2 [*] isq2) = r1 -> forall junk (data : sarr C) w level axes plan,
  sarr_ok C data -> 1 <= ndim data <= 64 -> 1 <= level ->
  swt_resolves (ndim data) w (default_axes (ndim data) axes) plan -> swt_plan_ok fuel level (sshape data) plan -> (forall p, In p plan -> orthonormal (snd p)) ->
  exists cs, swtn fuel junk data w level 0 axes true (Some isq2) = Ok cs /\ fold_right radd r0 (map item_energy cs) = nd_energy (val C data).
Proof. exact swtn_energy. Qed.
Print Assumptions C19_swtn_energy.
(** 3^2 + 1 + 4^2 + 1 = 27. *)
Example C19_swtn_energy_ex : sarr_ok QS2 x22 /\ swt_resolves 2 (One haar) [0; 1] planq /\ swt_plan_ok 99 1 [2; 2] planq /\ (forall p, In p planq -> orthonormal (snd p)) /\
  (r1 [+] r1) [*] (isqrt2 [*] isqrt2) = (r1 : QS2) /\ show (nd_energy (val QS2 x22)) = (27, 0)%Q /\
  (cs <- swtn 99 jq x22 (One haar) 1 0 None true (Some isqrt2) ;; Ok (map (fun it => show (item_energy it)) cs)) = Ok [(81 # 4, 0); (27 # 4, 0)]%Q.
Proof.
  split; [exact x22_ok|]. split; [exact planq_resolves|]. split; [exact planq_ok|].
  split; [intros p [<-|[<-|[]]]; (split; [exact haar_pr|split; vm_compute; reflexivity])|].
  split; [vm_compute; f_equal; apply Qc_is_canon; reflexivity|]. split; vm_compute; reflexivity.
Qed.
