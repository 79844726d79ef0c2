(** Property theorem for the sums of the coefficients of swtn (C119). *)
From Coq Require Import String List.
From Verif Require Import Base BaseLemmas CConv Spec Instances Lengths Dwt DwtProofs Swt SwtSpec SwtProofs Nd NdSpec Axis AxisProofs Multidim MultidimProofs MultilevelNd MultilevelNdProofs SwtNd NdSwtSpec SwtNdFwd MeanSpec Mean MeanNd MeanSwtNd ExBanks ExNd ExSwtNd.
Import ListNotations.
Open Scope string_scope. Open Scope list_scope. Open Scope Z_scope.

Theorem C119_swtn : forall (C : CRing) fuel junk (data : sarr C) w level s axes trim norm plan0,
  let plan := norm_plan norm plan0 in
  sarr_ok C data -> 1 <= ndim data <= 64 -> 0 <= s -> 1 <= level ->
  swt_resolves (ndim data) w (default_axes (ndim data) axes) plan0 -> swt_plan_ok fuel (s + level) (sshape data) plan ->
  exists cs, swtn fuel junk data w level s axes trim norm = Ok cs /\
    (trim = true -> exists a rest, cs = NArr a :: rest /\ nd_total (val C a) = power (low_gain plan) (Z.to_nat level) [*] nd_total (val C data)) /\
    forall j, (1 <= j <= Z.to_nat level)%nat -> exists d, nth_error cs ((if trim then 1 else 0) + (Z.to_nat level - j)) = Some (NDict d) /\ d <> [] /\
      forall k a, In (k, a) d -> nd_total (val C a) = key_gain k plan [*] power (low_gain plan) (j - 1) [*] nd_total (val C data).
Proof. exact swtn_mean. Qed.
Print Assumptions C119_swtn.
Example C119_swtn_ex : sarr_ok Zring x42 /\ swt_resolves 2 (One zbank2) [0; -1] plan2 /\ swt_plan_ok 99 1 [4; 2] plan2 /\
  nd_total (val Zring x42) = 36 /\ low_gain plan2 = 9 /\ key_gain "ad" plan2 = 6 /\ key_gain "dd" plan2 = 4 /\
  match swtn 99 jk x42 (One zbank2) 1 0 (Some [0; -1]) true None with
  | Ok [NArr a; NDict d] => nd_total (val Zring a) = 324 /\ map (fun e => (fst e, nd_total (val Zring (snd e)))) d = [("ad", 216); ("da", 216); ("dd", 144)]
  | _ => False end.
Proof. split; [exact x42_ok|]. split; [exact plan2_resolves|]. split; [exact plan2_ok|]. split; [vm_compute; reflexivity|]. split; [reflexivity|]. split; [reflexivity|]. split; [reflexivity|]. vm_compute. split; reflexivity. Qed.
