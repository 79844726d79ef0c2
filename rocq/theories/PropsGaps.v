(** Property theorems for the order of the detail keys (C28) and the attributes
    of continuous wavelets (C88). *)
From Coq Require Import String QArith Sorted.
From Verif Require Import Base BaseLemmas CConv Spec Instances Lengths Dwt Filters NamesSpec Names NamesProofs NamesProofs2 NamesOrder Wavefun Continuous Nd NdSpec Axis Multidim Multilevel MultilevelNd
  Fsw FswSpec FswBands FswKeys ContinuousName ExBanks ExNd ExFsw.
Open Scope list_scope. Open Scope Z_scope.

(** [tuple_before]: at the first place where they differ, the smaller number. *)
Theorem C28_detail_keys_sorted : forall (C : CRing) plan sh (r : fsw (C := C)), layout C plan sh r -> exists keys, detail_keys r = Ok keys /\ Sorted tuple_before keys.
Proof. exact detail_keys_sorted. Qed.
Print Assumptions C28_detail_keys_sorted.
Example C28_detail_keys_sorted_ex : layout Zring [fp0; fp1] (sshape xt) fs_ex /\ detail_keys fs_ex = Ok [[0; 1]; [1; 0]; [1; 1]; [2; 0]; [2; 1]] /\ tuple_before [1; 1] [2; 0].
Proof. split; [exact fs_ex_layout|]. split; [reflexivity|]. exists [], 1, 2, [1], [0]. repeat split; lia. Qed.

Theorem C88_two_parameters : forall f b c, f = CMOR \/ f = SHAN -> decimal b -> decimal c ->
  exists a, continuous_attrs (String.append (short f) (String.append (render b) (String.append "-" (render c)))) = Ok a /\
    a_family a = f /\ a_band a = decimal_value b /\ a_center a = decimal_value c /\ a_complex a = true.
Proof. exact attrs_two_parameters. Qed.
Print Assumptions C88_two_parameters.
Example C88_two_parameters_ex : let b := ("1"%string, 1%nat, "5"%string) in let c := ("20"%string, 0%nat, ""%string) in
  decimal b /\ decimal c /\ render b = "1.5"%string /\ (decimal_value b == 3 # 2)%Q /\ (decimal_value c == 20)%Q.
Proof. repeat split; try discriminate; cbn; auto. Qed.

Theorem C88_three_parameters : forall m b c k, decimal m -> decimal b -> decimal c -> (decimal_value m == inject_Z k)%Q -> 1 <= k ->
  exists a, continuous_attrs (String.append "fbsp" (String.append (render m) (String.append "-" (String.append (render b) (String.append "-" (render c)))))) = Ok a /\
    a_family a = FBSP /\ a_order a = k /\ a_band a = decimal_value b /\ a_center a = decimal_value c /\ a_complex a = true.
Proof. exact attrs_three_parameters. Qed.
Print Assumptions C88_three_parameters.
Example C88_three_parameters_ex : let m := ("2"%string, 1%nat, "0"%string) in let b := ("1"%string, 1%nat, "5"%string) in decimal m /\ decimal b /\ (decimal_value m == inject_Z 2)%Q.
Proof. repeat split; try discriminate; cbn; auto. Qed.

Theorem C88_no_parameters : (exists a, continuous_attrs "shan" = Ok a /\ a_band a = 1 # 2 /\ a_center a = 1%Q) /\
  (exists a, continuous_attrs "cmor" = Ok a /\ a_band a = 1%Q /\ a_center a = 1 # 2) /\
  (exists a, continuous_attrs "fbsp" = Ok a /\ a_order a = 2 /\ a_band a = 1%Q /\ a_center a = 1 # 2).
Proof. exact attrs_no_parameters. Qed.
Print Assumptions C88_no_parameters.
Example C88_no_parameters_ex : continuous_attrs "Shan" = continuous_attrs "shan" /\ continuous_attrs "db2" = Err ValueError.
Proof. split; reflexivity. Qed.
