(** The parameters in the name of a continuous wavelet are its attributes. *)
From Coq Require Import String QArith.
From Verif Require Import Base BaseLemmas CConv Dwt Filters NamesSpec Names NamesProofs NamesProofs2 NamesOrder Wavefun Continuous.
Open Scope Z_scope.

Theorem attrs_two_parameters f b c : f = CMOR \/ f = SHAN -> decimal b -> decimal c ->
  exists a, continuous_attrs (String.append (short f) (String.append (render b) (String.append "-" (render c)))) = Ok a /\
    a_family a = f /\ a_band a = decimal_value b /\ a_center a = decimal_value c /\ a_complex a = true.
Proof.
  intros Hf Hb Hc. unfold continuous_attrs. rewrite (cmor_shan_name f b c Hf Hb Hc). cbn [bind c_family c_number c_band c_center c_order].
  destruct Hf as [-> | ->]; eexists; (split; [reflexivity|repeat split; reflexivity]).
Qed.

Theorem attrs_three_parameters m b c k : decimal m -> decimal b -> decimal c -> (decimal_value m == inject_Z k)%Q -> 1 <= k ->
  exists a, continuous_attrs (String.append "fbsp" (String.append (render m) (String.append "-" (String.append (render b) (String.append "-" (render c)))))) = Ok a /\
    a_family a = FBSP /\ a_order a = k /\ a_band a = decimal_value b /\ a_center a = decimal_value c /\ a_complex a = true.
Proof.
  intros Hm Hb Hc Hk H1. unfold continuous_attrs. rewrite (proj1 (fbsp_name m b c Hm Hb Hc) k Hk H1). cbn [bind c_family c_number c_band c_center c_order].
  eexists; (split; [reflexivity|repeat split; reflexivity]).
Qed.

(** wavelets.c lines 355-503: without parameters. *)
Theorem attrs_no_parameters : (exists a, continuous_attrs "shan" = Ok a /\ a_band a = 1 # 2 /\ a_center a = 1%Q) /\
  (exists a, continuous_attrs "cmor" = Ok a /\ a_band a = 1%Q /\ a_center a = 1 # 2) /\
  (exists a, continuous_attrs "fbsp" = Ok a /\ a_order a = 2 /\ a_band a = 1%Q /\ a_center a = 1 # 2).
Proof. repeat split; eexists; repeat split. Qed.
