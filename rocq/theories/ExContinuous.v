(** Concrete cases for PropsContinuous.v. *)
From Coq Require Import QArith Reals Qreals Lra Lia ZArith List String.
Import ListNotations.
From Verif Require Import Base BaseLemmas CConv Dwt Filters Names Wavefun.
From Verif Require Import ContinuousSpec GaussInt ContinuousPoly Continuous ContinuousDoc ContinuousProofs ContinuousMain.
Open Scope R_scope.

Lemma attrs_gaus3 : continuous_attrs "gaus3" = Ok (mkAttrs GAUS 3 AntiSymmetric false (-5) 5 0 0 0).
Proof. reflexivity. Qed.
Lemma attrs_cgau1 : continuous_attrs "cgau1" = Ok (mkAttrs CGAU 1 AntiSymmetric true (-5) 5 0 0 0).
Proof. reflexivity. Qed.
Definition cmor_a : cattrs := mkAttrs CMOR 0 Asymmetric true (-8) 8 (10 # 10) (15 # 10) 0.
Lemma attrs_cmor : continuous_attrs "cmor1.5-1.0" = Ok cmor_a.
Proof. reflexivity. Qed.
Lemma cmor_usable : usable cmor_a.
Proof. split; reflexivity. Qed.
Definition fbsp_a : cattrs := mkAttrs FBSP 0 Asymmetric true (-20) 20 2 1 3.
Lemma attrs_fbsp : exists b c, continuous_attrs "fbsp3-1-2" = Ok (mkAttrs FBSP 0 Asymmetric true (-20) 20 c b 3) /\ (b == 1)%Q /\ (c == 2)%Q.
Proof. do 2 eexists. split; [reflexivity|]. split; reflexivity. Qed.
Definition cmor_0 : cattrs := mkAttrs CMOR 0 Asymmetric true (-8) 8 0 (10 # 10) 0.
Lemma attrs_cmor_0 : continuous_attrs "cmor1.0-0" = Ok cmor_0.
Proof. reflexivity. Qed.
Lemma cmor_0_unusable : ~ usable cmor_0.
Proof. intros [_ H]. discriminate. Qed.
Lemma cmor_0_err : c_wavefun cmor_0 8 None = Err TypeError.
Proof. apply (proj2 (proj2 (c_wavefun_errors _ _ 8 None attrs_cmor_0)) cmor_0_unusable). exists 256%Z. split; [right; repeat split; lia|unfold max_alloc; lia]. Qed.

Lemma gaus3_val : gaus 3 1 = - (4 * exp (-1)) / sqrt (15 * sqrt (PI / 2)).
Proof. cbn [gaus]. replace (- 1 ^ 2) with (-1) by ring. unfold Rdiv. ring. Qed.
Lemma cgau2_val : cgau_r 2 0 = -3 / sqrt (10 * sqrt (PI / 2)) /\ cgau_i 2 0 = 0.
Proof. cbn [cgau_r cgau_i]. rewrite cos_0, sin_0. replace (- 0 ^ 2) with 0 by ring. rewrite exp_0. unfold Rdiv. split; ring. Qed.
Lemma mexh_val : mexh 0 = 2 / (sqrt 3 * sqrt (sqrt PI)) /\ mexh 1 = 0.
Proof. unfold mexh. split; [|unfold Rdiv; ring]. replace (- 0 ^ 2 / 2) with 0 by field. rewrite exp_0. unfold Rdiv. ring. Qed.
Lemma morl_val : morl 0 = 1.
Proof. unfold morl. replace (- 0 ^ 2 / 2) with 0 by field. rewrite exp_0, Rmult_0_r, cos_0. ring. Qed.
Lemma shan_val : shan_r 1 1 0 = 1 /\ shan_r 1 1 1 = 0.
Proof.
  unfold shan_r. destruct (Req_EM_T 0 0) as [_|N]; [|congruence]. destruct (Req_EM_T 1 0) as [N|_]; [lra|].
  rewrite sqrt_1. replace (2 * PI * 1 * 0) with 0 by ring. rewrite cos_0. replace (1 * 1 * PI) with PI by ring. rewrite sin_PI. unfold Rdiv. split; ring.
Qed.
Lemma fbsp_val : fbsp_r 2 1 1 0 = 1 /\ fbsp_r 2 1 1 2 = 0.
Proof.
  unfold fbsp_r. destruct (Req_EM_T 0 0) as [_|N]; [|congruence]. destruct (Req_EM_T 2 0) as [N|_]; [lra|].
  rewrite sqrt_1. replace (2 * PI * 1 * 0) with 0 by ring. rewrite cos_0. replace (PI * 2 * 1 / IZR 2) with PI by field. rewrite sin_PI. change (Z.to_nat 2) with 2%nat. unfold Rdiv. split; [ring|]. simpl. ring.
Qed.
Lemma cmor_val : cmor_r (/ PI) 1 0 = 1 /\ cmor_i (/ PI) 1 0 = 0.
Proof.
  pose proof PI_RGT_0. unfold cmor_r, cmor_i. replace (PI * / PI) with 1 by (field; lra). rewrite sqrt_1. replace (2 * PI * 1 * 0) with 0 by ring. rewrite cos_0, sin_0.
  replace (- 0 ^ 2 / / PI) with 0 by (field; lra). rewrite exp_0. split; field.
Qed.

Lemma cgau1_not_odd : exists name a p x, continuous_attrs name = Ok a /\ a_symmetry a = AntiSymmetric /\ c_wavefun a 8 (Some 3%Z) = Ok (p, x) /\
  (nth 1 x 0 == 0)%Q /\ snd (sample p 1) <> - snd (sample p 1).
Proof.
  destruct (c_wavefun_main _ _ 8 (Some 3%Z) 3 attrs_cgau1 I (or_introl eq_refl) ltac:(unfold max_alloc; lia)) as (p & x & E & _ & _ & _ & G & V).
  exists "cgau1"%string, (mkAttrs CGAU 1 AntiSymmetric true (-5) 5 0 0 0), p, x. split; [reflexivity|]. split; [reflexivity|]. split; [exact E|].
  specialize (G 1%Z ltac:(lia)). specialize (V 1%Z ltac:(lia)). change (Z.to_nat 1) with 1%nat in *. cbn [a_lower a_upper] in G.
  assert (G0 : (nth 1 x 0 == 0)%Q) by (rewrite G; reflexivity). split; [exact G0|]. rewrite V. apply Qeq_eqR in G0. rewrite G0.
  replace (Q2R 0) with 0 by (unfold Q2R; cbn; lra). unfold fn_of. cbn [a_family a_number fst snd cgau_i]. rewrite cos_0, sin_0.
  replace (- 0 ^ 2) with 0 by ring. rewrite exp_0. pose proof (cgau_norm_pos 1) as P. unfold cgau_norm in P. cbn [cgau_c] in P.
  assert (Q : 0 < / sqrt (2 * sqrt (PI / 2))) by (apply Rinv_0_lt_compat; exact P). unfold Rdiv. lra.
Qed.
