(** shan, fbsp, cmor; the samples returned by wavefun; the symmetry attribute. *)
From Coq Require Import QArith Reals Qreals Lra Lia ZArith List String Qfield.
Import ListNotations.
From Verif Require Import Base BaseLemmas CConv Dwt Filters Names NamesProofs Wavefun WavefunProofs.
From Verif Require Import ContinuousSpec GaussInt ContinuousPoly Continuous ContinuousDoc ContinuousProofs.
Open Scope R_scope.

(** * shan, fbsp, cmor *)
Lemma shan_doc B C x : 0 < B -> shan_r B C x = sqrt B * sinc (PI * B * x) * cos (2 * PI * C * x) /\ shan_i B C x = sqrt B * sinc (PI * B * x) * sin (2 * PI * C * x).
Proof.
  intros HB. pose proof PI_RGT_0. unfold shan_r, shan_i, sinc. destruct (Req_EM_T x 0) as [-> |Hx].
  - replace (PI * B * 0) with 0 by ring. destruct (Req_EM_T 0 0); [|congruence]. split; ring.
  - destruct (Req_EM_T (PI * B * x) 0) as [E|_].
    + exfalso. apply Rmult_integral in E. destruct E as [E|E]; [apply Rmult_integral in E; lra|contradiction].
    + replace (x * B * PI) with (PI * B * x) by ring. split; ring.
Qed.
Lemma fbsp_doc M B C x : (0 < M)%Z -> 0 < B ->
  fbsp_r M B C x = sqrt B * sinc (PI * B * x / INR (Z.to_nat M)) ^ Z.to_nat M * cos (2 * PI * C * x) /\
  fbsp_i M B C x = sqrt B * sinc (PI * B * x / INR (Z.to_nat M)) ^ Z.to_nat M * sin (2 * PI * C * x).
Proof.
  intros HM HB. pose proof PI_RGT_0. rewrite INR_IZR_INZ, Z2Nat.id by lia. apply IZR_lt in HM as HM'. unfold fbsp_r, fbsp_i, sinc. destruct (Req_EM_T x 0) as [-> |Hx].
  - replace (PI * B * 0 / IZR M) with 0 by (field; lra). destruct (Req_EM_T 0 0); [|congruence]. rewrite pow1. split; ring.
  - destruct (Req_EM_T (PI * B * x / IZR M) 0) as [E|_].
    + exfalso. unfold Rdiv in E. apply Rmult_integral in E. destruct E as [E|E].
      * apply Rmult_integral in E. destruct E as [E|E]; [apply Rmult_integral in E; lra|contradiction].
      * apply (Rinv_neq_0_compat (IZR M)); lra.
    + replace (PI * x * B / IZR M) with (PI * B * x / IZR M) by (field; lra). split; ring.
Qed.
Lemma cmor_doc B C x : cmor_r B C x = / sqrt (PI * B) * exp (- x ^ 2 / B) * cos (2 * PI * C * x) /\ cmor_i B C x = / sqrt (PI * B) * exp (- x ^ 2 / B) * sin (2 * PI * C * x).
Proof. unfold cmor_r, cmor_i, Rdiv. split; ring. Qed.

Lemma fbsp_1 B C x : 0 < B -> fbsp_r 1 B C x = shan_r B C x /\ fbsp_i 1 B C x = shan_i B C x.
Proof.
  intros HB. destruct (fbsp_doc 1 B C x ltac:(lia) HB) as [-> ->]. destruct (shan_doc B C x HB) as [-> ->].
  change (Z.to_nat 1) with 1%nat. cbn [INR pow]. replace (PI * B * x / 1) with (PI * B * x) by field. rewrite !Rmult_1_r. auto.
Qed.

Lemma sinc_even x : sinc (- x) = sinc x.
Proof.
  unfold sinc. destruct (Req_EM_T (- x) 0), (Req_EM_T x 0); try lra. rewrite sin_neg. field. assumption.
Qed.

Lemma sinc_cont : continuity sinc.
Proof.
  intros x. destruct (Req_EM_T x 0) as [-> |Hx].
  - assert (D := derivable_pt_lim_sin 0). rewrite cos_0 in D. intros eps He. destruct (D eps He) as (d & Hd).
    exists d. split; [apply cond_pos|]. intros y [[_ Hy] Hyd]. cbn [dist R_met] in *. unfold R_dist in *. rewrite Rminus_0_r in Hyd.
    assert (Hy0 : y <> 0) by auto. specialize (Hd y Hy0 Hyd). rewrite Rplus_0_l, sin_0, Rminus_0_r in Hd.
    unfold sinc. destruct (Req_EM_T y 0); [contradiction|]. destruct (Req_EM_T 0 0); [exact Hd|contradiction].
  - apply (dpl_cont sinc x ((cos x * id x - 1 * sin x) / Rsqr (id x))).
    set (r := Rabs x / 2). assert (0 < Rabs x) by (apply Rabs_pos_lt; exact Hx).
    apply (derivable_pt_lim_locally_ext (fun y => sin y / y) sinc x (x - r) (x + r)).
    + unfold r. lra.
    + intros y Hy. unfold sinc. destruct (Req_EM_T y 0) as [-> |]; [|reflexivity]. exfalso. unfold r in *.
      destruct (Rcase_abs x) as [L|L]; [rewrite Rabs_left in * by lra|rewrite Rabs_right in * by lra]; lra.
    + apply (derivable_pt_lim_div sin id x (cos x) 1); [apply derivable_pt_lim_sin|apply derivable_pt_lim_id|exact Hx].
Qed.

Lemma cont_lin k : continuity (fun x => k * x).
Proof. intros x. apply (continuity_pt_scal id k x). apply derivable_continuous_pt. apply derivable_pt_id. Qed.
Lemma cont_comp_lin f k : continuity f -> continuity (fun x => f (k * x)).
Proof. intros Hf x. apply (continuity_pt_comp (fun y => k * y) f); [apply cont_lin|apply Hf]. Qed.
Lemma cont_ext f g : (forall x, f x = g x) -> continuity f -> continuity g.
Proof. intros E H x. apply (continuity_pt_locally_ext f g 1 x); [lra|auto|apply H]. Qed.

Lemma shan_cont B C : 0 < B -> continuity (shan_r B C) /\ continuity (shan_i B C).
Proof.
  intros HB. split.
  - apply (cont_ext (mult_fct (mult_real_fct (sqrt B) (fun x => sinc (PI * B * x))) (fun x => cos (2 * PI * C * x)))).
    + intros x. rewrite (proj1 (shan_doc B C x HB)). reflexivity.
    + apply continuity_mult; [apply continuity_scal; apply (cont_comp_lin sinc (PI * B)); apply sinc_cont|apply (cont_comp_lin cos); apply continuity_cos].
  - apply (cont_ext (mult_fct (mult_real_fct (sqrt B) (fun x => sinc (PI * B * x))) (fun x => sin (2 * PI * C * x)))).
    + intros x. rewrite (proj2 (shan_doc B C x HB)). reflexivity.
    + apply continuity_mult; [apply continuity_scal; apply (cont_comp_lin sinc (PI * B)); apply sinc_cont|apply (cont_comp_lin sin); apply continuity_sin].
Qed.
Lemma cont_pow f n : continuity f -> continuity (fun x => f x ^ n).
Proof.
  intros H. induction n as [|n IH]; cbn [pow].
  - apply continuity_const. intros x y. reflexivity.
  - apply (continuity_mult f (fun x => f x ^ n)); assumption.
Qed.
Lemma fbsp_cont M B C : (0 < M)%Z -> 0 < B -> continuity (fbsp_r M B C) /\ continuity (fbsp_i M B C).
Proof.
  intros HM HB. set (m := Z.to_nat M).
  assert (K : continuity (fun x => sinc (PI * B * x / INR m) ^ m)).
  { apply cont_pow. apply (cont_ext (fun x => sinc ((PI * B / INR m) * x))); [intros x; f_equal; unfold Rdiv; ring|]. apply cont_comp_lin. apply sinc_cont. }
  split.
  - apply (cont_ext (mult_fct (mult_real_fct (sqrt B) (fun x => sinc (PI * B * x / INR m) ^ m)) (fun x => cos (2 * PI * C * x)))).
    + intros x. rewrite (proj1 (fbsp_doc M B C x HM HB)). reflexivity.
    + apply continuity_mult; [apply continuity_scal; exact K|apply (cont_comp_lin cos); apply continuity_cos].
  - apply (cont_ext (mult_fct (mult_real_fct (sqrt B) (fun x => sinc (PI * B * x / INR m) ^ m)) (fun x => sin (2 * PI * C * x)))).
    + intros x. rewrite (proj2 (fbsp_doc M B C x HM HB)). reflexivity.
    + apply continuity_mult; [apply continuity_scal; exact K|apply (cont_comp_lin sin); apply continuity_sin].
Qed.

Lemma cmor_modulus B C x : 0 < B -> sqrt (cmor_r B C x ^ 2 + cmor_i B C x ^ 2) = exp (- x ^ 2 / B) / sqrt (PI * B).
Proof.
  intros HB. pose proof PI_RGT_0. assert (Hs : 0 < sqrt (PI * B)) by (apply sqrt_lt_R0; nra). unfold cmor_r, cmor_i.
  set (e := exp (- x ^ 2 / B)). assert (0 < e) by apply exp_pos. set (t := 2 * PI * C * x).
  replace ((cos t * e / sqrt (PI * B)) ^ 2 + (sin t * e / sqrt (PI * B)) ^ 2) with ((Rsqr (sin t) + Rsqr (cos t)) * Rsqr (e / sqrt (PI * B))) by (unfold Rsqr; field; lra).
  rewrite sin2_cos2, Rmult_1_l. apply sqrt_Rsqr. left. apply Rdiv_lt_0_compat; lra.
Qed.
Lemma cmor_l1 B C : 0 < B -> integral_over_line (fun x => sqrt (cmor_r B C x ^ 2 + cmor_i B C x ^ 2)) 1.
Proof.
  intros HB. pose proof PI_RGT_0. assert (Hs : 0 < sqrt (PI * B)) by (apply sqrt_lt_R0; nra). assert (Hi : 0 < / B) by (apply Rinv_0_lt_compat; lra).
  replace 1 with (/ sqrt (PI * B) * sqrt (PI / / B)).
  2:{ replace (PI / / B) with (PI * B) by (field; lra). apply Rinv_l. lra. }
  eapply integral_ext; [|apply integral_scal; apply (gauss_integral (/ B) Hi)].
  intros x. cbv beta. rewrite (cmor_modulus B C x HB). replace (- / B * x ^ 2) with (- x ^ 2 / B) by (field; lra). unfold Rdiv. ring.
Qed.
Lemma shan_modulus B C x : 0 < B -> shan_r B C x ^ 2 + shan_i B C x ^ 2 = B * sinc (PI * B * x) ^ 2.
Proof.
  intros HB. destruct (shan_doc B C x HB) as [-> ->]. set (t := 2 * PI * C * x).
  replace ((sqrt B * sinc (PI * B * x) * cos t) ^ 2 + (sqrt B * sinc (PI * B * x) * sin t) ^ 2) with ((sqrt B ^ 2) * sinc (PI * B * x) ^ 2 * (Rsqr (sin t) + Rsqr (cos t))) by (unfold Rsqr; ring).
  rewrite sin2_cos2, pow2_sqrt by lra. ring.
Qed.
Lemma fbsp_modulus M B C x : (0 < M)%Z -> 0 < B ->
  fbsp_r M B C x ^ 2 + fbsp_i M B C x ^ 2 = B * (sinc (PI * B * x / INR (Z.to_nat M)) ^ Z.to_nat M) ^ 2.
Proof.
  intros HM HB. destruct (fbsp_doc M B C x HM HB) as [-> ->]. set (t := 2 * PI * C * x). set (s := sinc _ ^ _).
  replace ((sqrt B * s * cos t) ^ 2 + (sqrt B * s * sin t) ^ 2) with ((sqrt B ^ 2) * s ^ 2 * (Rsqr (sin t) + Rsqr (cos t))) by (unfold Rsqr; ring).
  rewrite sin2_cos2, pow2_sqrt by lra. ring.
Qed.

(** * Attributes of a name *)
Lemma registry_number f n name : assoc name registry = Some (f, n) -> (f = GAUS \/ f = CGAU) -> (1 <= n <= 8)%Z.
Proof.
  intros H Hf. apply assoc_in in H.
  assert (G : forallb (fun e : string * (family * Z) => match fst (snd e) with GAUS | CGAU => ((1 <=? snd (snd e)) && (snd (snd e) <=? 8))%Z%bool | _ => true end) registry = true) by (vm_compute; reflexivity).
  rewrite forallb_forall in G. specialize (G _ H). cbn [fst snd] in G. destruct Hf as [-> | ->]; lia.
Qed.

Lemma attrs_facts name a : continuous_attrs name = Ok a ->
  match a_family a with
  | GAUS | CGAU => (1 <= a_number a <= 8)%Z /\ a_symmetry a = (if (a_number a mod 2 =? 0)%Z then Symmetric else AntiSymmetric)
  | MEXH | MORL => a_symmetry a = Symmetric
  | FBSP => (0 < a_order a)%Z
  | SHAN | CMOR => True
  | _ => False
  end /\ a_lower a = (- a_upper a)%Q /\ a_complex a = match a_family a with GAUS | MEXH | MORL => false | _ => true end.
Proof.
  unfold continuous_attrs. destruct (continuous_new name) as [c| | |e] eqn:E; cbn [bind]; try discriminate.
  assert (R : (c_family c = GAUS \/ c_family c = CGAU) -> (1 <= c_number c <= 8)%Z).
  { intros Hf. revert E. unfold continuous_new, wname_to_code.
    match goal with |- context [assoc ?k registry] => destruct (assoc k registry) as [[f n]|] eqn:Ea; cbn [bind]; [|discriminate] end.
    destruct (negb (continuous_wavelet f n)); [discriminate|].
    assert (G : c_family c = f /\ c_number c = n -> (1 <= c_number c <= 8)%Z) by (intros [Ef En]; rewrite En; eapply registry_number; [exact Ea|rewrite <- Ef; exact Hf]).
    intros E. apply G. clear - E.
    repeat (cbv zeta in E; cbn [bind] in E; match type of E with
    | Ok _ = Ok _ => fail 1
    | (if ?b then _ else _) = _ => destruct b
    | match ?l with [] => _ | _ :: _ => _ end = _ => destruct l
    | context [to_float ?x] => destruct (to_float x)
    end); cbn [bind] in E; try discriminate; injection E as <-; auto. }
  assert (R2 : match c_order c with Some m => (0 < m)%Z | None => True end).
  { clear R. revert E. unfold continuous_new. destruct (wname_to_code _) as [[f n]| | |]; cbn [bind]; try discriminate. intros E.
    repeat (cbv zeta in E; cbn [bind] in E; match type of E with
    | Ok _ = Ok _ => fail 1
    | (if ?b then _ else _) = _ => destruct b eqn:?
    | match ?l with [] => _ | _ :: _ => _ end = _ => destruct l
    | context [to_float ?x] => destruct (to_float x)
    end); cbn [bind] in E; try discriminate; injection E as <-; cbn [c_order]; auto.
    match goal with H : _ || _ = false |- _ => apply Bool.orb_false_iff in H; destruct H as [H _]; apply Bool.negb_false_iff in H; apply Qle_bool_iff in H; unfold Qle in H; cbn [Qnum Qden] in H end.
    apply Z.div_str_pos. lia. }
  unfold continuous_struct. destruct (c_family c) eqn:Ef; try discriminate.
  - destruct (8 <? c_number c)%Z; [discriminate|]. intros [= <-]. cbn. auto.
  - intros [= <-]. cbn. auto.
  - intros [= <-]. cbn. auto.
  - destruct (8 <? c_number c)%Z; [discriminate|]. intros [= <-]. cbn. auto.
  - intros [= <-]. cbn. auto.
  - intros [= <-]. cbn. split; [|auto]. destruct (c_order c); [exact R2|lia].
  - intros [= <-]. cbn. auto.
Qed.

(** * The samples *)
Definition fn_of (a : cattrs) (x : R) : R * R :=
  let B := Q2R (a_band a) in let C := Q2R (a_center a) in
  match a_family a with
  | GAUS => (gaus (a_number a) x, 0)
  | MEXH => (mexh x, 0)
  | MORL => (morl x, 0)
  | CGAU => (cgau_r (a_number a) x, cgau_i (a_number a) x)
  | SHAN => (shan_r B C x, shan_i B C x)
  | FBSP => (fbsp_r (a_order a) B C x, fbsp_i (a_order a) B C x)
  | CMOR => (cmor_r B C x, cmor_i B C x)
  | _ => (0, 0)
  end.

Lemma Q2R_pos q : (0 < q)%Q -> 0 < Q2R q.
Proof. intros H. replace 0 with (Q2R 0) by (unfold Q2R; cbn; lra). apply Qlt_Rlt. exact H. Qed.

Lemma fn_documented name a : continuous_attrs name = Ok a -> usable a -> documented_psi a (fn_of a).
Proof.
  intros H U. destruct (attrs_facts name a H) as (F & _). unfold documented_psi, fn_of, usable in *. destruct (a_family a); try contradiction.
  - destruct F as (Hn & _). set (n := Z.to_nat (a_number a)). assert (E : a_number a = Z.of_nat n) by (unfold n; lia).
    destruct (gaus_derivative n ltac:(lia)) as (g & Hg & Eg). exists g. split; [exact Hg|]. intros x. rewrite E, Eg. reflexivity.
  - destruct mexh_derivative as (g & Hg & Eg). exists g. split; [exact Hg|]. intros x. rewrite Eg. reflexivity.
  - intros x. unfold morl. f_equal. ring.
  - destruct F as (Hn & _). set (n := Z.to_nat (a_number a)). assert (E : a_number a = Z.of_nat n) by (unfold n; lia).
    destruct (cgau_derivative n ltac:(lia)) as (k & g & h & Hk & Hg & Hh & Eg). exists k, g, h. split; [exact Hk|]. split; [exact Hg|]. split; [exact Hh|].
    intros x. rewrite E, (proj1 (Eg x)), (proj2 (Eg x)). reflexivity.
  - intros x. destruct (shan_doc (Q2R (a_band a)) (Q2R (a_center a)) x (Q2R_pos _ (proj1 U))) as [-> ->]. reflexivity.
  - intros x. destruct U as (U1 & U2). destruct (fbsp_doc (a_order a) (Q2R (a_band a)) (Q2R (a_center a)) x F (Q2R_pos _ U1)) as [-> ->]. reflexivity.
  - intros x. destruct (cmor_doc (Q2R (a_band a)) (Q2R (a_center a)) x) as [-> ->]. reflexivity.
Qed.

Lemma positive_ok q : (0 < q)%Q -> positive q = Ok q.
Proof. intros H. unfold positive. destruct (Qle_bool q 0) eqn:E; [|reflexivity]. apply Qle_bool_iff in E. exfalso. apply (Qlt_not_le _ _ H E). Qed.
Lemma positive_err q : ~ (0 < q)%Q -> positive q = Err TypeError.
Proof. intros H. unfold positive. apply Qnot_lt_le in H. apply Qle_bool_iff in H. rewrite H. reflexivity. Qed.

Lemma nth_mapR {A} (g : A -> R) (l : list A) (d : A) i : (i < Datatypes.length l)%nat -> nth i (map g l) 0 = g (nth i l d).
Proof. intros H. rewrite (nth_indep _ 0 (g d)) by (rewrite map_length; exact H). apply map_nth. Qed.

Lemma psi_single_values data a n : (1 <= n)%Z ->
  match a_family a with GAUS | MEXH | MORL | CGAU | SHAN | CMOR => True | FBSP => (0 < a_order a)%Z | _ => False end ->
  a_complex a = match a_family a with GAUS | MEXH | MORL => false | _ => true end -> usable a ->
  exists p, cwt_psi_single data a n = Ok p /\ is_complex p = a_complex a /\ samples p = Datatypes.length data /\
    forall i, (i < Datatypes.length data)%nat -> sample p i = fn_of a (Q2R (nth i data 0%Q)).
Proof.
  intros Hn Hf Hc U. unfold cwt_psi_single. replace (n <? 1)%Z with false by lia. rewrite Hc. unfold usable in U. unfold fn_of.
  assert (S1 : forall g h : R -> R, is_complex (PsiComplex (map g (map Q2R data)) (map h (map Q2R data))) = true
    /\ samples (PsiComplex (map g (map Q2R data)) (map h (map Q2R data))) = Datatypes.length data
    /\ forall i, (i < Datatypes.length data)%nat -> sample (PsiComplex (map g (map Q2R data)) (map h (map Q2R data))) i = (g (Q2R (nth i data 0%Q)), h (Q2R (nth i data 0%Q)))).
  { intros g h. split; [reflexivity|]. split; [cbn [samples]; rewrite !map_length; lia|]. intros i Hi. cbn [sample]. rewrite !map_map.
    rewrite (nth_mapR (fun q => g (Q2R q)) data 0%Q i Hi), (nth_mapR (fun q => h (Q2R q)) data 0%Q i Hi). reflexivity. }
  assert (S2 : forall g : R -> R, is_complex (PsiReal (map g (map Q2R data))) = false
    /\ samples (PsiReal (map g (map Q2R data))) = Datatypes.length data
    /\ forall i, (i < Datatypes.length data)%nat -> sample (PsiReal (map g (map Q2R data))) i = (g (Q2R (nth i data 0%Q)), 0)).
  { intros g. split; [reflexivity|]. split; [cbn [samples]; rewrite !map_length; lia|]. intros i Hi. cbn [sample]. rewrite !map_map.
    rewrite (nth_mapR (fun q => g (Q2R q)) data 0%Q i Hi). reflexivity. }
  destruct (a_family a); try contradiction.
  - eexists. split; [reflexivity|]. apply (S2 (gaus (a_number a))).
  - eexists. split; [reflexivity|]. apply (S2 mexh).
  - eexists. split; [reflexivity|]. apply (S2 morl).
  - eexists. split; [reflexivity|]. apply (S1 (cgau_r (a_number a)) (cgau_i (a_number a))).
  - destruct U as (U1 & U2). rewrite (positive_ok _ U1), (positive_ok _ U2). cbn [bind]. eexists. split; [reflexivity|]. apply S1.
  - destruct U as (U1 & U2). unfold nonzero. replace (a_order a =? 0)%Z with false by lia. rewrite (positive_ok _ U1), (positive_ok _ U2). cbn [bind]. eexists. split; [reflexivity|]. apply S1.
  - destruct U as (U1 & U2). rewrite (positive_ok _ U1), (positive_ok _ U2). cbn [bind]. eexists. split; [reflexivity|]. apply S1.
Qed.

Definition points (level : Z) (length : option Z) : Z := match length with Some n => n | None => (2 ^ level)%Z end.

Lemma zlen_nat {A} (l : list A) : Z.to_nat (zlen l) = Datatypes.length l.
Proof. unfold zlen. lia. Qed.

Theorem c_wavefun_main name a level length n : continuous_attrs name = Ok a -> usable a ->
  (length = Some n \/ length = None /\ (0 <= level)%Z /\ n = (2 ^ level)%Z) -> (1 <= n < max_alloc)%Z ->
  exists p x, c_wavefun a level length = Ok (p, x) /\ zlen x = n /\ samples p = Z.to_nat n /\ is_complex p = a_complex a /\
    (forall i, (0 <= i < n)%Z -> (nth (Z.to_nat i) x 0 == a_lower a + inject_Z i * ((a_upper a - a_lower a) / inject_Z (n - 1)))%Q) /\
    (forall i, (0 <= i < n)%Z -> sample p (Z.to_nat i) = fn_of a (Q2R (nth (Z.to_nat i) x 0%Q))).
Proof.
  intros H U HL Hn. destruct (attrs_facts name a H) as (F & Hb & Hc). unfold c_wavefun.
  replace (match length with None => if (level <? 0)%Z then 0%Z else (2 ^ level)%Z | Some m => m end) with n
    by (destruct HL as [-> |(-> & Hl & ->)]; [reflexivity|replace (level <? 0)%Z with false by lia; reflexivity]).
  replace (n <? 0)%Z with false by lia. replace (max_alloc <=? n)%Z with false by lia. cbv zeta.
  set (x := linspace (a_lower a) (a_upper a) n). assert (Lx : zlen x = n) by (unfold x, linspace; rewrite zlen_tab; lia).
  destruct (psi_single_values x a n) as (p & Ep & P1 & P2 & P3); [lia|destruct (a_family a); tauto|exact Hc|exact U|].
  rewrite Ep. cbn [bind]. exists p, x. split; [reflexivity|]. split; [exact Lx|]. split; [rewrite P2, <- zlen_nat, Lx; reflexivity|]. split; [exact P1|]. split.
  - intros i Hi. unfold x, linspace. rewrite qnth_tab by lia. ring.
  - intros i Hi. apply P3. rewrite <- zlen_nat. lia.
Qed.

Theorem c_wavefun_values name a level length n : continuous_attrs name = Ok a -> usable a ->
  (length = Some n \/ length = None /\ (0 <= level)%Z /\ n = (2 ^ level)%Z) -> (1 <= n < max_alloc)%Z ->
  exists p x f, c_wavefun a level length = Ok (p, x) /\ documented_psi a f /\ zlen x = n /\ samples p = Z.to_nat n /\ is_complex p = a_complex a /\
    (forall i, (0 <= i < n)%Z -> (nth (Z.to_nat i) x 0 == a_lower a + inject_Z i * ((a_upper a - a_lower a) / inject_Z (n - 1)))%Q) /\
    (forall i, (0 <= i < n)%Z -> sample p (Z.to_nat i) = f (Q2R (nth (Z.to_nat i) x 0%Q))).
Proof.
  intros H U HL Hn. destruct (c_wavefun_main name a level length n H U HL Hn) as (p & x & E & R). exists p, x, (fn_of a).
  split; [exact E|]. split; [apply (fn_documented name); assumption|exact R].
Qed.

Theorem c_wavefun_errors name a level length : continuous_attrs name = Ok a ->
  ((exists n, length = Some n /\ (n < 0)%Z) -> c_wavefun a level length = Err ValueError) /\
  (length = Some 0%Z \/ (length = None /\ (level < 0)%Z) -> c_wavefun a level length = Err RuntimeError) /\
  (~ usable a -> (exists n, (length = Some n \/ length = None /\ (0 <= level)%Z /\ n = (2 ^ level)%Z) /\ (1 <= n < max_alloc)%Z) ->
     c_wavefun a level length = Err TypeError).
Proof.
  intros H. split; [|split].
  - intros (n & -> & Hn). unfold c_wavefun. replace (n <? 0)%Z with true by lia. reflexivity.
  - intros HL. unfold c_wavefun. replace (match length with None => if (level <? 0)%Z then 0%Z else (2 ^ level)%Z | Some m => m end) with 0%Z
      by (destruct HL as [-> |(-> & Hl)]; [reflexivity|replace (level <? 0)%Z with true by lia; reflexivity]).
    replace (0 <? 0)%Z with false by lia. replace (max_alloc <=? 0)%Z with false by (unfold max_alloc; lia). reflexivity.
  - intros U (n & HL & Hn). unfold c_wavefun.
    replace (match length with None => if (level <? 0)%Z then 0%Z else (2 ^ level)%Z | Some m => m end) with n
      by (destruct HL as [-> |(-> & Hl & ->)]; [reflexivity|replace (level <? 0)%Z with false by lia; reflexivity]).
    replace (n <? 0)%Z with false by lia. replace (max_alloc <=? n)%Z with false by lia. cbv zeta.
    replace (cwt_psi_single (linspace (a_lower a) (a_upper a) n) a n) with (@Err cpsi TypeError); [reflexivity|].
    unfold cwt_psi_single. replace (n <? 1)%Z with false by lia. unfold usable in U.
    assert (K : forall f (T : Q -> Q -> res cpsi), ~ ((0 < a_band a)%Q /\ (0 < a_center a)%Q) -> f = tt -> (fb <- positive (a_band a) ;; fc <- positive (a_center a) ;; T fb fc) = Err TypeError).
    { intros f T N _. destruct (Qlt_le_dec 0 (a_band a)) as [B|B].
      - rewrite (positive_ok _ B). cbn [bind]. rewrite positive_err; [reflexivity|]. intros C. apply N. auto.
      - rewrite positive_err; [reflexivity|]. apply Qle_not_lt. exact B. }
    destruct (attrs_facts name a H) as (F & _). destruct (a_family a); try (exfalso; apply U; exact I); try contradiction.
    + symmetry. apply (K tt); auto.
    + unfold nonzero. destruct (a_order a =? 0)%Z eqn:E; [reflexivity|]. cbn [bind]. symmetry.
      apply (K tt); auto.
    + symmetry. apply (K tt); auto.
Qed.

(** * The symmetry attribute *)
Lemma linspace_sym a n i x y : (2 <= n)%Z -> (0 <= i < n)%Z -> a_lower a = (- a_upper a)%Q ->
  (x == a_lower a + inject_Z i * ((a_upper a - a_lower a) / inject_Z (n - 1)))%Q ->
  (y == a_lower a + inject_Z (n - 1 - i) * ((a_upper a - a_lower a) / inject_Z (n - 1)))%Q -> Q2R y = - Q2R x.
Proof.
  intros Hn Hi Hb Ex Ey. rewrite <- Q2R_opp. apply Qeq_eqR. rewrite Ex, Ey, Hb. unfold Z.sub at 1. rewrite inject_Z_plus, inject_Z_opp. field.
  intros E. change 0%Q with (inject_Z 0) in E. rewrite inject_Z_injective in E. lia.
Qed.

Lemma fn_conj name a x : continuous_attrs name = Ok a ->
  let s := match a_family a with GAUS | CGAU => (-1) ^ Z.to_nat (a_number a) | _ => 1 end in
  fn_of a (- x) = (s * fst (fn_of a x), - s * snd (fn_of a x)).
Proof.
  intros H. destruct (attrs_facts name a H) as (F & _). unfold fn_of. destruct (a_family a); try contradiction; cbn [fst snd].
  - destruct F as (Hn & _). set (n := Z.to_nat (a_number a)). replace (a_number a) with (Z.of_nat n) by (unfold n; lia).
    rewrite gaus_parity by lia. f_equal. ring.
  - rewrite mexh_even. f_equal; ring.
  - rewrite morl_even. f_equal; ring.
  - destruct F as (Hn & _). set (n := Z.to_nat (a_number a)). replace (a_number a) with (Z.of_nat n) by (unfold n; lia).
    destruct (cgau_hermitian n x ltac:(lia)) as [-> ->]. reflexivity.
  - unfold shan_r, shan_i. destruct (Req_EM_T (- x) 0) as [E|E], (Req_EM_T x 0) as [E'|E']; try (exfalso; lra).
    + replace (2 * PI * Q2R (a_center a) * - x) with (- (2 * PI * Q2R (a_center a) * x)) by ring. rewrite cos_neg, sin_neg. f_equal; ring.
    + replace (2 * PI * Q2R (a_center a) * - x) with (- (2 * PI * Q2R (a_center a) * x)) by ring.
      replace (- x * Q2R (a_band a) * PI) with (- (x * Q2R (a_band a) * PI)) by ring. rewrite cos_neg, !sin_neg.
      unfold Rdiv. rewrite Rinv_opp. f_equal; ring.
  - unfold fbsp_r, fbsp_i. destruct (Req_EM_T (- x) 0) as [E|E], (Req_EM_T x 0) as [E'|E']; try (exfalso; lra).
    + replace (2 * PI * Q2R (a_center a) * - x) with (- (2 * PI * Q2R (a_center a) * x)) by ring. rewrite cos_neg, sin_neg. f_equal; ring.
    + replace (2 * PI * Q2R (a_center a) * - x) with (- (2 * PI * Q2R (a_center a) * x)) by ring.
      replace (PI * - x * Q2R (a_band a) / IZR (a_order a)) with (- (PI * x * Q2R (a_band a) / IZR (a_order a))) by (unfold Rdiv; ring). rewrite cos_neg, !sin_neg.
      set (t := PI * x * Q2R (a_band a) / IZR (a_order a)). replace (- sin t / - t) with (sin t / t) by (unfold Rdiv; rewrite Rinv_opp; ring). f_equal; ring.
  - unfold cmor_r, cmor_i. replace (2 * PI * Q2R (a_center a) * - x) with (- (2 * PI * Q2R (a_center a) * x)) by ring.
    replace ((- x) ^ 2) with (x ^ 2) by ring. rewrite cos_neg, sin_neg. unfold Rdiv. f_equal; ring.
Qed.

Definition conj_sym (s : R) (u v : R * R) : Prop := v = (s * fst u, - s * snd u).

Lemma wavefun_conj name a level length n p x : continuous_attrs name = Ok a -> usable a ->
  (length = Some n \/ length = None /\ (0 <= level)%Z /\ n = (2 ^ level)%Z) -> (2 <= n < max_alloc)%Z ->
  c_wavefun a level length = Ok (p, x) -> forall i, (0 <= i < n)%Z ->
  conj_sym (match a_family a with GAUS | CGAU => (-1) ^ Z.to_nat (a_number a) | _ => 1 end) (sample p (Z.to_nat i)) (sample p (Z.to_nat (n - 1 - i))).
Proof.
  intros H U HL Hn E i Hi. destruct (c_wavefun_main name a level length n H U HL ltac:(lia)) as (p' & x' & E' & Lx & _ & _ & G & V).
  rewrite E in E'. injection E' as <- <-. unfold conj_sym. rewrite (V i Hi), (V (n - 1 - i)%Z ltac:(lia)), <- (fn_conj name a _ H). f_equal.
  apply (linspace_sym a n i); [lia|lia|apply (attrs_facts name a H)|apply G; lia|apply G; lia].
Qed.

Lemma pow_parity n : (-1) ^ n = if Nat.even n then 1 else -1.
Proof.
  assert (G : (-1) ^ n = (if Nat.even n then 1 else -1) /\ (-1) ^ S n = (if Nat.even (S n) then 1 else -1)); [|apply G].
  induction n as [|n [IH1 IH2]]; [cbn; split; ring|]. split; [exact IH2|]. change (Nat.even (S (S n))) with (Nat.even n). rewrite <- IH1. simpl. ring.
Qed.

Theorem symmetry_real name a level length n p x : continuous_attrs name = Ok a -> a_complex a = false ->
  (length = Some n \/ length = None /\ (0 <= level)%Z /\ n = (2 ^ level)%Z) -> (2 <= n < max_alloc)%Z ->
  c_wavefun a level length = Ok (p, x) ->
  (a_symmetry a = Symmetric /\ forall i, (0 <= i < n)%Z -> fst (sample p (Z.to_nat (n - 1 - i))) = fst (sample p (Z.to_nat i))) \/
  (a_symmetry a = AntiSymmetric /\ forall i, (0 <= i < n)%Z -> fst (sample p (Z.to_nat (n - 1 - i))) = - fst (sample p (Z.to_nat i))).
Proof.
  intros H Hc HL Hn E. destruct (attrs_facts name a H) as (F & _ & Hcx).
  assert (U : usable a) by (unfold usable; destruct (a_family a); try exact I; rewrite Hcx in Hc; discriminate).
  pose proof (wavefun_conj name a level length n p x H U HL Hn E) as G. unfold conj_sym in G. rewrite Hcx in Hc.
  destruct (a_family a) eqn:Ef; try discriminate; try contradiction.
  - destruct F as (Hr & ->). rewrite pow_parity in G.
    assert (Ep : Nat.even (Z.to_nat (a_number a)) = (a_number a mod 2 =? 0)%Z).
    { rewrite Zmod_even, <- (Z2Nat.id (a_number a)) at 1 by lia. rewrite Z2Nat.id, <- (Z2Nat.id (a_number a)) by lia. set (k := Z.to_nat (a_number a)).
      rewrite Nat2Z.id. replace (Z.even (Z.of_nat k)) with (Nat.even k); [destruct (Nat.even k); reflexivity|].
      symmetry. destruct (Nat.even k) eqn:Ek.
      - apply Nat.even_spec in Ek. destruct Ek as (j & ->). apply Z.even_spec. exists (Z.of_nat j). lia.
      - rewrite <- Nat.negb_odd in Ek. apply Bool.negb_false_iff in Ek. apply Nat.odd_spec in Ek. destruct Ek as (j & ->).
        rewrite <- Z.negb_odd. apply Bool.negb_false_iff. apply Z.odd_spec. exists (Z.of_nat j). lia. }
    rewrite Ep in G. destruct (a_number a mod 2 =? 0)%Z; [left|right]; split; try reflexivity; intros i Hi; rewrite (G i Hi); cbn [fst]; ring.
  - left. split; [exact F|]. intros i Hi. rewrite (G i Hi). cbn [fst]. ring.
  - left. split; [exact F|]. intros i Hi. rewrite (G i Hi). cbn [fst]. ring.
Qed.

Theorem symmetry_conj name a level length n p x : continuous_attrs name = Ok a -> usable a -> a_complex a = true ->
  (length = Some n \/ length = None /\ (0 <= level)%Z /\ n = (2 ^ level)%Z) -> (2 <= n < max_alloc)%Z ->
  c_wavefun a level length = Ok (p, x) ->
  exists s, (s = 1 \/ s = -1) /\ (a_family a <> CGAU -> s = 1) /\
    forall i, (0 <= i < n)%Z -> sample p (Z.to_nat (n - 1 - i)) = (s * fst (sample p (Z.to_nat i)), - s * snd (sample p (Z.to_nat i))).
Proof.
  intros H U Hc HL Hn E. pose proof (wavefun_conj name a level length n p x H U HL Hn E) as G. unfold conj_sym in G.
  destruct (attrs_facts name a H) as (F & _ & Hcx). rewrite Hcx in Hc.
  eexists. split; [|split; [|exact G]].
  - destruct (a_family a); auto; rewrite pow_parity; destruct (Nat.even _); auto.
  - destruct (a_family a); auto; try discriminate. intros N. contradiction.
Qed.
