(** The Gaussian families: derivatives of a Gaussian, unit energy, vanishing moments, parity. *)
From Coq Require Import Reals Lra Lia ZArith List.
Import ListNotations.
From Verif Require Import ContinuousSpec GaussInt ContinuousPoly Continuous.
Open Scope R_scope.

Definition pzero (p : list Z) : bool := forallb (Z.eqb 0) p.
Lemma pzero_ok p x : pzero p = true -> peval p x = 0.
Proof.
  induction p as [|a p IH]; [reflexivity|]. unfold pzero in *. cbn [forallb peval]. rewrite Bool.andb_true_iff, Z.eqb_eq. intros [<- H].
  rewrite (IH H). ring.
Qed.
Lemma peq_ok p q : pzero (padd p (pscale (-1) q)) = true -> forall x, peval p x = peval q x.
Proof. intros H x. apply (pzero_ok _ x) in H. rewrite peval_add, peval_scale in H. lra. Qed.

Lemma poly_integral_check c (P Q : list Z) (k : Z) : (c < 0)%Z ->
  pzero (padd P (pscale (-1) (padd [k] (padd (pderiv Q) (0%Z :: pscale c Q))))) = true ->
  integral_over_line (fun x => peval P x * exp (IZR c / 2 * x ^ 2)) (IZR k * sqrt (PI / (- IZR c / 2))).
Proof.
  intros Hc H. apply (poly_integral c P Q k Hc). intros x. rewrite (peq_ok _ _ H x). rewrite peval_add. cbn [peval]. ring.
Qed.

(** The moment that does not vanish. *)
Lemma tg_last_moment w c n : forall s, exists s', forall x,
  derivable_pt_lim (tg w c s') x (x ^ n * tg w c (dpairs w c n s) x - (-1) ^ n * INR (fact n) * tg w c s x).
Proof.
  induction n as [|n IH]; intros s.
  - exists ([], []). intros x. cbn [dpairs]. eapply dpl_eq; [reflexivity| |apply tg_deriv]. unfold tg. cbn. ring.
  - rewrite dpairs_last. set (t := dpairs w c n s) in *. destruct (IH s) as (s2 & H2). fold t in H2.
    set (t1 := (pshift (S n) (fst t), pshift (S n) (snd t))).
    exists (padd (fst t1) (pscale (- Z.of_nat (S n)) (fst s2)), padd (snd t1) (pscale (- Z.of_nat (S n)) (snd s2))).
    intros x. apply (dpl_eq (plus_fct (mult_fct (fun y => y ^ S n) (tg w c t)) (mult_real_fct (- INR (S n)) (tg w c s2))) _ x
      ((INR (S n) * x ^ pred (S n) * tg w c t x + x ^ S n * tg w c (dpair w c t) x) + - INR (S n) * (x ^ n * tg w c t x - (-1) ^ n * INR (fact n) * tg w c s x))).
    + intros y. unfold plus_fct, mult_fct, mult_real_fct. rewrite <- tg_shift. fold t1. unfold tg. cbn [fst snd].
      rewrite !peval_add, !peval_scale, opp_IZR, <- INR_IZR_INZ. ring.
    + cbn [pred]. rewrite fact_simpl, mult_INR. simpl pow. ring.
    + apply derivable_pt_lim_plus.
      * apply (derivable_pt_lim_mult (fun y => y ^ S n) (tg w c t)); [apply dpl_pow|apply tg_deriv].
      * apply derivable_pt_lim_scal. apply H2.
Qed.

(** * gaus *)
Definition gaus_sign (n : nat) : R := (-1) ^ (n / 2).
Definition gaus_poly (n : nat) : list Z := fst (dpairs 0 (-2) n ([1%Z], [])).
Definition gaus_norm (n : nat) : R := sqrt (odd_factorial n * sqrt (PI / 2)).

Lemma eight n : (1 <= n <= 8)%nat -> n = 1%nat \/ n = 2%nat \/ n = 3%nat \/ n = 4%nat \/ n = 5%nat \/ n = 6%nat \/ n = 7%nat \/ n = 8%nat.
Proof. lia. Qed.

Lemma sqrt_half_pi : 0 < sqrt (PI / 2).
Proof. apply sqrt_lt_R0. pose proof PI_RGT_0. lra. Qed.
Lemma odd_factorial_pos n : 0 < odd_factorial n.
Proof. induction n as [|n IH]; cbn [odd_factorial]; [lra|]. apply Rmult_lt_0_compat; [|exact IH]. pose proof (pos_INR n). lra. Qed.
Lemma gaus_norm_pos n : 0 < gaus_norm n.
Proof. apply sqrt_lt_R0. apply Rmult_lt_0_compat; [apply odd_factorial_pos|apply sqrt_half_pi]. Qed.
Lemma gaus_norm_sq n : gaus_norm n ^ 2 = odd_factorial n * sqrt (PI / 2).
Proof. unfold gaus_norm. rewrite pow2_sqrt; [reflexivity|]. left. apply Rmult_lt_0_compat; [apply odd_factorial_pos|apply sqrt_half_pi]. Qed.

Lemma exp_2 x : exp (IZR (-2) / 2 * x ^ 2) = exp (- x ^ 2).
Proof. f_equal. lra. Qed.

Lemma gaus_poly_form n x : (1 <= n <= 8)%nat ->
  gaus (Z.of_nat n) x = gaus_sign n * (peval (gaus_poly n) x * exp (- x ^ 2)) / gaus_norm n.
Proof.
  intros H. unfold gaus_sign, gaus_norm.
  destruct (eight n H) as [-> |[-> |[-> |[-> |[-> |[-> |[-> | ->]]]]]]]; cbn [Z.of_nat Pos.of_succ_nat Pos.succ gaus odd_factorial Nat.div Nat.divmod fst INR pow];
  match goal with |- context [gaus_poly ?k] => let p := eval vm_compute in (gaus_poly k) in change (gaus_poly k) with p end; cbn [peval];
  match goal with |- ?a / sqrt (sqrt ?b) = ?c / sqrt (?d * sqrt ?b) => replace (d * sqrt b) with (sqrt b) by ring
  | |- ?a / sqrt (?e * sqrt ?b) = ?c / sqrt (?d * sqrt ?b) => replace (d * sqrt b) with (e * sqrt b) by ring end;
  unfold Rdiv; f_equal; ring.
Qed.

Lemma gaus_tg n x : (1 <= n <= 8)%nat ->
  gaus (Z.of_nat n) x = gaus_sign n / gaus_norm n * tg 0 (-2) (dpairs 0 (-2) n ([1%Z], [])) x.
Proof.
  intros H. rewrite (gaus_poly_form n x H). rewrite (surjective_pairing (dpairs 0 (-2) n ([1%Z], []))), tg_0, exp_2. fold (gaus_poly n).
  pose proof (gaus_norm_pos n). field. lra.
Qed.

Lemma tg_start c x : tg 0 c ([1%Z], []) x = exp (IZR c / 2 * x ^ 2).
Proof. rewrite tg_0. cbn [peval]. ring. Qed.

Lemma nth_derivative_ext n : forall f f' g g', (forall x, f x = f' x) -> (forall x, g x = g' x) -> nth_derivative n f g -> nth_derivative n f' g'.
Proof.
  induction n as [|n IH]; intros f f' g g' Ef Eg; cbn [nth_derivative].
  - intros H x. rewrite <- Eg, <- Ef. apply H.
  - intros (h & Hh & H). exists h. split; [|apply (IH h h g g'); auto]. intros x. apply (dpl_eq f _ x (h x)); auto.
Qed.

Lemma gaus_derivative n : (1 <= n <= 8)%nat ->
  exists g, nth_derivative n (fun x => exp (- x ^ 2)) g /\
    forall x, gaus (Z.of_nat n) x = (-1) ^ (n / 2) * g x / sqrt (odd_factorial n * sqrt (PI / 2)).
Proof.
  intros H. exists (tg 0 (-2) (dpairs 0 (-2) n ([1%Z], []))). split.
  - eapply nth_derivative_ext; [| |apply (tg_nth 0 (-2) n ([1%Z], []))]; [|reflexivity]. intros x. rewrite tg_start. apply exp_2.
  - intros x. rewrite (gaus_tg n x H). unfold gaus_sign, gaus_norm, Rdiv. ring.
Qed.

Lemma gaus_parity n x : (1 <= n <= 8)%nat -> gaus (Z.of_nat n) (- x) = (-1) ^ n * gaus (Z.of_nat n) x.
Proof.
  intros H. destruct (eight n H) as [-> |[-> |[-> |[-> |[-> |[-> |[-> | ->]]]]]]]; cbn [Z.of_nat Pos.of_succ_nat Pos.succ gaus];
  replace ((- x) ^ 2) with (x ^ 2) by ring; unfold Rdiv; ring.
Qed.

Lemma gaus_moments n m : (1 <= n <= 8)%nat -> (m < n)%nat -> integral_over_line (fun x => x ^ m * gaus (Z.of_nat n) x) 0.
Proof.
  intros H Hm. replace 0 with (gaus_sign n / gaus_norm n * 0) by ring.
  eapply integral_ext; [|apply (integral_scal (gaus_sign n / gaus_norm n)); apply (tg_moment_integral 0 (-2) ltac:(lia) n m ([1%Z], []) Hm)].
  intros x. cbv beta. rewrite (gaus_tg n x H). ring.
Qed.

Lemma gaus_last_moment n : (1 <= n <= 8)%nat -> exists v, v <> 0 /\ integral_over_line (fun x => x ^ n * gaus (Z.of_nat n) x) v.
Proof.
  intros H. exists (gaus_sign n / gaus_norm n * ((-1) ^ n * INR (fact n) * sqrt (PI / 1) + 0)). pose proof (gaus_norm_pos n) as Hn. split.
  - rewrite Rplus_0_r. assert (P1 : forall k, (-1) ^ k <> 0) by (intros k; apply pow_nonzero; lra).
    assert (Hs : 0 < sqrt (PI / 1)) by (apply sqrt_lt_R0; pose proof PI_RGT_0; lra). pose proof (INR_fact_neq_0 n).
    unfold Rdiv at 1, gaus_sign. repeat apply Rmult_integral_contrapositive_currified; auto; try lra. apply Rinv_neq_0_compat. lra.
  - destruct (tg_last_moment 0 (-2) n ([1%Z], [])) as (s' & Hs').
    eapply integral_ext; [|apply (integral_scal (gaus_sign n / gaus_norm n)); apply integral_add;
      [apply (integral_scal ((-1) ^ n * INR (fact n))); apply (gauss_integral 1); lra|apply (integral_0 _ _ Hs'); apply tg_both; lia]].
    intros x. cbv beta. rewrite (gaus_tg n x H), tg_start, exp_2. replace (-1 * x ^ 2) with (- x ^ 2) by ring. replace (- (1) * x ^ 2) with (- x ^ 2) by ring. ring.
Qed.

Definition gaus_q (n : nat) : list Z :=
  match n with
  | 1%nat => [0;-1] | 2%nat => [0;1;0;-4] | 3%nat => [0;-15;0;28;0;-16] | 4%nat => [0;39;0;-332;0;272;0;-64]
  | 5%nat => [0;-945;0;3540;0;-4848;0;1984;0;-256]
  | 6%nat => [0;4005;0;-52260;0;84912;0;-52416;0;12544;0;-1024]
  | 7%nat => [0;-135135;0;760620;0;-1649424;0;1315392;0;-466688;0;72704;0;-4096]
  | _ => [0;795375;0;-13992300;0;33964560;0;-33921600;0;15793920;0;-3640320;0;397312;0;-16384]
  end%Z.
Definition gaus_c (n : nat) : Z := match n with 1%nat => 1 | 2%nat => 3 | 3%nat => 15 | 4%nat => 105 | 5%nat => 945 | 6%nat => 10395 | 7%nat => 135135 | _ => 2027025 end%Z.
Lemma gaus_c_ok n : (1 <= n <= 8)%nat -> IZR (gaus_c n) = odd_factorial n.
Proof. intros H. destruct (eight n H) as [-> |[-> |[-> |[-> |[-> |[-> |[-> | ->]]]]]]]; cbn [gaus_c odd_factorial INR]; ring. Qed.
Lemma gaus_q_ok n : (1 <= n <= 8)%nat ->
  pzero (padd (pmul (gaus_poly n) (gaus_poly n)) (pscale (-1) (padd [gaus_c n] (padd (pderiv (gaus_q n)) (0%Z :: pscale (-4) (gaus_q n)))))) = true.
Proof. intros H. destruct (eight n H) as [-> |[-> |[-> |[-> |[-> |[-> |[-> | ->]]]]]]]; vm_compute; reflexivity. Qed.

Lemma sqrt_pi_4 : sqrt (PI / (- IZR (-4) / 2)) = sqrt (PI / 2).
Proof. f_equal. field. Qed.

Lemma exp_sq x : exp (- x ^ 2) * exp (- x ^ 2) = exp (IZR (-4) / 2 * x ^ 2).
Proof. rewrite <- exp_plus. f_equal. lra. Qed.

Lemma sign_sq n : gaus_sign n * gaus_sign n = 1.
Proof. unfold gaus_sign. rewrite <- Rpow_mult_distr. replace (-1 * -1) with 1 by ring. apply pow1. Qed.

Lemma gaus_energy n : (1 <= n <= 8)%nat -> integral_over_line (fun x => gaus (Z.of_nat n) x ^ 2) 1.
Proof.
  intros H. pose proof (gaus_norm_pos n) as Hn.
  replace 1 with (/ (gaus_norm n ^ 2) * (IZR (gaus_c n) * sqrt (PI / (- IZR (-4) / 2)))).
  2:{ rewrite sqrt_pi_4, (gaus_c_ok n H), <- gaus_norm_sq. apply Rinv_l. nra. }
  eapply integral_ext; [|apply integral_scal; apply (poly_integral_check (-4) _ _ _ ltac:(lia) (gaus_q_ok n H))].
  intros x. cbv beta. rewrite (gaus_poly_form n x H), peval_mul, <- exp_sq.
  replace ((gaus_sign n * (peval (gaus_poly n) x * exp (- x ^ 2)) / gaus_norm n) ^ 2)
    with ((gaus_sign n * gaus_sign n) * (peval (gaus_poly n) x * exp (- x ^ 2)) ^ 2 / gaus_norm n ^ 2) by (field; lra).
  rewrite sign_sq. field. lra.
Qed.

(** * mexh *)
Definition mexh_k : R := 2 / (sqrt 3 * sqrt (sqrt PI)).
Lemma mexh_norm_pos : 0 < sqrt 3 * sqrt (sqrt PI).
Proof. pose proof PI_RGT_0. apply Rmult_lt_0_compat; repeat apply sqrt_lt_R0; lra. Qed.
Lemma mexh_tg x : mexh x = - mexh_k * tg 0 (-1) (dpairs 0 (-1) 2 ([1%Z], [])) x.
Proof.
  let p := eval vm_compute in (dpairs 0 (-1) 2 ([1%Z], [])) in change (dpairs 0 (-1) 2 ([1%Z], [])) with p. rewrite tg_0. cbn [peval].
  unfold mexh, mexh_k. replace (IZR (-1) / 2 * x ^ 2) with (- x ^ 2 / 2) by lra. unfold Rdiv. ring.
Qed.
Lemma mexh_derivative : exists g, nth_derivative 2 (fun x => exp (- x ^ 2 / 2)) g /\ forall x, mexh x = - (2 / (sqrt 3 * sqrt (sqrt PI))) * g x.
Proof.
  exists (tg 0 (-1) (dpairs 0 (-1) 2 ([1%Z], []))). split; [|exact mexh_tg].
  eapply nth_derivative_ext; [| |apply (tg_nth 0 (-1) 2 ([1%Z], []))]; [|reflexivity]. intros x. rewrite tg_start. f_equal. lra.
Qed.
Lemma mexh_moments m : (m < 2)%nat -> integral_over_line (fun x => x ^ m * mexh x) 0.
Proof.
  intros Hm. replace 0 with (- mexh_k * 0) by ring.
  eapply integral_ext; [|apply (integral_scal (- mexh_k)); apply (tg_moment_integral 0 (-1) ltac:(lia) 2 m ([1%Z], []) Hm)].
  intros x. cbv beta. rewrite mexh_tg. ring.
Qed.
Lemma mexh_energy : integral_over_line (fun x => mexh x ^ 2) 1.
Proof.
  pose proof PI_RGT_0 as HP. pose proof mexh_norm_pos as Hn.
  assert (E2 : (sqrt 3 * sqrt (sqrt PI)) ^ 2 = 3 * sqrt PI) by (rewrite Rpow_mult_distr, !pow2_sqrt; [reflexivity|apply sqrt_pos|lra]).
  assert (H : pzero (padd [4; 0; -8; 0; 4] (pscale (-1) (padd [3] (padd (pderiv [0; 1; 0; -2]) (0 :: pscale (-2) [0; 1; 0; -2])))))%Z = true) by reflexivity.
  replace 1 with (/ ((sqrt 3 * sqrt (sqrt PI)) ^ 2) * (IZR 3 * sqrt (PI / (- IZR (-2) / 2)))).
  2:{ rewrite E2. replace (PI / (- IZR (-2) / 2)) with PI by field. apply Rinv_l. pose proof (sqrt_lt_R0 PI HP). lra. }
  eapply integral_ext; [|apply integral_scal; apply (poly_integral_check (-2) _ _ _ ltac:(lia) H)].
  intros x. cbv beta. unfold mexh.
  replace (((1 - x ^ 2) * exp (- x ^ 2 / 2) * 2 / (sqrt 3 * sqrt (sqrt PI))) ^ 2)
    with ((4 * (1 - x ^ 2) ^ 2) * (exp (- x ^ 2 / 2) * exp (- x ^ 2 / 2)) / (sqrt 3 * sqrt (sqrt PI)) ^ 2).
  2:{ field. split; apply Rgt_not_eq; repeat apply sqrt_lt_R0; lra. }
  rewrite <- exp_plus. replace (- x ^ 2 / 2 + - x ^ 2 / 2) with (IZR (-2) / 2 * x ^ 2) by lra. cbn [peval]. unfold Rdiv. ring.
Qed.
Lemma mexh_even x : mexh (- x) = mexh x.
Proof. unfold mexh. replace ((- x) ^ 2) with (x ^ 2) by ring. reflexivity. Qed.

(** * morl *)
Lemma morl_even x : morl (- x) = morl x.
Proof. unfold morl. replace ((- x) ^ 2) with (x ^ 2) by ring. replace (5 * - x) with (- (5 * x)) by ring. rewrite cos_neg. reflexivity. Qed.
Lemma morl_bound x : Rabs (morl x) <= exp (- x ^ 2 / 2).
Proof.
  unfold morl. rewrite Rabs_mult, (Rabs_right (exp _)) by (left; apply exp_pos). pose proof (cos_abs (5 * x)). pose proof (exp_pos (- x ^ 2 / 2)). nra.
Qed.

(** * cgau *)
Definition cgau_pair (n : nat) : list Z * list Z := dpairs 1 (-2) n ([1%Z], []).
Definition cgau_ipair (n : nat) : list Z * list Z := dpairs 1 (-2) n ([], [(-1)%Z]).
Definition cgau_c (n : nat) : Z := match n with 1%nat => 2 | 2%nat => 10 | 3%nat => 76 | 4%nat => 764 | 5%nat => 9496 | 6%nat => 140152 | 7%nat => 2390480 | _ => 46206736 end%Z.
Definition cgau_q (n : nat) : list Z :=
  match n with
  | 1%nat => [0;-1] | 2%nat => [0;-1;0;-4] | 3%nat => [0;-27;0;16;0;-16] | 4%nat => [0;-139;0;-340;0;208;0;-64]
  | 5%nat => [0;-2935;0;1800;0;-4288;0;1664;0;-256] | 6%nat => [0;-30591;0;-56860;0;64384;0;-45312;0;11008;0;-1024]
  | 7%nat => [0;-692671;0;324016;0;-1414000;0;1073920;0;-405760;0;65536;0;-4096]
  | _ => [0;-10958767;0;-16462964;0;25577776;0;-28243136;0;13286144;0;-3202048;0;364544;0;-16384]
  end%Z.
Definition cgau_norm (n : nat) : R := sqrt (IZR (cgau_c n) * sqrt (PI / 2)).
Lemma cgau_c_pos n : (0 < cgau_c n)%Z.
Proof. do 8 (destruct n as [|n]; [reflexivity|]). reflexivity. Qed.
Lemma cgau_norm_pos n : 0 < cgau_norm n.
Proof. apply sqrt_lt_R0. apply Rmult_lt_0_compat; [apply IZR_lt; apply cgau_c_pos|apply sqrt_half_pi]. Qed.
Lemma cgau_norm_sq n : cgau_norm n ^ 2 = IZR (cgau_c n) * sqrt (PI / 2).
Proof. unfold cgau_norm. rewrite pow2_sqrt; [reflexivity|]. left. apply Rmult_lt_0_compat; [apply IZR_lt; apply cgau_c_pos|apply sqrt_half_pi]. Qed.

Lemma cgau_r_tg n x : (1 <= n <= 8)%nat -> cgau_r (Z.of_nat n) x = tg 1 (-2) (cgau_pair n) x / cgau_norm n.
Proof.
  intros H. unfold cgau_norm, tg. rewrite exp_2, Rmult_1_l.
  destruct (eight n H) as [-> |[-> |[-> |[-> |[-> |[-> |[-> | ->]]]]]]]; cbn [Z.of_nat Pos.of_succ_nat Pos.succ cgau_r cgau_c];
  match goal with |- context [cgau_pair ?k] => let p := eval vm_compute in (cgau_pair k) in change (cgau_pair k) with p end; cbn [fst snd peval];
  unfold Rdiv; f_equal; ring.
Qed.
Lemma cgau_i_tg n x : (1 <= n <= 8)%nat -> cgau_i (Z.of_nat n) x = tg 1 (-2) (cgau_ipair n) x / cgau_norm n.
Proof.
  intros H. unfold cgau_norm, tg. rewrite exp_2, Rmult_1_l.
  destruct (eight n H) as [-> |[-> |[-> |[-> |[-> |[-> |[-> | ->]]]]]]]; cbn [Z.of_nat Pos.of_succ_nat Pos.succ cgau_i cgau_c];
  match goal with |- context [cgau_ipair ?k] => let p := eval vm_compute in (cgau_ipair k) in change (cgau_ipair k) with p end; cbn [fst snd peval];
  unfold Rdiv; f_equal; ring.
Qed.

Lemma cgau_derivative n : (1 <= n <= 8)%nat ->
  exists k gr gi, 0 < k /\ nth_derivative n (fun x => cos x * exp (- x ^ 2)) gr /\ nth_derivative n (fun x => - sin x * exp (- x ^ 2)) gi /\
    forall x, cgau_r (Z.of_nat n) x = gr x / k /\ cgau_i (Z.of_nat n) x = gi x / k.
Proof.
  intros H. exists (cgau_norm n), (tg 1 (-2) (cgau_pair n)), (tg 1 (-2) (cgau_ipair n)).
  split; [apply cgau_norm_pos|]. split; [|split].
  - eapply nth_derivative_ext; [| |apply (tg_nth 1 (-2) n ([1%Z], []))]; [|reflexivity]. intros x. unfold tg. cbn [fst snd peval]. rewrite exp_2, Rmult_1_l. ring.
  - eapply nth_derivative_ext; [| |apply (tg_nth 1 (-2) n ([], [(-1)%Z]))]; [|reflexivity]. intros x. unfold tg. cbn [fst snd peval]. rewrite exp_2, Rmult_1_l. ring.
  - intros x. split; [apply cgau_r_tg|apply cgau_i_tg]; exact H.
Qed.

Lemma cgau_moments n m : (1 <= n <= 8)%nat -> (m < n)%nat ->
  integral_over_line (fun x => x ^ m * cgau_r (Z.of_nat n) x) 0 /\ integral_over_line (fun x => x ^ m * cgau_i (Z.of_nat n) x) 0.
Proof.
  intros H Hm. replace 0 with (/ cgau_norm n * 0) by ring. split.
  - eapply integral_ext; [|apply (integral_scal (/ cgau_norm n)); apply (tg_moment_integral 1 (-2) ltac:(lia) n m ([1%Z], []) Hm)].
    intros x. cbv beta. rewrite (cgau_r_tg n x H). unfold cgau_pair, Rdiv. ring.
  - eapply integral_ext; [|apply (integral_scal (/ cgau_norm n)); apply (tg_moment_integral 1 (-2) ltac:(lia) n m ([], [(-1)%Z]) Hm)].
    intros x. cbv beta. rewrite (cgau_i_tg n x H). unfold cgau_ipair, Rdiv. ring.
Qed.

Lemma cgau_q_ok n : (1 <= n <= 8)%nat ->
  pzero (padd (padd (pmul (fst (cgau_pair n)) (fst (cgau_pair n))) (pmul (snd (cgau_pair n)) (snd (cgau_pair n))))
    (pscale (-1) (padd [cgau_c n] (padd (pderiv (cgau_q n)) (0%Z :: pscale (-4) (cgau_q n)))))) = true
  /\ pzero (padd (fst (cgau_ipair n)) (pscale (-1) (snd (cgau_pair n)))) = true
  /\ pzero (padd (snd (cgau_ipair n)) (pscale (-1) (pscale (-1) (fst (cgau_pair n))))) = true.
Proof. intros H. destruct (eight n H) as [-> |[-> |[-> |[-> |[-> |[-> |[-> | ->]]]]]]]; vm_compute; auto. Qed.

Lemma cgau_energy n : (1 <= n <= 8)%nat -> integral_over_line (fun x => cgau_r (Z.of_nat n) x ^ 2 + cgau_i (Z.of_nat n) x ^ 2) 1.
Proof.
  intros H. pose proof (cgau_norm_pos n) as Hn. destruct (cgau_q_ok n H) as (Q1 & Q2 & Q3).
  replace 1 with (/ (cgau_norm n ^ 2) * (IZR (cgau_c n) * sqrt (PI / (- IZR (-4) / 2)))).
  2:{ rewrite sqrt_pi_4, <- cgau_norm_sq. apply Rinv_l. nra. }
  eapply integral_ext; [|apply integral_scal; apply (poly_integral_check (-4) _ _ _ ltac:(lia) Q1)].
  intros x. cbv beta. rewrite (cgau_r_tg n x H), (cgau_i_tg n x H), peval_add, !peval_mul, <- exp_sq.
  unfold tg. rewrite exp_2, Rmult_1_l, (peq_ok _ _ Q2 x), (peq_ok _ _ Q3 x), peval_scale.
  set (a := peval (fst (cgau_pair n)) x). set (b := peval (snd (cgau_pair n)) x). set (e := exp (- x ^ 2)).
  replace (((a * cos x + b * sin x) * e / cgau_norm n) ^ 2 + ((b * cos x + -1 * a * sin x) * e / cgau_norm n) ^ 2)
    with ((a * a + b * b) * (Rsqr (sin x) + Rsqr (cos x)) * (e * e) / cgau_norm n ^ 2) by (unfold Rsqr; field; lra).
  rewrite sin2_cos2. unfold Rdiv. ring.
Qed.

Lemma cgau_hermitian n x : (1 <= n <= 8)%nat ->
  cgau_r (Z.of_nat n) (- x) = (-1) ^ n * cgau_r (Z.of_nat n) x /\ cgau_i (Z.of_nat n) (- x) = - (-1) ^ n * cgau_i (Z.of_nat n) x.
Proof.
  intros H. destruct (eight n H) as [-> |[-> |[-> |[-> |[-> |[-> |[-> | ->]]]]]]]; cbn [Z.of_nat Pos.of_succ_nat Pos.succ cgau_r cgau_i];
  rewrite cos_neg, sin_neg; replace ((- x) ^ 2) with (x ^ 2) by ring; unfold Rdiv; split; ring.
Qed.
