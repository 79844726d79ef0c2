(** Polynomials times cos, sin and a Gaussian: derivatives, limits, integrals. *)
From Coq Require Import Reals Lra Lia ZArith List.
Import ListNotations.
From Verif Require Import ContinuousSpec GaussInt.
Open Scope R_scope.

(** * Limits and integrals *)
Definition limit_both (F : R -> R) : Prop := forall eps, 0 < eps -> exists a, forall x, a < Rabs x -> Rabs (F x) < eps.

Lemma both_plus F : limit_both F -> limit_plus F 0.
Proof.
  intros H eps He. destruct (H eps He) as (a & Ha). exists (Rmax 0 a). intros x Hx. pose proof (Rmax_l 0 a). pose proof (Rmax_r 0 a).
  rewrite Rminus_0_r. apply Ha. rewrite Rabs_right; lra.
Qed.
Lemma both_minus F : limit_both F -> limit_minus F 0.
Proof.
  intros H eps He. destruct (H eps He) as (a & Ha). exists (- Rmax 0 a). intros x Hx. pose proof (Rmax_l 0 a). pose proof (Rmax_r 0 a).
  rewrite Rminus_0_r. apply Ha. rewrite Rabs_left; lra.
Qed.

Lemma both_ext F G : (forall x, F x = G x) -> limit_both F -> limit_both G.
Proof. intros E H eps He. destruct (H eps He) as (a & Ha). exists a. intros x Hx. rewrite <- E. apply Ha. exact Hx. Qed.
Lemma both_add F G : limit_both F -> limit_both G -> limit_both (fun x => F x + G x).
Proof.
  intros HF HG eps He. destruct (HF (eps / 2) ltac:(lra)) as (a & Ha). destruct (HG (eps / 2) ltac:(lra)) as (b & Hb).
  exists (Rmax a b). intros x Hx. pose proof (Rmax_l a b). pose proof (Rmax_r a b).
  eapply Rle_lt_trans; [apply Rabs_triang|]. specialize (Ha x ltac:(lra)). specialize (Hb x ltac:(lra)). lra.
Qed.
Lemma both_bounded F g K : limit_both F -> (forall x, Rabs (g x) <= K) -> limit_both (fun x => g x * F x).
Proof.
  intros HF HK eps He. assert (HK0 : 0 <= K) by (eapply Rle_trans; [apply Rabs_pos|apply (HK 0)]).
  assert (Hq : 0 < eps / (K + 1)) by (apply Rdiv_lt_0_compat; lra).
  destruct (HF _ Hq) as (a & Ha). exists a. intros x Hx. rewrite Rabs_mult.
  specialize (Ha x Hx). specialize (HK x). pose proof (Rabs_pos (F x)). pose proof (Rabs_pos (g x)).
  apply Rle_lt_trans with (K * Rabs (F x)); [nra|].
  apply Rle_lt_trans with (K * (eps / (K + 1))); [nra|].
  apply Rmult_lt_reg_r with (K + 1); [lra|]. replace (K * (eps / (K + 1)) * (K + 1)) with (K * eps) by (field; lra). nra.
Qed.
Lemma both_mult F G : limit_both F -> limit_both G -> limit_both (fun x => F x * G x).
Proof.
  intros HF HG eps He. destruct (HF 1 ltac:(lra)) as (a & Ha). destruct (HG eps He) as (b & Hb).
  exists (Rmax a b). intros x Hx. pose proof (Rmax_l a b). pose proof (Rmax_r a b). rewrite Rabs_mult.
  specialize (Ha x ltac:(lra)). specialize (Hb x ltac:(lra)). pose proof (Rabs_pos (F x)). pose proof (Rabs_pos (G x)). nra.
Qed.

Lemma both_gauss c : c < 0 -> limit_both (fun x => exp (c * x ^ 2)).
Proof.
  intros Hc eps He. destruct (exp_neg_sq_small (- c) eps ltac:(lra) He) as (a & _ & Ha). exists a. intros x Hx.
  rewrite Rabs_right by (left; apply exp_pos). specialize (Ha x Hx). rewrite Ropp_involutive in Ha. exact Ha.
Qed.
Lemma both_x_gauss c : c < 0 -> limit_both (fun x => x * exp (c * x ^ 2)).
Proof.
  intros Hc eps He. set (k := - c). assert (Hk : 0 < k) by (unfold k; lra).
  exists (1 + / (k * eps)). intros x Hx. assert (Hi : 0 < / (k * eps)) by (apply Rinv_0_lt_compat; nra).
  rewrite Rabs_mult, (Rabs_right (exp _)) by (left; apply exp_pos).
  replace (c * x ^ 2) with (- (k * Rabs x ^ 2)) by (rewrite pow2_abs; unfold k; ring). set (y := Rabs x) in *.
  rewrite exp_Ropp. assert (He1 : 1 + k * y ^ 2 < exp (k * y ^ 2)) by (apply exp_ineq1; apply Rgt_not_eq; assert (0 < y ^ 2) by nra; nra).
  pose proof (exp_pos (k * y ^ 2)) as Hep.
  apply Rmult_lt_reg_r with (exp (k * y ^ 2)); [exact Hep|]. rewrite Rmult_assoc, Rinv_l, Rmult_1_r by lra.
  apply Rlt_trans with (eps * (1 + k * y ^ 2)); [|apply Rmult_lt_compat_l; lra].
  assert (Hy : y * 1 < y * (k * eps * y)).
  { apply Rmult_lt_compat_l; [lra|]. apply Rmult_lt_reg_l with (/ (k * eps)); [exact Hi|]. replace (/ (k * eps) * (k * eps * y)) with y by (field; nra). lra. }
  nra.
Qed.
Lemma both_pow_gauss n : forall c, c < 0 -> limit_both (fun x => x ^ n * exp (c * x ^ 2)).
Proof.
  induction n as [|n IH]; intros c Hc.
  - eapply both_ext; [|apply (both_gauss c Hc)]. intros x. simpl. ring.
  - eapply both_ext; [|apply (both_mult _ _ (both_x_gauss (c / 2) ltac:(lra)) (IH (c / 2) ltac:(lra)))].
    intros x. cbv beta. replace (exp (c * x ^ 2)) with (exp (c / 2 * x ^ 2) * exp (c / 2 * x ^ 2)) by (rewrite <- exp_plus; f_equal; field).
    simpl. ring.
Qed.

Lemma integral_ext f g v : (forall x, f x = g x) -> integral_over_line f v -> integral_over_line g v.
Proof. intros E (F & l & u & H & R). exists F, l, u. split; [|exact R]. intros x. rewrite <- E. apply H. Qed.
Lemma limit_plus_scal k F l : limit_plus F l -> limit_plus (fun x => k * F x) (k * l).
Proof.
  intros H eps He. assert (Hk : 0 < eps / (Rabs k + 1)) by (apply Rdiv_lt_0_compat; [lra|pose proof (Rabs_pos k); lra]).
  destruct (H _ Hk) as (a & Ha). exists a. intros x Hx. specialize (Ha x Hx).
  replace (k * F x - k * l) with (k * (F x - l)) by ring. rewrite Rabs_mult. pose proof (Rabs_pos k). pose proof (Rabs_pos (F x - l)).
  apply Rle_lt_trans with (Rabs k * (eps / (Rabs k + 1))); [nra|].
  apply Rmult_lt_reg_r with (Rabs k + 1); [lra|]. replace (Rabs k * (eps / (Rabs k + 1)) * (Rabs k + 1)) with (Rabs k * eps) by (field; lra). nra.
Qed.
Lemma limit_minus_scal k F l : limit_minus F l -> limit_minus (fun x => k * F x) (k * l).
Proof.
  intros H eps He. assert (Hk : 0 < eps / (Rabs k + 1)) by (apply Rdiv_lt_0_compat; [lra|pose proof (Rabs_pos k); lra]).
  destruct (H _ Hk) as (a & Ha). exists a. intros x Hx. specialize (Ha x Hx).
  replace (k * F x - k * l) with (k * (F x - l)) by ring. rewrite Rabs_mult. pose proof (Rabs_pos k). pose proof (Rabs_pos (F x - l)).
  apply Rle_lt_trans with (Rabs k * (eps / (Rabs k + 1))); [nra|].
  apply Rmult_lt_reg_r with (Rabs k + 1); [lra|]. replace (Rabs k * (eps / (Rabs k + 1)) * (Rabs k + 1)) with (Rabs k * eps) by (field; lra). nra.
Qed.
Lemma integral_scal k f v : integral_over_line f v -> integral_over_line (fun x => k * f x) (k * v).
Proof.
  intros (F & l & u & H & Hm & Hp & E). exists (fun x => k * F x), (k * l), (k * u).
  split; [intros x; apply (derivable_pt_lim_scal F); apply H|]. split; [apply limit_minus_scal; exact Hm|]. split; [apply limit_plus_scal; exact Hp|].
  rewrite <- E. ring.
Qed.
Lemma integral_add f g v w : integral_over_line f v -> integral_over_line g w -> integral_over_line (fun x => f x + g x) (v + w).
Proof.
  intros (F & l & u & H & Hm & Hp & E) (F' & l' & u' & H' & Hm' & Hp' & E'). exists (fun x => F x + F' x), (l + l'), (u + u').
  split; [intros x; apply (derivable_pt_lim_plus F F'); auto|]. split; [|split].
  - intros eps He. destruct (Hm (eps / 2) ltac:(lra)) as (a & Ha). destruct (Hm' (eps / 2) ltac:(lra)) as (b & Hb). exists (Rmin a b). intros x Hx.
    pose proof (Rmin_l a b). pose proof (Rmin_r a b). replace (F x + F' x - (l + l')) with ((F x - l) + (F' x - l')) by ring.
    eapply Rle_lt_trans; [apply Rabs_triang|]. specialize (Ha x ltac:(lra)). specialize (Hb x ltac:(lra)). lra.
  - intros eps He. destruct (Hp (eps / 2) ltac:(lra)) as (a & Ha). destruct (Hp' (eps / 2) ltac:(lra)) as (b & Hb). exists (Rmax a b). intros x Hx.
    pose proof (Rmax_l a b). pose proof (Rmax_r a b). replace (F x + F' x - (u + u')) with ((F x - u) + (F' x - u')) by ring.
    eapply Rle_lt_trans; [apply Rabs_triang|]. specialize (Ha x ltac:(lra)). specialize (Hb x ltac:(lra)). lra.
  - rewrite <- E, <- E'. ring.
Qed.
Lemma integral_0 F f : (forall x, derivable_pt_lim F x (f x)) -> limit_both F -> integral_over_line f 0.
Proof. intros H HF. exists F, 0, 0. split; [exact H|]. split; [apply both_minus; exact HF|]. split; [apply both_plus; exact HF|ring]. Qed.

(** * Polynomials with integer coefficients *)
Fixpoint peval (p : list Z) (x : R) : R := match p with [] => 0 | a :: t => IZR a + x * peval t x end.
Fixpoint padd (p q : list Z) : list Z :=
  match p, q with [], _ => q | _, [] => p | a :: p', b :: q' => (a + b)%Z :: padd p' q' end.
Definition pscale (k : Z) (p : list Z) : list Z := map (Z.mul k) p.
Fixpoint pmul (p q : list Z) : list Z := match p with [] => [] | a :: t => padd (pscale a q) (0%Z :: pmul t q) end.
Fixpoint pderiv (p : list Z) : list Z := match p with [] => [] | a :: t => padd t (0%Z :: pderiv t) end.
Definition pshift (m : nat) (p : list Z) : list Z := repeat 0%Z m ++ p.

Lemma peval_add p : forall q x, peval (padd p q) x = peval p x + peval q x.
Proof.
  induction p as [|a p IH]; intros [|b q] x; cbn [padd peval]; try ring. rewrite IH, plus_IZR. ring.
Qed.
Lemma peval_scale k p x : peval (pscale k p) x = IZR k * peval p x.
Proof. induction p as [|a p IH]; cbn [pscale map peval]; [ring|]. unfold pscale in IH. rewrite IH, mult_IZR. ring. Qed.
Lemma peval_mul p : forall q x, peval (pmul p q) x = peval p x * peval q x.
Proof.
  induction p as [|a p IH]; intros q x; cbn [pmul peval]; [ring|]. rewrite peval_add, peval_scale. cbn [peval]. rewrite IH. ring.
Qed.
Lemma peval_shift m p x : peval (pshift m p) x = x ^ m * peval p x.
Proof. unfold pshift. induction m as [|m IH]; cbn [repeat app peval]; [simpl; ring|]. rewrite IH. simpl. ring. Qed.
Lemma peval_deriv p : forall x, derivable_pt_lim (peval p) x (peval (pderiv p) x).
Proof.
  induction p as [|a p IH]; intros x; cbn [peval pderiv].
  - apply (dpl_eq (fct_cte 0) _ x 0); [reflexivity|reflexivity|apply derivable_pt_lim_const].
  - apply (dpl_eq (plus_fct (fct_cte (IZR a)) (mult_fct id (peval p))) _ x (0 + (1 * peval p x + id x * peval (pderiv p) x))).
    + reflexivity.
    + rewrite peval_add. cbn [peval]. unfold id. ring.
    + apply derivable_pt_lim_plus; [apply derivable_pt_lim_const|]. apply derivable_pt_lim_mult; [apply derivable_pt_lim_id|apply IH].
Qed.
Lemma both_poly_gauss p c : c < 0 -> limit_both (fun x => peval p x * exp (c * x ^ 2)).
Proof.
  intros Hc. assert (G : forall n, limit_both (fun x => x ^ n * (peval p x * exp (c * x ^ 2)))).
  { induction p as [|a p IH]; intros n; cbn [peval].
    - intros eps He. exists 0. intros x _. replace (x ^ n * (0 * exp (c * x ^ 2))) with 0 by ring. rewrite Rabs_R0. exact He.
    - eapply both_ext; [|apply both_add; [apply (both_bounded _ (fun _ => IZR a) (Rabs (IZR a)) (both_pow_gauss n c Hc)); intros; lra|apply (IH (S n))]].
      intros x. simpl. ring. }
  eapply both_ext; [|apply (G 0%nat)]. intros x. simpl. ring.
Qed.

(** * (A cos(w x) + B sin(w x)) exp(c/2 x^2) *)
Section TG.
Variables w c : Z.
Hypothesis Hc : (c < 0)%Z.
Definition pair_t : Type := (list Z * list Z)%type.
Definition tg (s : pair_t) (x : R) : R :=
  (peval (fst s) x * cos (IZR w * x) + peval (snd s) x * sin (IZR w * x)) * exp (IZR c / 2 * x ^ 2).
Definition dpair (s : pair_t) : pair_t :=
  (padd (padd (pderiv (fst s)) (pscale w (snd s))) (0%Z :: pscale c (fst s)),
   padd (padd (pderiv (snd s)) (pscale (- w) (fst s))) (0%Z :: pscale c (snd s))).
Fixpoint dpairs (n : nat) (s : pair_t) : pair_t := match n with O => s | S n' => dpairs n' (dpair s) end.

Lemma dpl_cos_w x : derivable_pt_lim (fun y => cos (IZR w * y)) x (- IZR w * sin (IZR w * x)).
Proof.
  apply (dpl_eq (comp cos (fun y => IZR w * y)) _ x (- sin (IZR w * x) * IZR w)); [reflexivity|ring|].
  apply derivable_pt_lim_comp; [|apply derivable_pt_lim_cos].
  eapply dpl_eq; [reflexivity| |apply (derivable_pt_lim_scal id (IZR w) x 1); apply derivable_pt_lim_id]. ring.
Qed.
Lemma dpl_sin_w x : derivable_pt_lim (fun y => sin (IZR w * y)) x (IZR w * cos (IZR w * x)).
Proof.
  apply (dpl_eq (comp sin (fun y => IZR w * y)) _ x (cos (IZR w * x) * IZR w)); [reflexivity|ring|].
  apply derivable_pt_lim_comp; [|apply derivable_pt_lim_sin].
  eapply dpl_eq; [reflexivity| |apply (derivable_pt_lim_scal id (IZR w) x 1); apply derivable_pt_lim_id]. ring.
Qed.

Lemma tg_deriv s x : derivable_pt_lim (tg s) x (tg (dpair s) x).
Proof.
  destruct s as [A B]. unfold tg, dpair. cbn [fst snd].
  apply (dpl_eq (mult_fct (plus_fct (mult_fct (peval A) (fun y => cos (IZR w * y))) (mult_fct (peval B) (fun y => sin (IZR w * y)))) (fun y => exp (IZR c / 2 * y ^ 2))) _ x
    (((peval (pderiv A) x * cos (IZR w * x) + peval A x * (- IZR w * sin (IZR w * x))) + (peval (pderiv B) x * sin (IZR w * x) + peval B x * (IZR w * cos (IZR w * x)))) * exp (IZR c / 2 * x ^ 2)
     + (peval A x * cos (IZR w * x) + peval B x * sin (IZR w * x)) * (2 * (IZR c / 2) * x * exp (IZR c / 2 * x ^ 2)))).
  - reflexivity.
  - rewrite !peval_add. cbn [peval]. rewrite !peval_scale, opp_IZR. field.
  - apply (derivable_pt_lim_mult (plus_fct (mult_fct (peval A) (fun y => cos (IZR w * y))) (mult_fct (peval B) (fun y => sin (IZR w * y)))) (fun y => exp (IZR c / 2 * y ^ 2))); [|apply dpl_gauss].
    apply derivable_pt_lim_plus.
    + apply (derivable_pt_lim_mult (peval A) (fun y => cos (IZR w * y))); [apply peval_deriv|apply dpl_cos_w].
    + apply (derivable_pt_lim_mult (peval B) (fun y => sin (IZR w * y))); [apply peval_deriv|apply dpl_sin_w].
Qed.

Lemma cos_abs y : Rabs (cos y) <= 1.
Proof. apply Rabs_le. pose proof (COS_bound y). lra. Qed.
Lemma sin_abs y : Rabs (sin y) <= 1.
Proof. apply Rabs_le. pose proof (SIN_bound y). lra. Qed.
Lemma tg_both s : limit_both (tg s).
Proof.
  assert (Hc' : IZR c / 2 < 0) by (apply IZR_lt in Hc; lra).
  eapply both_ext; [|apply both_add; [apply (both_bounded _ (fun y => cos (IZR w * y)) 1 (both_poly_gauss (fst s) _ Hc')); intros; apply cos_abs
                                    |apply (both_bounded _ (fun y => sin (IZR w * y)) 1 (both_poly_gauss (snd s) _ Hc')); intros; apply sin_abs]].
  intros x. unfold tg. ring.
Qed.

Lemma tg_nth n : forall s, nth_derivative n (tg s) (tg (dpairs n s)).
Proof.
  induction n as [|n IH]; intros s; cbn [nth_derivative dpairs]; [reflexivity|]. exists (tg (dpair s)). split; [apply tg_deriv|apply IH].
Qed.
Lemma dpairs_last n : forall s, dpairs (S n) s = dpair (dpairs n s).
Proof. induction n as [|n IH]; intros s; [reflexivity|]. change (dpairs (S (S n)) s) with (dpairs (S n) (dpair s)). rewrite IH. reflexivity. Qed.

Lemma tg_shift m s x : tg (pshift m (fst s), pshift m (snd s)) x = x ^ m * tg s x.
Proof. unfold tg. cbn [fst snd]. rewrite !peval_shift. ring. Qed.

Lemma tg_moment n : forall m s, (m < n)%nat -> exists s', forall x, derivable_pt_lim (tg s') x (x ^ m * tg (dpairs n s) x).
Proof.
  induction n as [|n IH]; intros m s Hm; [lia|]. rewrite dpairs_last. set (t := dpairs n s) in *.
  destruct m as [|m].
  - exists t. intros x. eapply dpl_eq; [reflexivity| |apply tg_deriv]. simpl. ring.
  - destruct (IH m s ltac:(lia)) as (s2 & H2).
    set (t1 := (pshift (S m) (fst t), pshift (S m) (snd t))).
    exists (padd (fst t1) (pscale (- Z.of_nat (S m)) (fst s2)), padd (snd t1) (pscale (- Z.of_nat (S m)) (snd s2))).
    intros x. apply (dpl_eq (plus_fct (mult_fct (fun y => y ^ S m) (tg t)) (mult_real_fct (- INR (S m)) (tg s2))) _ x
      ((INR (S m) * x ^ pred (S m) * tg t x + x ^ S m * tg (dpair t) x) + - INR (S m) * (x ^ m * tg t x))).
    + intros y. unfold plus_fct, mult_fct, mult_real_fct. rewrite <- tg_shift. fold t1. unfold tg. cbn [fst snd].
      rewrite !peval_add, !peval_scale, opp_IZR, <- INR_IZR_INZ. ring.
    + cbn [pred]. ring.
    + apply derivable_pt_lim_plus.
      * apply (derivable_pt_lim_mult (fun y => y ^ S m) (tg t)); [apply dpl_pow|apply tg_deriv].
      * apply derivable_pt_lim_scal. apply H2.
Qed.

Lemma tg_moment_integral n m s : (m < n)%nat -> integral_over_line (fun x => x ^ m * tg (dpairs n s) x) 0.
Proof. intros H. destruct (tg_moment n m s H) as (s' & Hs). apply (integral_0 (tg s')); [exact Hs|apply tg_both]. Qed.
End TG.

Lemma tg_0 c A B x : tg 0 c (A, B) x = peval A x * exp (IZR c / 2 * x ^ 2).
Proof. unfold tg. cbn [fst snd]. rewrite Rmult_0_l, cos_0, sin_0. ring. Qed.

(** P exp(c/2 x^2) with P = k + D-type of Q integrates like k exp(c/2 x^2). *)
Lemma poly_integral c (P Q : list Z) (k : Z) : (c < 0)%Z ->
  (forall x, peval P x = IZR k + peval (padd (pderiv Q) (0%Z :: pscale c Q)) x) ->
  integral_over_line (fun x => peval P x * exp (IZR c / 2 * x ^ 2)) (IZR k * sqrt (PI / (- IZR c / 2))).
Proof.
  intros Hc E. assert (Hc' : IZR c < 0) by (apply IZR_lt in Hc; exact Hc).
  replace (IZR k * sqrt (PI / (- IZR c / 2))) with (IZR k * sqrt (PI / (- IZR c / 2)) + 0) by ring.
  eapply integral_ext; [|apply integral_add; [apply (integral_scal (IZR k)); apply (gauss_integral (- IZR c / 2)); lra|
    apply (integral_0 (tg 0 c (Q, [])) (tg 0 c (dpair 0 c (Q, []))))]].
  - intros x. cbv beta. rewrite E. unfold dpair. cbn [fst snd pderiv pscale map padd]. rewrite tg_0.
    replace (- (- IZR c / 2) * x ^ 2) with (IZR c / 2 * x ^ 2) by field. rewrite !peval_add. cbn [peval].
    unfold pscale. ring.
  - intros x. apply tg_deriv.
  - apply tg_both. exact Hc.
Qed.
