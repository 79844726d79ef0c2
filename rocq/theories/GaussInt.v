(** The Gaussian integral, from the standard library's reals: with
    E(x) = int_0^x exp(-t^2) dt and G(x) = int_0^1 exp(-x^2 (1+t^2)) / (1+t^2) dt
    the sum E^2 + G is constant. *)
From Coq Require Import Reals Lra.
From Verif Require Import ContinuousSpec.
Open Scope R_scope.

Lemma dpl_eq (f g : R -> R) x l l' : (forall y, f y = g y) -> l = l' -> derivable_pt_lim f x l -> derivable_pt_lim g x l'.
Proof. intros E <- H. apply (derivable_pt_lim_locally_ext f g x (x - 1) (x + 1) l); auto. lra. Qed.

Lemma dpl_cont (f : R -> R) x l : derivable_pt_lim f x l -> continuity_pt f x.
Proof. intros H. apply derivable_continuous_pt. exists l. exact H. Qed.

Lemma dpl_pow n x : derivable_pt_lim (fun y => y ^ n) x (INR n * x ^ pred n).
Proof. apply derivable_pt_lim_pow. Qed.

(** exp (k * x^2) *)
Lemma dpl_gauss k x : derivable_pt_lim (fun y => exp (k * y ^ 2)) x (2 * k * x * exp (k * x ^ 2)).
Proof.
  apply (dpl_eq (comp exp (fun y => k * y ^ 2)) _ x (exp (k * x ^ 2) * (k * (INR 2 * x ^ pred 2)))).
  - intros y. reflexivity.
  - simpl. ring.
  - apply derivable_pt_lim_comp; [|apply derivable_pt_lim_exp].
    apply (derivable_pt_lim_scal (fun y => y ^ 2) k x (INR 2 * x ^ pred 2)). apply dpl_pow.
Qed.

Lemma mvt_any (f f' : R -> R) a b : (forall x, derivable_pt_lim f x (f' x)) ->
  exists c, Rabs (c - a) <= Rabs (b - a) /\ Rmin a b <= c <= Rmax a b /\ f b - f a = f' c * (b - a).
Proof.
  intros H. destruct (Rtotal_order a b) as [Hl|[He|Hl]].
  - destruct (MVT_cor2 f f' a b Hl (fun c _ => H c)) as (c & E & Hc). exists c.
    rewrite Rmin_left, Rmax_right by lra. split; [rewrite !Rabs_right; lra|]. split; [lra|exact E].
  - subst b. exists a. replace (a - a) with 0 by ring. rewrite Rmin_left, Rmax_left by lra. split; [lra|]. split; [lra|ring].
  - destruct (MVT_cor2 f f' b a Hl (fun c _ => H c)) as (c & E & Hc). exists c.
    rewrite Rmin_right, Rmax_left by lra. split; [rewrite !Rabs_left; lra|]. split; [lra|]. lra.
Qed.

(** * Antiderivatives *)
Section Prim.
Variable f : R -> R.
Hypothesis Hc : continuity f.
Definition integrable0 (x : R) : Riemann_integrable f 0 x :=
  match Rle_dec 0 x with
  | left h => continuity_implies_RiemannInt h (fun y _ => Hc y)
  | right h => RiemannInt_P1 (continuity_implies_RiemannInt (Rlt_le _ _ (Rnot_le_lt _ _ h)) (fun y _ => Hc y))
  end.
Definition prim (x : R) : R := RiemannInt (integrable0 x).
Lemma prim_0 : prim 0 = 0.
Proof. unfold prim. apply RiemannInt_P9. Qed.
Lemma prim_deriv x : derivable_pt_lim prim x (f x).
Proof.
  set (a := - Rabs x - 1). set (b := Rabs x + 1).
  assert (Hx : a < x < b).
  { unfold a, b. split.
    - pose proof (Rle_abs (- x)) as H. rewrite Rabs_Ropp in H. lra.
    - pose proof (Rle_abs x). lra. }
  assert (Hab : a <= b) by lra.
  set (C0 := fun (y : R) (_ : a <= y <= b) => Hc y).
  pose proof (@RiemannInt_P28 f a b x Hab C0 ltac:(lra)) as HD.
  set (P := primitive Hab (FTC_P1 Hab C0)) in *.
  assert (H0 : a <= 0 <= b) by (pose proof (Rabs_pos x); unfold a, b; lra).
  assert (E : forall y, a < y < b -> P y - P 0 = prim y).
  { intros y Hy. unfold P, primitive. destruct (Rle_dec a y) as [r|]; [|lra]. destruct (Rle_dec y b) as [r0|]; [|lra].
    destruct (Rle_dec a 0) as [q|]; [|lra]. destruct (Rle_dec 0 b) as [q0|]; [|lra].
    unfold prim. pose proof (RiemannInt_P26 (FTC_P1 Hab C0 q q0) (integrable0 y) (FTC_P1 Hab C0 r r0)). lra. }
  apply (derivable_pt_lim_locally_ext (fun y => P y - P 0) prim x a b); [exact Hx|exact E|].
  apply (dpl_eq (minus_fct P (fct_cte (P 0))) _ x (f x - 0)); [reflexivity|ring|].
  apply derivable_pt_lim_minus; [exact HD|apply derivable_pt_lim_const].
Qed.
End Prim.

(** * The two functions *)
Lemma cont_gauss k : continuity (fun y => exp (k * y ^ 2)).
Proof. intros x. eapply dpl_cont. apply dpl_gauss. Qed.

Definition gE : R -> R := prim (fun y => exp (- 1 * y ^ 2)) (cont_gauss (- 1)).
Lemma gE_deriv x : derivable_pt_lim gE x (exp (- x ^ 2)).
Proof. eapply dpl_eq; [reflexivity| |apply prim_deriv]. cbv beta. f_equal. ring. Qed.
Lemma gE_0 : gE 0 = 0. Proof. apply prim_0. Qed.

Definition kern (x t : R) : R := exp (- x ^ 2 * (1 + t ^ 2)) / (1 + t ^ 2).
Lemma one_sq t : 0 < 1 + t ^ 2.
Proof. pose proof (pow2_ge_0 t). lra. Qed.
Lemma cont_kern x : continuity (kern x).
Proof.
  intros t. apply (continuity_pt_locally_ext (fun t => exp (- x ^ 2) * exp (- x ^ 2 * t ^ 2) * / (1 + t ^ 2)) _ 1); [lra| |].
  - intros y _. unfold kern, Rdiv. rewrite <- exp_plus. f_equal. f_equal. ring.
  - apply (continuity_pt_mult (fun t => exp (- x ^ 2) * exp (- x ^ 2 * t ^ 2)) (fun t => / (1 + t ^ 2))).
    + apply (continuity_pt_scal (fun t => exp (- x ^ 2 * t ^ 2))). apply cont_gauss.
    + apply (continuity_pt_inv (fun t => 1 + t ^ 2)).
      * eapply dpl_cont. apply (derivable_pt_lim_plus (fct_cte 1) (fun t => t ^ 2)); [apply derivable_pt_lim_const|apply dpl_pow].
      * apply Rgt_not_eq. apply one_sq.
Qed.
Definition gG (x : R) : R := prim (kern x) (cont_kern x) 1.

Lemma exp_le_1 y : y <= 0 -> 0 < exp y <= 1.
Proof.
  intros H. split; [apply exp_pos|]. destruct (Req_dec y 0) as [->|]; [rewrite exp_0; lra|].
  left. rewrite <- exp_0. apply exp_increasing. lra.
Qed.

(** Second order remainder of exp(-u x^2). *)
Lemma taylor2 u x h : 1 <= u <= 2 -> Rabs h <= 1 ->
  Rabs (exp (- u * (x + h) ^ 2) - exp (- u * x ^ 2) + 2 * h * x * u * exp (- u * x ^ 2)) <= (16 * (Rabs x + 1) ^ 2 + 4) * h ^ 2.
Proof.
  intros Hu Hh. set (K := 16 * (Rabs x + 1) ^ 2 + 4).
  set (f := fun y => exp (- u * y ^ 2)). set (f1 := fun y => 2 * (- u) * y * f y). set (f2 := fun y => (4 * u ^ 2 * y ^ 2 - 2 * u) * f y).
  assert (D1 : forall y, derivable_pt_lim f y (f1 y)) by (intros y; apply dpl_gauss).
  assert (D2 : forall y, derivable_pt_lim f1 y (f2 y)).
  { intros y. apply (dpl_eq (mult_fct (mult_real_fct (2 * - u) id) f) _ y ((2 * - u * 1) * f y + mult_real_fct (2 * - u) id y * f1 y)).
    - intros z. unfold mult_fct, mult_real_fct, f1, id. ring.
    - unfold mult_real_fct, id, f2, f1. ring.
    - apply derivable_pt_lim_mult; [|apply D1]. apply derivable_pt_lim_scal. apply derivable_pt_lim_id. }
  destruct (mvt_any f f1 x (x + h) D1) as (c & Hc & _ & E1). replace (x + h - x) with h in * by ring.
  destruct (mvt_any f1 f2 x c D2) as (d & Hd & _ & E2).
  replace (exp (- u * (x + h) ^ 2) - exp (- u * x ^ 2) + 2 * h * x * u * exp (- u * x ^ 2)) with (f2 d * (c - x) * h).
  2:{ fold (f (x + h)). fold (f x). rewrite <- E2. transitivity (f1 c * h - f1 x * h); [ring|]. rewrite <- E1. unfold f1. ring. }
  rewrite !Rabs_mult.
  assert (Hdx : Rabs d <= Rabs x + 1).
  { replace d with (x + (d - x)) by ring. eapply Rle_trans; [apply Rabs_triang|]. lra. }
  assert (Hf2 : Rabs (f2 d) <= K).
  { unfold f2. rewrite Rabs_mult. destruct (exp_le_1 (- u * d ^ 2)) as [He He']; [pose proof (pow2_ge_0 d); nra|].
    rewrite (Rabs_right (f d)) by (unfold f; lra).
    assert (HA : Rabs (4 * u ^ 2 * d ^ 2 - 2 * u) <= K).
    { assert (Hd2 : d ^ 2 <= (Rabs x + 1) ^ 2) by (rewrite <- (pow2_abs d); apply pow_incr; split; [apply Rabs_pos|exact Hdx]).
      pose proof (pow2_ge_0 d). assert (u ^ 2 <= 4) by nra. assert (0 <= u ^ 2) by nra.
      apply Rabs_le. unfold K. assert (0 <= u ^ 2 * d ^ 2 <= 4 * (Rabs x + 1) ^ 2) by (split; nra). lra. }
    unfold f. pose proof (Rabs_pos (4 * u ^ 2 * d ^ 2 - 2 * u)). nra. }
  replace (h ^ 2) with (Rabs h * Rabs h) by (rewrite <- (pow2_abs h); ring).
  pose proof (Rabs_pos (f2 d)). pose proof (Rabs_pos (c - x)). pose proof (Rabs_pos h).
  rewrite Rmult_assoc. apply Rmult_le_compat; try lra; [nra|]. nra.
Qed.

Lemma gG_remainder x h : Rabs h <= 1 ->
  Rabs (gG (x + h) - gG x + 2 * h * exp (- x ^ 2) * gE x) <= (16 * (Rabs x + 1) ^ 2 + 4) * h ^ 2.
Proof.
  intros Hh. set (K := 16 * (Rabs x + 1) ^ 2 + 4).
  set (Phi := fun t => prim (kern (x + h)) (cont_kern (x + h)) t - prim (kern x) (cont_kern x) t + 2 * h * exp (- x ^ 2) * gE (x * t)).
  set (Phi' := fun t => kern (x + h) t - kern x t + 2 * h * exp (- x ^ 2) * (exp (- (x * t) ^ 2) * x)).
  assert (D : forall t, derivable_pt_lim Phi t (Phi' t)).
  { intros t. unfold Phi, Phi'.
    apply (derivable_pt_lim_plus (fun t => prim (kern (x + h)) (cont_kern (x + h)) t - prim (kern x) (cont_kern x) t) (fun t => 2 * h * exp (- x ^ 2) * gE (x * t))).
    - apply (derivable_pt_lim_minus (prim (kern (x + h)) (cont_kern (x + h))) (prim (kern x) (cont_kern x))); apply prim_deriv.
    - apply (derivable_pt_lim_scal (fun t => gE (x * t))).
      apply (derivable_pt_lim_comp (fun t => x * t) gE t x).
      + eapply dpl_eq; [reflexivity| |apply (derivable_pt_lim_scal id x t 1); apply derivable_pt_lim_id]. ring.
      + apply gE_deriv. }
  destruct (MVT_cor2 Phi Phi' 0 1 ltac:(lra) (fun c _ => D c)) as (t & E & Ht).
  replace (gG (x + h) - gG x + 2 * h * exp (- x ^ 2) * gE x) with (Phi 1 - Phi 0).
  2:{ unfold Phi, gG. rewrite Rmult_0_r, Rmult_1_r, !prim_0, gE_0. ring. }
  rewrite E. replace (Phi' t * (1 - 0)) with (Phi' t) by ring.
  set (u := 1 + t ^ 2).
  assert (Hu : 1 <= u <= 2) by (unfold u; nra).
  replace (Phi' t) with ((exp (- u * (x + h) ^ 2) - exp (- u * x ^ 2) + 2 * h * x * u * exp (- u * x ^ 2)) / u).
  2:{ unfold Phi', kern. fold u.
      replace (2 * h * exp (- x ^ 2) * (exp (- (x * t) ^ 2) * x)) with (2 * h * x * (exp (- x ^ 2) * exp (- (x * t) ^ 2))) by ring.
      rewrite <- exp_plus. replace (- x ^ 2 + - (x * t) ^ 2) with (- u * x ^ 2) by (unfold u; ring).
      replace (- (x + h) ^ 2 * u) with (- u * (x + h) ^ 2) by ring. replace (- x ^ 2 * u) with (- u * x ^ 2) by ring. field. lra. }
  unfold Rdiv. rewrite Rabs_mult. rewrite (Rabs_right (/ u)) by (left; apply Rinv_0_lt_compat; lra).
  pose proof (taylor2 u x h Hu Hh) as HT. fold K in HT.
  assert (/ u <= 1) by (rewrite <- Rinv_1; apply Rinv_le_contravar; lra).
  assert (0 < / u) by (apply Rinv_0_lt_compat; lra).
  match goal with |- ?a * _ <= _ => pose proof (Rabs_pos (exp (- u * (x + h) ^ 2) - exp (- u * x ^ 2) + 2 * h * x * u * exp (- u * x ^ 2))); assert (0 <= a) by assumption end.
  nra.
Qed.

Lemma gG_deriv x : derivable_pt_lim gG x (- 2 * exp (- x ^ 2) * gE x).
Proof.
  intros eps He. set (K := 16 * (Rabs x + 1) ^ 2 + 4).
  assert (HK : 0 < K) by (pose proof (pow2_ge_0 (Rabs x + 1)); unfold K; lra).
  assert (Hd : 0 < Rmin 1 (eps / K)) by (apply Rmin_pos; [lra|apply Rdiv_lt_0_compat; assumption]).
  exists (mkposreal _ Hd). intros h Hn Hh. cbn [pos] in Hh.
  assert (H1 : Rabs h <= 1) by (pose proof (Rmin_l 1 (eps / K)); lra).
  assert (H2 : Rabs h < eps / K) by (pose proof (Rmin_r 1 (eps / K)); lra).
  pose proof (gG_remainder x h H1) as HR. fold K in HR.
  replace ((gG (x + h) - gG x) / h - - 2 * exp (- x ^ 2) * gE x) with ((gG (x + h) - gG x + 2 * h * exp (- x ^ 2) * gE x) / h) by (field; exact Hn).
  unfold Rdiv. rewrite Rabs_mult, Rabs_inv.
  pose proof (Rabs_pos_lt h Hn) as Hp.
  apply Rle_lt_trans with (K * h ^ 2 * / Rabs h).
  - apply Rmult_le_compat_r; [left; apply Rinv_0_lt_compat; exact Hp|exact HR].
  - rewrite <- (pow2_abs h). replace (K * Rabs h ^ 2 * / Rabs h) with (K * Rabs h) by (field; lra).
    apply Rmult_lt_reg_r with (/ K); [apply Rinv_0_lt_compat; exact HK|]. unfold Rdiv in H2.
    replace (K * Rabs h * / K) with (Rabs h) by (field; lra). exact H2.
Qed.

Lemma gG_0 : gG 0 = PI / 4.
Proof.
  unfold gG. set (P := prim (kern 0) (cont_kern 0)).
  assert (D : forall t, derivable_pt_lim (fun t => P t - atan t) t 0).
  { intros t. apply (dpl_eq (minus_fct P atan) _ t (kern 0 t - / (1 + t ^ 2))); [reflexivity| |].
    - unfold kern. replace (- 0 ^ 2 * (1 + t ^ 2)) with 0 by ring. rewrite exp_0. pose proof (one_sq t). field. lra.
    - apply derivable_pt_lim_minus; [apply prim_deriv|apply derivable_pt_lim_atan]. }
  destruct (mvt_any _ (fun _ => 0) 0 1 D) as (c & _ & _ & E).
  unfold P in E at 2. rewrite prim_0, atan_0, atan_1 in E. lra.
Qed.

Lemma gE_gG x : gE x ^ 2 + gG x = PI / 4.
Proof.
  assert (D : forall t, derivable_pt_lim (fun t => gE t ^ 2 + gG t) t 0).
  { intros t. apply (dpl_eq (plus_fct (mult_fct gE gE) gG) _ t (exp (- t ^ 2) * gE t + gE t * exp (- t ^ 2) + - 2 * exp (- t ^ 2) * gE t)).
    - intros y. unfold plus_fct, mult_fct. ring.
    - ring.
    - apply derivable_pt_lim_plus; [apply derivable_pt_lim_mult; apply gE_deriv|apply gG_deriv]. }
  destruct (mvt_any _ (fun _ => 0) 0 x D) as (c & _ & _ & E). rewrite gE_0, gG_0 in E. lra.
Qed.

Lemma gG_bounds x : 0 <= gG x <= exp (- x ^ 2).
Proof.
  unfold gG. destruct (MVT_cor2 (prim (kern x) (cont_kern x)) (kern x) 0 1 ltac:(lra) (fun c _ => prim_deriv _ _ c)) as (t & E & Ht).
  rewrite prim_0 in E. replace (prim (kern x) (cont_kern x) 1) with (kern x t) by lra. clear E. unfold kern.
  pose proof (one_sq t) as Hu. pose proof (exp_pos (- x ^ 2 * (1 + t ^ 2))) as He.
  split; [left; apply Rdiv_lt_0_compat; lra|].
  assert (H1 : exp (- x ^ 2 * (1 + t ^ 2)) <= exp (- x ^ 2)).
  { replace (- x ^ 2 * (1 + t ^ 2)) with (- x ^ 2 + - x ^ 2 * t ^ 2) by ring. rewrite exp_plus.
    destruct (exp_le_1 (- x ^ 2 * t ^ 2)); [pose proof (pow2_ge_0 x); pose proof (pow2_ge_0 t); nra|].
    pose proof (exp_pos (- x ^ 2)). nra. }
  apply Rmult_le_reg_r with (1 + t ^ 2); [exact Hu|]. unfold Rdiv. rewrite Rmult_assoc, Rinv_l by lra.
  pose proof (exp_pos (- x ^ 2)). pose proof (pow2_ge_0 t). nra.
Qed.

Lemma gE_pos x : 0 <= x -> 0 <= gE x.
Proof.
  intros H. destruct (mvt_any gE (fun t => exp (- t ^ 2)) 0 x gE_deriv) as (c & _ & _ & E). rewrite gE_0 in E.
  pose proof (exp_pos (- c ^ 2)). nra.
Qed.
Lemma gE_neg x : x <= 0 -> gE x <= 0.
Proof.
  intros H. destruct (mvt_any gE (fun t => exp (- t ^ 2)) 0 x gE_deriv) as (c & _ & _ & E). rewrite gE_0 in E.
  pose proof (exp_pos (- c ^ 2)). nra.
Qed.

(** |E(x)| is within 2 exp(-x^2) of sqrt(pi)/2. *)
Lemma gE_close x : Rabs (Rabs (gE x) - sqrt PI / 2) <= 2 * exp (- x ^ 2).
Proof.
  pose proof (gE_gG x) as H. pose proof (gG_bounds x) as HG. pose proof PI_RGT_0 as HP. pose proof PI2_1 as HP1.
  set (s := sqrt PI / 2). assert (Hs : s ^ 2 = PI / 4) by (unfold s; replace ((sqrt PI / 2) ^ 2) with (sqrt PI * sqrt PI / 4) by field; rewrite sqrt_sqrt by lra; reflexivity).
  assert (Hs0 : 1 / 2 < s).
  { unfold s. assert (1 < sqrt PI) by (rewrite <- sqrt_1; apply sqrt_lt_1; lra). lra. }
  assert (E : (s - Rabs (gE x)) * (s + Rabs (gE x)) = gG x).
  { replace ((s - Rabs (gE x)) * (s + Rabs (gE x))) with (s ^ 2 - Rabs (gE x) ^ 2) by ring. rewrite pow2_abs, Hs. lra. }
  pose proof (Rabs_pos (gE x)) as Hp. rewrite Rabs_minus_sym.
  assert (0 <= s - Rabs (gE x)) by nra. rewrite Rabs_right by lra. nra.
Qed.

Lemma exp_neg_sq_small c eps : 0 < c -> 0 < eps -> exists a, 0 < a /\ forall x, a < Rabs x -> exp (- c * x ^ 2) < eps.
Proof.
  intros Hc He. exists (1 + / (c * eps)). assert (Hi : 0 < / (c * eps)) by (apply Rinv_0_lt_compat; nra). split; [lra|].
  intros x Hx. assert (Hx2 : / (c * eps) < x ^ 2) by (rewrite <- (pow2_abs x); nra).
  replace (- c * x ^ 2) with (- (c * x ^ 2)) by ring. rewrite exp_Ropp.
  assert (H1 : / eps < exp (c * x ^ 2)).
  { apply Rlt_le_trans with (1 + c * x ^ 2); [|left; apply exp_ineq1; assert (0 < x ^ 2) by lra; nra].
    assert (H2 : c * / (c * eps) < c * x ^ 2) by (apply Rmult_lt_compat_l; assumption).
    replace (c * / (c * eps)) with (/ eps) in H2 by (field; lra). lra. }
  rewrite <- (Rinv_inv eps). apply Rinv_lt_contravar; [|exact H1].
  apply Rmult_lt_0_compat; [apply Rinv_0_lt_compat; exact He|apply exp_pos].
Qed.

Lemma gE_plus : limit_plus gE (sqrt PI / 2).
Proof.
  intros eps He. destruct (exp_neg_sq_small 1 (eps / 2) ltac:(lra) ltac:(lra)) as (a & Ha & H). exists a. intros x Hx.
  pose proof (gE_close x) as Hcl. rewrite (Rabs_right (gE x)) in Hcl by (apply Rle_ge, gE_pos; lra).
  specialize (H x ltac:(rewrite Rabs_right; lra)). replace (- (1) * x ^ 2) with (- x ^ 2) in H by ring. lra.
Qed.
Lemma gE_minus : limit_minus gE (- (sqrt PI / 2)).
Proof.
  intros eps He. destruct (exp_neg_sq_small 1 (eps / 2) ltac:(lra) ltac:(lra)) as (a & Ha & H). exists (- a). intros x Hx.
  pose proof (gE_close x) as Hcl. rewrite (Rabs_left1 (gE x)) in Hcl by (apply gE_neg; lra).
  specialize (H x ltac:(rewrite Rabs_left; lra)). replace (- (1) * x ^ 2) with (- x ^ 2) in H by ring.
  replace (gE x - - (sqrt PI / 2)) with (- (- gE x - sqrt PI / 2)) by ring. rewrite Rabs_Ropp. lra.
Qed.

(** int exp(-c x^2) dx = sqrt (pi / c). *)
Theorem gauss_integral c : 0 < c -> integral_over_line (fun x => exp (- c * x ^ 2)) (sqrt (PI / c)).
Proof.
  intros Hc. set (r := sqrt c). assert (Hr : 0 < r) by (apply sqrt_lt_R0; exact Hc). assert (Hr2 : r ^ 2 = c) by (unfold r; simpl; rewrite Rmult_1_r; apply sqrt_sqrt; lra).
  exists (fun x => gE (r * x) / r), (- (sqrt PI / 2) / r), ((sqrt PI / 2) / r). split; [|split; [|split]].
  - intros x. apply (dpl_eq (mult_real_fct (/ r) (comp gE (fun y => r * y))) _ x (/ r * (exp (- (r * x) ^ 2) * r))).
    + intros y. unfold mult_real_fct, comp. field. lra.
    + replace (- (r * x) ^ 2) with (- c * x ^ 2) by (rewrite <- Hr2; ring). field. lra.
    + apply derivable_pt_lim_scal. apply derivable_pt_lim_comp; [|apply gE_deriv].
      eapply dpl_eq; [reflexivity| |apply (derivable_pt_lim_scal id r x 1); apply derivable_pt_lim_id]. ring.
  - intros eps He. destruct (gE_minus (eps * r) ltac:(nra)) as (a & Ha). exists (a / r). intros x Hx.
    replace (gE (r * x) / r - - (sqrt PI / 2) / r) with ((gE (r * x) - - (sqrt PI / 2)) / r) by (field; lra).
    unfold Rdiv. rewrite Rabs_mult, (Rabs_right (/ r)) by (left; apply Rinv_0_lt_compat; lra).
    specialize (Ha (r * x)). assert (r * x < a) by (apply Rmult_lt_reg_r with (/ r); [apply Rinv_0_lt_compat; lra|]; replace (r * x * / r) with x by (field; lra); exact Hx).
    specialize (Ha H). apply Rmult_lt_reg_r with r; [lra|]. rewrite Rmult_assoc, Rinv_l by lra. lra.
  - intros eps He. destruct (gE_plus (eps * r) ltac:(nra)) as (a & Ha). exists (a / r). intros x Hx.
    replace (gE (r * x) / r - (sqrt PI / 2) / r) with ((gE (r * x) - (sqrt PI / 2)) / r) by (field; lra).
    unfold Rdiv. rewrite Rabs_mult, (Rabs_right (/ r)) by (left; apply Rinv_0_lt_compat; lra).
    specialize (Ha (r * x)). assert (a < r * x) by (apply Rmult_lt_reg_r with (/ r); [apply Rinv_0_lt_compat; lra|]; replace (r * x * / r) with x by (field; lra); exact Hx).
    specialize (Ha H). apply Rmult_lt_reg_r with r; [lra|]. rewrite Rmult_assoc, Rinv_l by lra. lra.
  - rewrite sqrt_div_alt by exact Hc. fold r. field. lra.
Qed.
