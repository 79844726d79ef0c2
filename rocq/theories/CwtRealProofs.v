(** Roots of unity, the peak of a spectrum, and cwt of a named wavelet. *)
From Coq Require Import QArith Reals Qreals Lra Lia ZArith List String Qfield.
Import ListNotations.
From Verif Require Import Base Instances BaseLemmas CConv Dwt Nd NdSpec Swt Multidim SwtNd Filters Names Cwt CwtSpec CwtProofs CwtMain Wavefun WavefunProofs.
From Verif Require Import ContinuousSpec Continuous ContinuousDoc ContinuousProofs ContinuousMain CwtReal CwtRealSpec.
Open Scope R_scope.

Lemma cr_eq (a b c d : R) : a = c -> b = d -> ((a, b) : CR) = (c, d).
Proof. intros -> ->. reflexivity. Qed.
Ltac crq := apply cr_eq; match goal with |- @eq _ ?a ?b => change (@eq R a b) end; cbv [radd rmul rsub ropp r0 r1 CR Cplx Rring cadd cmul csub copp fst snd car].

Lemma rz_CR n : (0 <= n)%Z -> @rz CR n = (IZR n, 0).
Proof.
  intros H. destruct n as [|p|p]; [reflexivity| |lia]. unfold rz. clear H. induction p as [|p IH] using Pos.peano_ind.
  - cbn. crq; ring.
  - rewrite Pos.iter_succ, IH. cbn [radd CR Cplx]. unfold cadd. cbn [fst snd r1 CR Cplx Rring radd]. rewrite Pos2Z.inj_succ, succ_IZR. crq; ring.
Qed.

Lemma power_w t k : @power CR (cos t, - sin t) k = (cos (INR k * t), - sin (INR k * t)).
Proof.
  induction k as [|k IH]; cbn [power].
  - rewrite Rmult_0_l, cos_0, sin_0, Ropp_0. reflexivity.
  - rewrite IH, S_INR. replace ((INR k + 1) * t) with (t + INR k * t) by ring. rewrite cos_plus, sin_plus. cbn [rmul CR Cplx]. unfold cmul. cbn. crq; ring.
Qed.
Lemma power_v t k : @power CR (cos t, sin t) k = (cos (INR k * t), sin (INR k * t)).
Proof.
  replace (cos t, sin t) with ((cos (- t), - sin (- t)) : CR) by (rewrite cos_neg, sin_neg; crq; ring).
  rewrite power_w. replace (INR k * - t) with (- (INR k * t)) by ring. rewrite cos_neg, sin_neg. crq; ring.
Qed.

Lemma cos_2_PI k : cos (2 * PI * INR k) = 1 /\ sin (2 * PI * INR k) = 0.
Proof.
  pose proof (cos_period 0 k) as A. pose proof (sin_period 0 k) as B. rewrite cos_0 in A. rewrite sin_0 in B.
  split; [rewrite <- A|rewrite <- B]; f_equal; ring.
Qed.

Lemma cos_not_1 t : 0 < t < 2 * PI -> cos t <> 1.
Proof.
  intros H E. assert (S : 0 < sin (t / 2)) by (apply sin_gt_0; lra). replace t with (2 * (t / 2)) in E by field. rewrite cos_2a_sin in E. nra.
Qed.

(** The geometric sum of a root of unity other than 1. *)
Section Geo.
Variable C : CRing.
Add Ring Cring_ring_geo : (rth C).
Lemma geometric_gen (z : C) (f : nat -> C) n : (forall j, f (S j) = z [*] f j) ->
  z [*] sumZ 0 (Z.of_nat n) (fun j => f (Z.to_nat j)) [+] f O = sumZ 0 (Z.of_nat n) (fun j => f (Z.to_nat j)) [+] f n.
Proof.
  intros Hf. induction n as [|n IH].
  - rewrite sumZ_empty by (cbn; lia). ring.
  - rewrite Nat2Z.inj_succ. unfold Z.succ. rewrite sumZ_last by lia. rewrite Nat2Z.id, Hf. revert IH.
    generalize (sumZ 0 (Z.of_nat n) (fun j : Z => f (Z.to_nat j))). intros s IH.
    transitivity ((z [*] s [+] f O) [+] z [*] f n); [ring|]. rewrite IH. ring.
Qed.
End Geo.
Lemma geometric (z : CR) (f : nat -> CR) n : (forall j, f (S j) = z [*] f j) -> f n = f O -> fst z <> 1 ->
  sumZ 0 (Z.of_nat n) (fun j => f (Z.to_nat j)) = (0, 0).
Proof.
  intros Hf Hn Hz. pose proof (geometric_gen CR z f n Hf) as T. rewrite Hn in T. revert T. generalize (sumZ 0 (Z.of_nat n) (fun j => f (Z.to_nat j))). intros s T.
  destruct s as [s1 s2], (f O) as [c d], z as [p q]. cbv [radd rmul CR Cplx Rring cadd cmul fst snd car rsub] in *. injection T as T1 T2.
  assert (A : (p - 1) * s1 - q * s2 = 0) by lra. assert (B : (p - 1) * s2 + q * s1 = 0) by lra.
  assert (N : 0 < (p - 1) ^ 2 + q ^ 2) by (assert (0 < (p - 1) ^ 2) by (assert (p - 1 <> 0) by lra; nra); nra).
  assert (E1 : ((p - 1) ^ 2 + q ^ 2) * s1 = 0) by (replace (((p - 1) ^ 2 + q ^ 2) * s1) with ((p - 1) * ((p - 1) * s1 - q * s2) + q * ((p - 1) * s2 + q * s1)) by ring; rewrite A, B; ring).
  assert (E2 : ((p - 1) ^ 2 + q ^ 2) * s2 = 0) by (replace (((p - 1) ^ 2 + q ^ 2) * s2) with ((p - 1) * ((p - 1) * s2 + q * s1) - q * ((p - 1) * s1 - q * s2)) by ring; rewrite A, B; ring).
  apply Rmult_integral in E1, E2. apply cr_eq; [destruct E1|destruct E2]; lra.
Qed.

Lemma unity_CR n : (1 <= n)%Z -> unity n (c_w n) (c_v n) (c_ninv n).
Proof.
  intros Hn. assert (Hr : 0 < IZR n) by (apply IZR_lt; lia). pose proof PI_RGT_0 as HP. unfold unity. split; [|split].
  - unfold c_w, c_v. set (t := 2 * PI / IZR n). cbn. unfold cmul. cbn. pose proof (sin2_cos2 t) as E. unfold Rsqr in E. crq; lra.
  - rewrite rz_CR by lia. unfold c_ninv. cbn. unfold cmul. cbn. crq; field; lra.
  - intros d Hd. set (k := Z.to_nat n). assert (Hk : INR k = IZR n) by (unfold k; rewrite INR_IZR_INZ, Z2Nat.id by lia; reflexivity).
    set (m := Z.to_nat d). assert (Hm : INR m = IZR d) by (unfold m; rewrite INR_IZR_INZ, Z2Nat.id by lia; reflexivity).
    set (t := 2 * PI / IZR n).
    assert (Ht : 0 < INR m * t < 2 * PI).
    { rewrite Hm. unfold t. assert (H1 : 0 < IZR d) by (apply IZR_lt; lia). assert (H2 : IZR d < IZR n) by (apply IZR_lt; lia).
      replace (IZR d * (2 * PI / IZR n)) with ((2 * PI) * (IZR d / IZR n)) by (field; lra).
      assert (H3 : 0 < IZR d / IZR n < 1).
      { split; [apply Rdiv_lt_0_compat; lra|]. apply Rmult_lt_reg_r with (IZR n); [lra|]. unfold Rdiv. rewrite Rmult_assoc, Rinv_l, Rmult_1_l, Rmult_1_r by lra. lra. }
      split; nra. }
    assert (Hkt : forall s, INR (k * m) * (s * t) = s * (2 * PI * INR m)) by (intros s; rewrite mult_INR, Hk; unfold t; field; lra).
    split.
    + rewrite (sumZ_ext _ 0 n _ (fun j => @power CR (c_w n) (Z.to_nat j * m))).
      2:{ intros j Hj. f_equal. unfold m. rewrite <- Z2Nat.inj_mul by lia. reflexivity. }
      replace n with (Z.of_nat k) at 1 by (unfold k; lia).
      apply (geometric (cos (INR m * t), - sin (INR m * t)) (fun j => @power CR (c_w n) (j * m)) k).
      * intros j. unfold c_w. fold t. rewrite !power_w. replace (S j * m)%nat with (m + j * m)%nat by lia. rewrite plus_INR.
        replace ((INR m + INR (j * m)) * t) with (INR m * t + INR (j * m) * t) by ring. rewrite cos_plus, sin_plus. cbn. unfold cmul. cbn. crq; ring.
      * unfold c_w. fold t. rewrite !power_w. replace (INR (k * m) * t) with (2 * PI * INR m) by (rewrite <- (Rmult_1_l t), Hkt; ring).
        destruct (cos_2_PI m) as [-> ->]. cbn [Nat.mul INR]. rewrite Rmult_0_l, cos_0, sin_0. reflexivity.
      * cbn [fst]. apply cos_not_1. exact Ht.
    + rewrite (sumZ_ext _ 0 n _ (fun j => @power CR (c_v n) (Z.to_nat j * m))).
      2:{ intros j Hj. f_equal. unfold m. rewrite <- Z2Nat.inj_mul by lia. reflexivity. }
      replace n with (Z.of_nat k) at 1 by (unfold k; lia).
      apply (geometric (cos (INR m * t), sin (INR m * t)) (fun j => @power CR (c_v n) (j * m)) k).
      * intros j. unfold c_v. fold t. rewrite !power_v. replace (S j * m)%nat with (m + j * m)%nat by lia. rewrite plus_INR.
        replace ((INR m + INR (j * m)) * t) with (INR m * t + INR (j * m) * t) by ring. rewrite cos_plus, sin_plus. cbn. unfold cmul. cbn. crq; ring.
      * unfold c_v. fold t. rewrite !power_v. replace (INR (k * m) * t) with (2 * PI * INR m) by (rewrite <- (Rmult_1_l t), Hkt; ring).
        destruct (cos_2_PI m) as [-> ->]. cbn [Nat.mul INR]. rewrite Rmult_0_l, cos_0, sin_0. reflexivity.
      * cbn [fst]. apply cos_not_1. exact Ht.
Qed.

Lemma roots_CR N L : has_roots c_w c_v c_ninv N L.
Proof. intros m Hm _. apply unity_CR. assert (0 < 2 ^ m)%Z by (apply Z.pow_pos_nonneg; lia). lia. Qed.

(** * The peak of the spectrum *)
Lemma rgt_spec a b : rgt a b = true <-> b < a.
Proof. unfold rgt. destruct (Rlt_dec b a); split; auto; discriminate. Qed.

Open Scope Z_scope.
Lemma argmax_R l : forall (done : list R) (best : R) ib,
  0 <= ib < zlen done -> nth (Z.to_nat ib) done 0%R = best ->
  (forall j, 0 <= j < zlen done -> (nth (Z.to_nat j) done 0 <= best)%R) ->
  (forall j, 0 <= j < ib -> (nth (Z.to_nat j) done 0 < best)%R) ->
  let k := argmax_from rgt best ib (zlen done) l in let all := (done ++ l)%list in
  0 <= k < zlen all /\ (forall j, 0 <= j < zlen all -> (nth (Z.to_nat j) all 0 <= nth (Z.to_nat k) all 0)%R) /\
  (forall j, 0 <= j < k -> (nth (Z.to_nat j) all 0 < nth (Z.to_nat k) all 0)%R).
Proof.
  induction l as [|a l IH]; intros done best ib Hib Hb Hle Hlt; cbv zeta.
  - cbn [argmax_from]. rewrite app_nil_r. rewrite Hb. auto.
  - cbn [argmax_from]. replace (done ++ a :: l)%list with ((done ++ [a]) ++ l)%list by (rewrite <- app_assoc; reflexivity).
    assert (Hz : zlen done + 1 = zlen (done ++ [a])) by (rewrite zlen_app; reflexivity). rewrite Hz.
    assert (Hn : forall j, 0 <= j < zlen done -> nth (Z.to_nat j) (done ++ [a]) 0%R = nth (Z.to_nat j) done 0%R)
      by (intros j Hj; apply app_nth1; unfold zlen in *; lia).
    assert (Hl : nth (Z.to_nat (zlen done)) (done ++ [a]) 0%R = a).
    { unfold zlen. rewrite Nat2Z.id. rewrite app_nth2 by lia. rewrite Nat.sub_diag. reflexivity. }
    destruct (rgt a best) eqn:Ea.
    + apply rgt_spec in Ea. apply IH.
      * lia.
      * exact Hl.
      * intros j Hj. destruct (Z.eq_dec j (zlen done)) as [->|]; [rewrite Hl; lra|]. rewrite Hn by lia. specialize (Hle j ltac:(lia)). lra.
      * intros j Hj. rewrite Hn by lia. specialize (Hle j ltac:(lia)). lra.
    + assert (Hgt : (a <= best)%R). { destruct (Rle_lt_dec a best) as [H|H]; [exact H|]. apply rgt_spec in H. congruence. }
      apply IH.
      * lia.
      * rewrite Hn by lia. exact Hb.
      * intros j Hj. destruct (Z.eq_dec j (zlen done)) as [->|]; [rewrite Hl; exact Hgt|]. rewrite Hn by lia. apply Hle. lia.
      * intros j Hj. rewrite Hn by lia. apply Hlt. lia.
Qed.

Lemma argmax_tab (f : Z -> R) n : 2 <= n -> exists i, argmax rgt (tl (tab n f)) = Ok i /\ peak_at f n (i + 1).
Proof.
  intros H. set (mag := tab n f). assert (Lm : zlen mag = n) by (unfold mag; rewrite zlen_tab; lia).
  assert (Vm : forall j, 0 <= j < n -> nth (Z.to_nat j) mag 0%R = f j).
  { intros j Hj. unfold mag, tab. rewrite (nth_indep _ 0%R (f (Z.of_nat 0))) by (rewrite map_length, seq_length; lia).
    rewrite (map_nth (fun k => f (Z.of_nat k))), seq_nth by lia. f_equal. lia. }
  destruct mag as [|m0 [|m1 l]]; [unfold zlen in Lm; cbn in Lm; lia|unfold zlen in Lm; cbn in Lm; lia|].
  cbn [tl argmax]. eexists. split; [reflexivity|].
  destruct (argmax_R l [m1] m1 0) as (K1 & K2 & K3).
  - change (zlen [m1]) with 1. lia.
  - reflexivity.
  - change (zlen [m1]) with 1. intros j Hj. replace j with 0 by lia. apply Rle_refl.
  - intros j Hj. lia.
  - change (zlen [m1]) with 1 in *. set (k := argmax_from rgt m1 0 1 l) in *. cbv zeta in K1, K2, K3.
    change ([m1] ++ l)%list with (m1 :: l) in *. rewrite (zlen_cons m1) in *. rewrite !zlen_cons in Lm.
    assert (Hn : forall j, 0 <= j < n - 1 -> nth (Z.to_nat j) (m1 :: l) 0%R = f (j + 1)).
    { intros j Hj. rewrite <- Vm by lia. replace (Z.to_nat (j + 1)) with (S (Z.to_nat j)) by lia. reflexivity. }
    split; [lia|]. split.
    + intros j Hj. replace j with (j - 1 + 1) by lia. rewrite <- !Hn by lia. apply K2. lia.
    + intros j Hj. replace j with (j - 1 + 1) by lia. rewrite <- !Hn by lia. apply K3. lia.
Qed.

Lemma central_R (x : list Q) (f : Z -> R) n : (2 <= n) -> (0 < grid_width x)%Q -> n mod 2 = 0 ->
  exists k q, peak_at f n k /\ central_frequency rgt x (tab n f) = Ok q /\ (q == inject_Z (Z.min k (n - k)) / grid_width x)%Q.
Proof.
  intros Hn Hx Hev. destruct (argmax_tab f n Hn) as (i & Ei & Hi). exists (i + 1). pose proof Hi as (Hb & _).
  unfold central_frequency. destruct (Qle_bool (grid_width x) 0) eqn:E.
  { apply Qle_bool_iff in E. exfalso. apply (Qlt_irrefl 0). eapply Qlt_le_trans; eauto. }
  rewrite Ei. cbn [bind]. eexists. split; [exact Hi|]. split; [reflexivity|]. rewrite zlen_tab by lia.
  assert (Hz : forall z, 0 < z -> ~ (inject_Z z == 0)%Q).
  { intros z Hz E2. assert (H : (inject_Z 0 < inject_Z z)%Q) by (rewrite <- Zlt_Qlt; exact Hz).
    change (inject_Z 0) with 0%Q in H. rewrite E2 in H. apply (Qlt_irrefl 0 H). }
  assert (Hw : ~ (grid_width x == 0)%Q) by (intros E2; rewrite E2 in Hx; apply (Qlt_irrefl 0 Hx)).
  destruct (Z.ltb_spec n (2 * (i + 2))).
  - replace (Z.min (i + 1) (n - (i + 1))) with (n - (i + 1)) by (Z.to_euclidean_division_equations; lia).
    replace (n - (i + 2) + 2 - 1) with (n - (i + 1)) by lia. field. split; [exact Hw|apply Hz; lia].
  - replace (i + 2 - 1) with (i + 1) by lia. replace (Z.min (i + 1) (n - (i + 1))) with (i + 1) by lia. field. split; [exact Hw|apply Hz; lia].
Qed.

Open Scope R_scope.
(** * The spectrum *)
Lemma fst_sum a b (f : Z -> CR) : fst (sumZ a b f) = @sumZ Rring a b (fun j => fst (f j)).
Proof.
  destruct (Z_lt_le_dec b a) as [H|H]; [rewrite !sumZ_empty by lia; reflexivity|]. replace b with (a + Z.of_nat (Z.to_nat (b - a)))%Z by lia. induction (Z.to_nat (b - a)) as [|n IH].
  - rewrite !sumZ_empty by lia. reflexivity.
  - rewrite Nat2Z.inj_succ. replace (a + Z.succ (Z.of_nat n))%Z with (a + Z.of_nat n + 1)%Z by lia. rewrite !sumZ_last by lia. cbn [radd CR Cplx]. unfold cadd. cbn [fst]. rewrite IH. reflexivity.
Qed.
Lemma snd_sum a b (f : Z -> CR) : snd (sumZ a b f) = @sumZ Rring a b (fun j => snd (f j)).
Proof.
  destruct (Z_lt_le_dec b a) as [H|H]; [rewrite !sumZ_empty by lia; reflexivity|]. replace b with (a + Z.of_nat (Z.to_nat (b - a)))%Z by lia. induction (Z.to_nat (b - a)) as [|n IH].
  - rewrite !sumZ_empty by lia. reflexivity.
  - rewrite Nat2Z.inj_succ. replace (a + Z.succ (Z.of_nat n))%Z with (a + Z.of_nat n + 1)%Z by lia. rewrite !sumZ_last by lia. cbn [radd CR Cplx]. unfold cadd. cbn [snd]. rewrite IH. reflexivity.
Qed.

Lemma pw_power (a : CR) n : pw a n = power a n.
Proof. induction n as [|n IH]; [reflexivity|]. cbn [pw power]. rewrite IH. reflexivity. Qed.

Lemma sumR_ext a b (f g : Z -> R) : (forall j, (a <= j < b)%Z -> f j = g j) -> @sumZ Rring a b f = @sumZ Rring a b g.
Proof. intros H. apply (sumZ_ext Rring a b f g). exact H. Qed.

Lemma fft_abs (psi : list CR) n k : (0 < n)%Z -> (0 <= k < n)%Z ->
  c_abs (sumZ 0 n (fun j => gz psi j [*] pw (c_w n) (Z.to_nat (j * k)))) = spectrum (gz psi) n k.
Proof.
  intros Hn Hk. unfold c_abs, spectrum. cbv zeta. rewrite fst_sum, snd_sum. assert (Hr : IZR n <> 0) by (apply IZR_neq; lia).
  assert (E : forall j, (0 <= j < n)%Z -> gz psi j [*] pw (c_w n) (Z.to_nat (j * k)) =
     ((fst (gz psi j) * cos (2 * PI * IZR j * IZR k / IZR n) + snd (gz psi j) * sin (2 * PI * IZR j * IZR k / IZR n),
       snd (gz psi j) * cos (2 * PI * IZR j * IZR k / IZR n) - fst (gz psi j) * sin (2 * PI * IZR j * IZR k / IZR n)) : CR)).
  { intros j Hj. rewrite pw_power. unfold c_w. rewrite power_w.
    replace (INR (Z.to_nat (j * k)) * (2 * PI / IZR n)) with (2 * PI * IZR j * IZR k / IZR n)
      by (rewrite INR_IZR_INZ, Z2Nat.id, mult_IZR by nia; field; exact Hr).
    destruct (gz psi j) as [p q]. cbn [rmul CR Cplx]. unfold cmul. crq; ring. }
  rewrite (sumR_ext 0 n (fun j => fst (gz psi j [*] pw (c_w n) (Z.to_nat (j * k)))) (fun j => fst (gz psi j) * cos (2 * PI * IZR j * IZR k / IZR n) + snd (gz psi j) * sin (2 * PI * IZR j * IZR k / IZR n)))
    by (intros j Hj; rewrite (E j Hj); reflexivity).
  rewrite (sumR_ext 0 n (fun j => snd (gz psi j [*] pw (c_w n) (Z.to_nat (j * k)))) (fun j => snd (gz psi j) * cos (2 * PI * IZR j * IZR k / IZR n) - fst (gz psi j) * sin (2 * PI * IZR j * IZR k / IZR n)))
    by (intros j Hj; rewrite (E j Hj); reflexivity).
  reflexivity.
Qed.

Lemma tab_eq {A} n (f g : Z -> A) : (forall j, (0 <= j < n)%Z -> f j = g j) -> tab n f = tab n g.
Proof. intros H. unfold tab. apply map_ext_in. intros k Hk. apply in_seq in Hk. apply H. lia. Qed.

Lemma attrs_upper name a : continuous_attrs name = Ok a -> (0 < a_upper a)%Q.
Proof.
  unfold continuous_attrs. destruct (continuous_new name) as [c| | |e]; cbn [bind]; try discriminate. unfold continuous_struct.
  destruct (c_family c); try discriminate; try (destruct (8 <? c_number c)%Z; [discriminate|]); intros [= <-]; reflexivity.
Qed.

Lemma to_complex_map (g h : Q -> R) (x : list Q) : to_complex (PsiComplex (map g x) (map h x)) = map (fun q => ((g q, h q) : CR)) x.
Proof. cbn [to_complex]. induction x as [|q x IH]; [reflexivity|]. cbn [map combine]. rewrite IH. reflexivity. Qed.

Lemma wavefun_list name a level : continuous_attrs name = Ok a -> usable a -> (0 <= level)%Z -> (2 ^ level < max_alloc)%Z ->
  exists p x, c_wavefun a level None = Ok (p, x) /\ x = linspace (a_lower a) (a_upper a) (2 ^ level) /\ to_complex p = map (fun q => (fn_of a (Q2R q) : CR)) x.
Proof.
  intros H U Hl Hm. assert (Hp : (0 < 2 ^ level)%Z) by (apply Z.pow_pos_nonneg; lia). unfold c_wavefun. replace (level <? 0)%Z with false by lia.
  replace (2 ^ level <? 0)%Z with false by lia. replace (max_alloc <=? 2 ^ level)%Z with false by lia. cbv zeta. set (x := linspace _ _ _).
  destruct (attrs_facts name a H) as (F & _). unfold cwt_psi_single, fn_of. replace (2 ^ level <? 1)%Z with false by lia. unfold usable in U.
  destruct (a_family a) eqn:Ef; try contradiction; try (destruct U as (U1 & U2); rewrite (positive_ok _ U1), (positive_ok _ U2)); unfold nonzero; try replace (a_order a =? 0)%Z with false by lia; cbn [bind]; eexists _, x; (split; [reflexivity|]); (split; [reflexivity|]);
  try (cbn [to_complex]; rewrite !map_map; reflexivity); rewrite !map_map; apply to_complex_map.
Qed.

Lemma gz_tab_map (f : Q -> CR) (g : Z -> Q) n j : (0 <= j < n)%Z -> gz (map f (tab n g)) j = f (g j).
Proof.
  intros Hj. replace (map f (tab n g)) with (tab n (fun i => f (g i))) by (unfold tab; rewrite map_map; reflexivity). apply (gz_tab (C := CR) n (fun i => f (g i))). exact Hj.
Qed.

Lemma spectrum_ext p q n k : (forall j, (0 <= j < n)%Z -> p j = q j) -> spectrum p n k = spectrum q n k.
Proof.
  intros H. unfold spectrum. cbv zeta. f_equal. f_equal; (f_equal; apply sumR_ext; intros j Hj; rewrite (H j Hj); reflexivity).
Qed.
Lemma peak_ext f g n k : (forall j, (1 <= j < n)%Z -> f j = g j) -> peak_at f n k -> peak_at g n k.
Proof.
  intros E (H1 & H2 & H3). split; [exact H1|]. split; intros j Hj; rewrite <- !E by lia; [apply H2|apply H3]; lia.
Qed.

Lemma linspace_nth l u n i : (0 <= i < n)%Z -> nth (Z.to_nat i) (linspace l u n) 0%Q = (inject_Z i * ((u - l) / inject_Z (n - 1)) + l)%Q.
Proof. intros H. unfold linspace. apply qnth_tab. exact H. Qed.

Lemma injZ_pos z : (0 < z)%Z -> (0 < inject_Z z)%Q.
Proof. intros H. change 0%Q with (inject_Z 0). rewrite <- Zlt_Qlt. exact H. Qed.
Lemma injZ_nz z : (0 < z)%Z -> ~ (inject_Z z == 0)%Q.
Proof. intros H E. apply injZ_pos in H. rewrite E in H. apply (Qlt_irrefl 0 H). Qed.

Lemma linspace_width l u n : (2 <= n)%Z -> (grid_width (linspace l u n) == u - l)%Q /\ (grid_step (linspace l u n) == (u - l) / inject_Z (n - 1))%Q.
Proof.
  intros H. unfold grid_width, grid_step. assert (L : Datatypes.length (linspace l u n) = Z.to_nat n) by (rewrite <- zlen_nat; unfold linspace; rewrite zlen_tab; lia).
  rewrite L. replace (Z.to_nat n - 1)%nat with (Z.to_nat (n - 1)) by lia. rewrite linspace_nth by lia.
  change 0%nat with (Z.to_nat 0) at 1. change 1%nat with (Z.to_nat 1). 
  pose proof (injZ_nz (n - 1) ltac:(lia)) as N. split.
  - rewrite (linspace_nth l u n 0) by lia. field. exact N.
  - rewrite (linspace_nth l u n 1) by lia. replace (nth 0 (linspace l u n) 0%Q) with (nth (Z.to_nat 0) (linspace l u n) 0%Q) by reflexivity.
    rewrite (linspace_nth l u n 0) by lia. field. exact N.
Qed.

Theorem central_named name a level : continuous_attrs name = Ok a -> usable a -> (1 <= level)%Z -> (2 ^ level < max_alloc)%Z ->
  exists f k q, documented_psi a f /\ peak_at (spectrum (sampled f a (2 ^ level)) (2 ^ level)) (2 ^ level) k /\
    c_central_frequency a level = Ok q /\ (q == inject_Z (Z.min k (2 ^ level - k)) / (a_upper a - a_lower a))%Q /\
    (0 < q <= inject_Z (2 ^ level) / (2 * (a_upper a - a_lower a)))%Q.
Proof.
  intros H U Hl Hm. destruct (wavefun_list name a level H U ltac:(lia) Hm) as (p & x & E & Ex & Ep). set (n := (2 ^ level)%Z) in *.
  assert (Hn : (2 <= n)%Z) by (unfold n; replace level with (Z.succ (level - 1)) by lia; rewrite Z.pow_succ_r by lia; pose proof (Z.pow_pos_nonneg 2 (level - 1)); lia).
  unfold c_central_frequency. rewrite E. cbn [bind]. rewrite Ep, zlen_map.
  replace (zlen x) with n by (rewrite Ex; unfold linspace; rewrite zlen_tab; lia).
  replace (map c_abs (fft c_w (map (fun q : Q => fn_of a (Q2R q) : CR) x) n)) with (tab n (spectrum (sampled (fn_of a) a n) n)).
  2:{ unfold fft, tab. rewrite map_map. apply map_ext_in. intros j Hj. apply in_seq in Hj. symmetry. etransitivity; [apply fft_abs; lia|]. apply spectrum_ext.
      intros i Hi. rewrite Ex. unfold linspace. rewrite gz_tab_map by lia. reflexivity. }
  destruct (linspace_width (a_lower a) (a_upper a) n Hn) as (W1 & W2).
  assert (Hw : (0 < a_upper a - a_lower a)%Q).
  { destruct (attrs_facts name a H) as (_ & -> & _). pose proof (attrs_upper name a H) as P. setoid_replace (a_upper a - - a_upper a)%Q with (a_upper a + a_upper a)%Q by ring.
    setoid_replace 0%Q with (0 + 0)%Q by reflexivity. apply Qplus_lt_le_compat; [exact P|apply Qlt_le_weak; exact P]. }
  destruct (central_R x (spectrum (sampled (fn_of a) a n) n) n Hn) as (k & q & K1 & K2 & K3).
  - rewrite Ex, W1. exact Hw.
  - unfold n. replace level with (Z.succ (level - 1)) by lia. rewrite Z.pow_succ_r by lia. rewrite Z.mul_comm. apply Z_mod_mult.
  - exists (fn_of a), k, q. split; [apply (fn_documented name); assumption|]. split; [exact K1|]. split; [exact K2|]. assert (K4 : (q == inject_Z (Z.min k (n - k)) / (a_upper a - a_lower a))%Q) by (rewrite K3, Ex, W1; reflexivity).
    split; [exact K4|]. destruct K1 as (K1 & _). rewrite K4. split.
    + apply Qlt_shift_div_l; [exact Hw|]. rewrite Qmult_0_l. apply injZ_pos. lia.
    + apply Qle_shift_div_l; [setoid_replace 0%Q with (2 * 0)%Q by reflexivity; rewrite Qmult_lt_l; [exact Hw|reflexivity]|].
      setoid_replace (inject_Z (Z.min k (n - k)) / (a_upper a - a_lower a) * (2 * (a_upper a - a_lower a)))%Q with (inject_Z (Z.min k (n - k)) * 2)%Q.
      * change 2%Q with (inject_Z 2). rewrite <- inject_Z_mult, <- Zle_Qle. lia.
      * field. intros Z. rewrite Z in Hw. apply (Qlt_irrefl 0 Hw).
Qed.

Theorem central_named_0 name a : continuous_attrs name = Ok a -> usable a -> c_central_frequency a 0 = Err AssertionError.
Proof.
  intros H U. destruct (wavefun_list name a 0 H U ltac:(lia) ltac:(unfold max_alloc; lia)) as (p & x & E & Ex & Ep).
  unfold c_central_frequency. rewrite E. cbn [bind]. unfold central_frequency. replace (Qle_bool (grid_width x) 0) with true; [reflexivity|].
  symmetry. apply Qle_bool_iff. rewrite Ex. change (2 ^ 0)%Z with 1%Z. unfold linspace, tab, grid_width. cbn [map seq Z.to_nat Pos.to_nat Pos.iter_op Datatypes.length Nat.sub nth Nat.add]. apply Qle_lteq. right.
apply Qplus_opp_r.
Qed.

Lemma named_unfold name a dcplx data scales period meth axis : continuous_attrs name = Ok a -> usable a ->
  exists f x fc, documented_psi a f /\ x = linspace (a_lower a) (a_upper a) 1024 /\ c_central_frequency a 10 = Ok fc /\
    (forall i, (0 <= i < 1024)%Z -> gz (map (fun q => (f (Q2R q) : CR)) x) i = sampled f a 1024 i) /\ grid_ok x /\
    cwt_named dcplx data scales name period meth axis =
    cwt c_inj c_root c_conj c_re c_w c_v c_ninv dcplx data scales (WContinuous (a_complex a) (map (fun q => (f (Q2R q) : CR)) x) x) fc period meth axis.
Proof.
  intros H U. destruct (wavefun_list name a 10 H U ltac:(lia) ltac:(unfold max_alloc; lia)) as (p & x & E & Ex & Ep).
  destruct (central_named name a 10 H U ltac:(lia) ltac:(unfold max_alloc; lia)) as (_ & _ & fc & _ & _ & Efc & _).
  change (2 ^ 10)%Z with 1024%Z in *. exists (fn_of a), x, fc. split; [apply (fn_documented name); assumption|]. split; [exact Ex|]. split; [exact Efc|]. split; [|split].
  - intros i Hi. rewrite Ex. unfold linspace. rewrite gz_tab_map by lia. reflexivity.
  - destruct (linspace_width (a_lower a) (a_upper a) 1024 ltac:(lia)) as (W1 & W2).
    assert (Hw : (0 < a_upper a - a_lower a)%Q).
    { destruct (attrs_facts name a H) as (_ & -> & _). pose proof (attrs_upper name a H) as P. setoid_replace (a_upper a - - a_upper a)%Q with (a_upper a + a_upper a)%Q by ring.
      setoid_replace 0%Q with (0 + 0)%Q by reflexivity. apply Qplus_lt_le_compat; [exact P|apply Qlt_le_weak; exact P]. }
    rewrite Ex. split; [unfold linspace; rewrite zlen_tab; lia|]. split; [rewrite W2|rewrite W1; exact Hw].
    apply Qlt_shift_div_l; [apply injZ_pos; lia|]. rewrite Qmult_0_l. exact Hw.
  - unfold cwt_named. rewrite H. cbn [bind]. rewrite E. cbn [bind]. rewrite Efc. cbn [bind]. rewrite Ep.
    destruct (existsb (fun s => Qle_bool s 0) scales) eqn:Es; [|reflexivity]. unfold cwt. rewrite Es. reflexivity.
Qed.

Theorem named_methods name a dcplx data scales period axis : let d := zlen (nshape data) in
  continuous_attrs name = Ok a -> usable a -> nd_wf data -> (1 <= d)%Z -> (- d <= axis < d)%Z -> (1 <= nthz (Z.to_nat (axis mod d)) (nshape data))%Z ->
  cwt_named dcplx data scales name period MFft axis = cwt_named dcplx data scales name period MConv axis.
Proof.
  intros d H U Hd H1 Ha HN.
  destruct (wavefun_list name a 10 H U ltac:(lia) ltac:(unfold max_alloc; lia)) as (p & x & E & Ex & Ep).
  unfold cwt_named. rewrite H. cbn [bind]. destruct (existsb (fun s => Qle_bool s 0) scales); [reflexivity|]. rewrite E. cbn [bind].
  destruct (c_central_frequency a 10) as [fc| | |] eqn:F; [|reflexivity..]. cbn [bind].
  destruct (named_unfold name a dcplx data scales period MFft axis H U) as (_ & x' & _ & _ & Ex' & _ & _ & G & _). change (2 ^ 10)%Z with 1024%Z in *.
  assert (x' = x) as -> by congruence.
  apply cwt_methods; try assumption.
  - rewrite Ep, zlen_map. destruct G. lia.
  - intros s _ _. apply roots_CR.
Qed.

Theorem named_value name a dcplx data scales period meth axis : let d := zlen (nshape data) in let k := Z.to_nat (axis mod d) in
  let x := linspace (a_lower a) (a_upper a) 1024 in
  continuous_attrs name = Ok a -> usable a -> nd_wf data -> (1 <= d)%Z -> (- d <= axis < d)%Z -> (1 <= nthz k (nshape data))%Z -> meth <> MOther ->
  (forall s, In s scales -> (0 < s)%Q /\ (1 < inject_Z 1024 * (s * grid_step x))%Q) ->
  exists f fc out (psi : list CR), documented_psi a f /\ zlen psi = 1024%Z /\ (forall i, (0 <= i < 1024)%Z -> gz psi i = sampled f a 1024 i) /\ c_central_frequency a 10 = Ok fc /\
  cwt_named dcplx data scales name period meth axis = Ok (out, map (fun s => (fc / s / period)%Q) scales) /\
  nshape out = zlen scales :: nshape data /\ nd_wf out /\
  forall i idx, (0 <= i < zlen scales)%Z -> Nd.valid (nshape data) idx ->
    ndget out (i :: idx) = let s := nth (Z.to_nat i) scales 0%Q in
      let z := cwt_at (fun q => let z := integral psi (c_inj (grid_step x)) q in if a_complex a then c_conj z else z) 1024 (grid_step x) (grid_width x) s (c_root s) (line data k idx) (nthz k idx) in
      if a_complex a || dcplx then z else c_re z.
Proof.
  intros d k x H U Hd H1 Ha HN Hm Hs. destruct (named_unfold name a dcplx data scales period meth axis H U) as (f & x' & fc & Df & Ex & F & P & G & E).
  change (linspace (a_lower a) (a_upper a) 1024) with x in Ex. subst x'.
  assert (Hp : zlen (map (fun q => (f (Q2R q) : CR)) x) = 1024%Z) by (rewrite zlen_map; unfold x, linspace; rewrite zlen_tab; lia).
  destruct (cwt_value c_w c_v c_ninv c_inj c_conj c_root c_re dcplx data scales (a_complex a) (map (fun q => (f (Q2R q) : CR)) x) x fc period meth axis) as (out & O1 & O2 & O3 & O4); try assumption.
  - lia.
  - intros s S. destruct (Hs s S) as (S1 & S2). rewrite Hp. split; [exact S1|]. split; [exact S2|]. destruct meth; cbn; auto. apply roots_CR.
  - exists f, fc, out, (map (fun q => (f (Q2R q) : CR)) x). split; [exact Df|]. split; [exact Hp|]. split; [exact P|]. split; [exact F|]. split; [rewrite E; exact O1|]. split; [exact O2|]. split; [exact O3|].
    intros i idx Hi V. rewrite (O4 i idx Hi V). rewrite Hp. reflexivity.
Qed.

Lemma grid_1024 name a : continuous_attrs name = Ok a -> let x := linspace (a_lower a) (a_upper a) 1024 in
  (grid_step x == (a_upper a - a_lower a) / 1023)%Q /\ (grid_width x == a_upper a - a_lower a)%Q.
Proof. intros _ x. destruct (linspace_width (a_lower a) (a_upper a) 1024 ltac:(lia)) as (W1 & W2). split; [exact W2|exact W1]. Qed.

Theorem named_short name a dcplx data scales period meth axis : let d := zlen (nshape data) in let k := Z.to_nat (axis mod d) in
  continuous_attrs name = Ok a -> usable a -> nd_wf data -> (1 <= d)%Z -> (- d <= axis < d)%Z -> (1 <= nthz k (nshape data))%Z -> meth <> MOther ->
  (exists s, In s scales /\ (inject_Z 1024 * (s * ((a_upper a - a_lower a) / 1023)) <= 1)%Q) ->
  cwt_named dcplx data scales name period meth axis = Err ValueError.
Proof.
  intros d k H U Hd H1 Ha HN Hm (s & S1 & S2). destruct (existsb (fun s => Qle_bool s 0) scales) eqn:B.
  { unfold cwt_named. rewrite H. cbn [bind]. rewrite B. reflexivity. }
  assert (Hpos : forall s, In s scales -> (0 < s)%Q).
  { intros t T. destruct (Qlt_le_dec 0 t) as [L|L]; auto. exfalso. rewrite <- not_true_iff_false in B. apply B. apply existsb_exists. exists t. split; auto. apply Qle_bool_iff. exact L. }
  destruct (named_unfold name a dcplx data scales period meth axis H U) as (f & x & fc & Df & Ex & F & P & G & E).
  assert (Hp : zlen (map (fun q => (f (Q2R q) : CR)) x) = 1024%Z) by (rewrite zlen_map, Ex; unfold linspace; rewrite zlen_tab; lia).
  rewrite E. apply cwt_short; try assumption.
  - lia.
  - intros t T. split; [auto|]. destruct meth; cbn; auto. apply roots_CR.
  - exists s. split; [exact S1|]. rewrite Hp, Ex. destruct (grid_1024 name a H) as (W & _). rewrite W. exact S2.
Qed.

Theorem named_errors name dcplx data scales period meth axis :
  (forall e, continuous_attrs name = Err e -> cwt_named dcplx data scales name period meth axis = Err e) /\
  (forall a, continuous_attrs name = Ok a -> (exists s, In s scales /\ (s <= 0)%Q) -> cwt_named dcplx data scales name period meth axis = Err ValueError) /\
  (forall a, continuous_attrs name = Ok a -> usable a -> (forall s, In s scales -> (0 < s)%Q) -> cwt_named dcplx data scales name period MOther axis = Err ValueError).
Proof.
  split; [|split].
  - intros e H. unfold cwt_named. rewrite H. reflexivity.
  - intros a H (s & S1 & S2). unfold cwt_named. rewrite H. cbn [bind]. replace (existsb (fun s => Qle_bool s 0) scales) with true; [reflexivity|]. symmetry. apply existsb_exists. exists s. split; [exact S1|]. apply Qle_bool_iff. exact S2.
  - intros a H U S. destruct (named_unfold name a dcplx data scales period MOther axis H U) as (f & x & fc & Df & Ex & F & P & G & E). rewrite E.
    apply cwt_method_rejected; [exact S|]. destruct G. assumption.
Qed.

Lemma sampled_real name a f i n : continuous_attrs name = Ok a -> a_complex a = false -> documented_psi a f -> snd (sampled f a n i) = 0.
Proof.
  intros H E. destruct (attrs_facts name a H) as (_ & _ & A). rewrite E in A. unfold documented_psi, sampled. cbv zeta.
  destruct (a_family a); try discriminate; intros D; try contradiction; try (destruct D as (g & _ & ->)); try (rewrite D); reflexivity.
Qed.
Lemma real_CR : real_samples c_re (fun z : CR => snd z = 0).
Proof.
  split; [reflexivity|]. repeat split.
  - intros [a b] [c d] H1 H2. cbn in *. rewrite H1, H2. ring.
  - intros [a b] [c d] H1 H2. cbn in *. rewrite H1, H2. ring.
  - intros [a b] [c d] H1 H2. cbn in *. rewrite H1, H2. ring.
  - intros [a b] H. cbn in *. rewrite H. reflexivity.
Qed.
Theorem named_real name a f psi s xs t : continuous_attrs name = Ok a -> a_complex a = false -> documented_psi a f ->
  zlen psi = 1024%Z -> (forall i, (0 <= i < 1024)%Z -> gz psi i = sampled f a 1024 i :> CR) -> Forall (fun z : CR => snd z = 0) xs ->
  let x := linspace (a_lower a) (a_upper a) 1024 in
  let z := cwt_at (integral psi (c_inj (grid_step x))) 1024 (grid_step x) (grid_width x) s (c_root s) xs t in c_re z = z.
Proof.
  intros H E D Hp Hv Hx x. rewrite <- Hp. apply (@cwt_at_real CR c_w c_v c_ninv c_inj c_conj c_root c_re (fun z : CR => snd z = 0)); [exact real_CR| |exact Hx|reflexivity|reflexivity].
  apply Forall_forall. intros z Hz. destruct (In_nth _ _ r0 Hz) as (j & Hj & <-). 
  assert (Z1 : (0 <= Z.of_nat j < 1024)%Z) by (rewrite <- Hp; unfold zlen; lia).
  specialize (Hv (Z.of_nat j) Z1). unfold gz in Hv. replace (0 <=? Z.of_nat j)%Z with true in Hv by (symmetry; apply Z.leb_le; lia). rewrite Nat2Z.id in Hv. rewrite Hv. apply (sampled_real name); assumption.
Qed.

Theorem named_zero name a level dcplx data scales period meth axis : continuous_attrs name = Ok a -> ~ usable a ->
  ((0 <= level)%Z -> (2 ^ level < max_alloc)%Z -> c_central_frequency a level = Err TypeError) /\
  ((forall s, In s scales -> (0 < s)%Q) -> cwt_named dcplx data scales name period meth axis = Err TypeError).
Proof.
  intros H U. split.
  - intros L M. unfold c_central_frequency. rewrite (proj2 (proj2 (c_wavefun_errors name a level None H)) U); [reflexivity|].
    exists (2 ^ level)%Z. split; [right; auto|]. pose proof (Z.pow_pos_nonneg 2 level). lia.
  - intros S. unfold cwt_named. rewrite H. cbn [bind]. replace (existsb (fun s => Qle_bool s 0) scales) with false.
    + rewrite (proj2 (proj2 (c_wavefun_errors name a 10 None H)) U); [reflexivity|]. exists 1024%Z. split; [right; repeat split; lia|unfold max_alloc; lia].
    + symmetry. apply not_true_iff_false. intros E. apply existsb_exists in E as (s & S1 & S2). apply Qle_bool_iff in S2. apply (Qlt_not_le _ _ (S s S1) S2).
Qed.
