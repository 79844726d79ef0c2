(** A concrete rounded arithmetic: binary floating point with [p] significant
    bits, rounding toward zero, unbounded exponents. *)
From Coq Require Import Reals Lra Psatz.
From Verif Require Import Base CConv RawConv Rounding.
Open Scope Z_scope.

(** (m, e) stands for m * 2^e. *)
Definition fp : Type := (Z * Z)%type.
Definition fp_val (a : fp) : R := (IZR (fst a) * powerRZ 2 (snd a))%R.
Definition fp_norm (p : Z) (a : fp) : fp :=
  let k := Z.max 0 (Z.log2 (Z.abs (fst a)) + 1 - p) in (Z.quot (fst a) (2 ^ k), snd a + k).
Definition fp_plus (p s : Z) (a b : fp) : fp :=
  if fst b =? 0 then a else if fst a =? 0 then (s * fst b, snd b) else
  let e := Z.min (snd a) (snd b) in fp_norm p (fst a * 2 ^ (snd a - e) + s * (fst b * 2 ^ (snd b - e)), e).
Definition fp_mul (p : Z) (a b : fp) : fp := fp_norm p (fst a * fst b, snd a + snd b).
Definition fp_ops (p : Z) : Ops := mkOps fp (0, 0) (fp_plus p 1) (fp_mul p) (fp_plus p (-1)) (fun z => (z, 0)).

Lemma pow2_pos e : (0 < powerRZ 2 e)%R.
Proof. apply powerRZ_lt. lra. Qed.
Lemma pow2_Z k : 0 <= k -> IZR (2 ^ k) = powerRZ 2 k.
Proof.
  intros H. replace k with (Z.of_nat (Z.to_nat k)) by lia. rewrite <- pow_powerRZ. set (n := Z.to_nat k). clearbody n. clear.
  induction n as [|n IH]; [reflexivity|]. replace (Z.of_nat (S n)) with (Z.of_nat n + 1) by lia. rewrite Z.pow_add_r, mult_IZR, IH by lia. cbn. ring.
Qed.
Lemma fp_val_scaled m k e : 0 <= k -> fp_val (m * 2 ^ k, e) = fp_val (m, e + k).
Proof.
  intros H. unfold fp_val. cbn [fst snd]. rewrite mult_IZR, pow2_Z, powerRZ_add by (auto; lra). ring.
Qed.
Lemma fp_norm_err p a : 1 <= p -> (Rabs (fp_val (fp_norm p a) - fp_val a) <= / powerRZ 2 (p - 1) * Rabs (fp_val a))%R.
Proof.
  intros Hp. destruct a as [m e]. unfold fp_norm. cbn [fst snd]. set (k := Z.max 0 _).
  assert (Hk : 0 <= k) by lia. pose proof (Z.quot_rem' m (2 ^ k)) as Q.
  assert (H2 : 2 ^ k <> 0) by (apply Z.pow_nonzero; lia).
  assert (E : (fp_val (Z.quot m (2 ^ k), (e + k)%Z) - fp_val (m, e) = - fp_val (Z.rem m (2 ^ k), e))%R).
  { rewrite <- fp_val_scaled by exact Hk. rewrite Q at 2. unfold fp_val. cbn [fst snd]. rewrite plus_IZR, !mult_IZR. ring. }
  rewrite E, Rabs_Ropp. unfold fp_val. cbn [fst snd]. rewrite !Rabs_mult, !(Rabs_pos_eq (powerRZ 2 e)) by (left; apply pow2_pos).
  rewrite <- Rmult_assoc. apply Rmult_le_compat_r; [left; apply pow2_pos|]. rewrite <- !abs_IZR.
  assert (B : (Z.abs (Z.rem m (2 ^ k)) * 2 ^ (p - 1) <= Z.abs m)%Z).
  { destruct (Z_le_gt_dec k 0) as [K0|K0].
    - replace k with 0 by lia. rewrite Z.pow_0_r, Z.rem_1_r. lia.
    - assert (Ek : k = Z.log2 (Z.abs m) + 1 - p) by lia. assert (Hm : 0 < Z.abs m).
      { destruct (Z.eq_dec m 0) as [->|]; [clearbody k; change (Z.log2 (Z.abs 0)) with 0 in Ek; lia|lia]. }
      pose proof (Z.log2_spec (Z.abs m) Hm) as [L1 _].
      pose proof (Z.rem_bound_abs m (2 ^ k) H2) as R0. rewrite (Z.abs_eq (2 ^ k)) in R0 by (apply Z.pow_nonneg; lia).
      eapply Z.le_trans; [apply Z.mul_le_mono_nonneg_r with (m := 2 ^ k); [apply Z.pow_nonneg; lia|lia]|].
      rewrite <- Z.pow_add_r by lia. replace (k + (p - 1)) with (Z.log2 (Z.abs m)) by lia. exact L1. }
  apply IZR_le in B. rewrite mult_IZR, pow2_Z in B by lia. pose proof (pow2_pos (p - 1)) as P.
  apply (Rmult_le_reg_r (powerRZ 2 (p - 1))); [exact P|]. eapply Rle_trans; [exact B|]. right. field. lra.
Qed.
Lemma fp_val_0 a : fp_val a = 0%R -> fst a = 0.
Proof. unfold fp_val. intros H. apply Rmult_integral in H. destruct H as [H|H]; [apply eq_IZR; exact H|]. pose proof (pow2_pos (snd a)). lra. Qed.
Lemma fst_0_val a : fst a = 0 -> fp_val a = 0%R.
Proof. unfold fp_val. intros ->. ring. Qed.

Lemma fp_plus_val p s a b : 1 <= p -> (Rabs (fp_val (fp_plus p s a b) - (fp_val a + IZR s * fp_val b)) <= / powerRZ 2 (p - 1) * Rabs (fp_val a + IZR s * fp_val b))%R.
Proof.
  intros Hp. pose proof (pow2_pos (p - 1)) as P. apply Rinv_0_lt_compat in P.
  assert (T : forall t, (Rabs (t - t) <= / powerRZ 2 (p - 1) * Rabs t)%R).
  { intros t. replace (t - t)%R with 0%R by ring. rewrite Rabs_R0. apply Rmult_le_pos; [lra|apply Rabs_pos]. }
  unfold fp_plus. destruct (Z.eqb_spec (fst b) 0) as [E|E].
  - rewrite (fst_0_val b E). replace (fp_val a + IZR s * 0)%R with (fp_val a) by ring. apply T.
  - destruct (Z.eqb_spec (fst a) 0) as [E'|E'].
    + rewrite (fst_0_val a E'). replace (fp_val (s * fst b, snd b)) with (0 + IZR s * fp_val b)%R; [apply T|].
      unfold fp_val. cbn [fst snd]. rewrite mult_IZR. ring.
    + set (e := Z.min (snd a) (snd b)).
      assert (V : fp_val (fst a * 2 ^ (snd a - e) + s * (fst b * 2 ^ (snd b - e)), e) = (fp_val a + IZR s * fp_val b)%R).
      { transitivity (Rplus (fp_val (fst a * 2 ^ (snd a - e), e)) (Rmult (IZR s) (fp_val (fst b * 2 ^ (snd b - e), e)))).
        - unfold fp_val. cbn [fst snd]. rewrite plus_IZR, (mult_IZR s). ring.
        - rewrite !fp_val_scaled by lia. replace (e + (snd a - e)) with (snd a) by lia. replace (e + (snd b - e)) with (snd b) by lia.
          destruct a, b. reflexivity. }
      rewrite <- V. apply fp_norm_err, Hp.
Qed.
Lemma fp_plus_0_r p s a b : fp_val b = 0%R -> fp_val (fp_plus p s a b) = fp_val a.
Proof. intros H. apply fp_val_0 in H. unfold fp_plus. rewrite H. reflexivity. Qed.
Lemma fp_plus_0_l p s a b : fp_val a = 0%R -> fp_val (fp_plus p s a b) = (IZR s * fp_val b)%R.
Proof.
  intros H. pose proof H as H'. apply fp_val_0 in H. unfold fp_plus. destruct (Z.eqb_spec (fst b) 0) as [E|E].
  - rewrite H', (fst_0_val b E). ring.
  - rewrite H. cbn [Z.eqb]. unfold fp_val. cbn [fst snd]. rewrite mult_IZR. ring.
Qed.

Definition fp_arith (p : positive) : flarith.
Proof.
  refine (mkFlarith (fp_ops (Zpos p)) fp_val (/ powerRZ 2 (Zpos p - 1)) 0 _ _ _ _ _ _ _ _ _ _); cbn.
  - left. apply Rinv_0_lt_compat, pow2_pos.
  - lra.
  - unfold fp_val. cbn. ring.
  - intros a b. pose proof (fp_plus_val (Zpos p) 1 a b ltac:(lia)) as H. rewrite Rmult_1_l in H. exact H.
  - intros a b H. rewrite (fp_plus_0_l _ _ a b H). ring.
  - intros a b H. apply (fp_plus_0_r _ _ a b H).
  - intros a b. pose proof (fp_plus_val (Zpos p) (-1) a b ltac:(lia)) as H. replace (fp_val a + -1 * fp_val b)%R with (fp_val a - fp_val b)%R in H by ring. exact H.
  - intros a b H. rewrite (fp_plus_0_l _ _ a b H). ring.
  - intros a b H. apply (fp_plus_0_r _ _ a b H).
  - intros a b. rewrite Rplus_0_r. unfold fp_mul.
    assert (V : fp_val (fst a * fst b, snd a + snd b) = (fp_val a * fp_val b)%R).
    { unfold fp_val. cbn [fst snd]. rewrite mult_IZR, powerRZ_add by lra. ring. }
    rewrite <- V. apply fp_norm_err. lia.
Defined.
