(** Residuals of the built-in tables, computed on the integer mantissas. *)
From Verif Require Import Base BaseLemmas CConv Spec Instances Lengths Dwt DwtProofs FilterSpec Filters FiltersProofs FiltersFacts PRError Tables.
From Coq Require Import QArith Qcanon Qcabs.
Open Scope Z_scope.

Lemma zlen_dtab t : zlen (dtab t) = zlen (snd t).
Proof. apply zlen_map. Qed.

Lemma map_zlen_dtab l : map zlen (map dtab l) = map (fun t => zlen (snd t)) l.
Proof. rewrite map_map. apply map_ext. intros. apply zlen_dtab. Qed.

Lemma builtin_ok : tables_ok builtin.
Proof.
  unfold tables_ok, builtin. cbn [t_db t_sym t_coif t_bior t_dmey]. rewrite !map_zlen_dtab, zlen_dtab, map_map.
  rewrite (map_ext _ (map (fun t => zlen (snd t)))) by (intros; apply map_zlen_dtab).
  repeat split; vm_compute; reflexivity.
Qed.

(** * Integer residuals *)
Definition zcorr (a b : list Zring) (u : Z) : Z := @corr Zring a b u.
Definition zres (a b : list Zring) (D : Z) : Z :=
  @sumZ Zring (- (zlen a / 2)) (zlen a / 2) (fun k => Z.abs (zcorr a b (2 * k) - (if k =? 0 then D else 0))).

Definition kE (E : positive) : R := dec E 1.
Lemma dec_rz E z : (dec E z : R) = kE E [*] rz z.
Proof.
  rewrite rz_Qc. unfold kE, dec. cbn [rmul Qcring]. apply Qc_is_canon. unfold Qcmult. cbn [this Q2Qc].
  rewrite !Qred_correct. unfold Qeq, Qmult, inject_Z. cbn [Qnum Qden]. lia.
Qed.

Lemma dec_0 E : (dec E 0 : R) = r0.
Proof. rewrite dec_rz, rz_0. ring. Qed.

Lemma kE_one E : (kE E [*] rz (10 ^ Zpos E) : R) = r1.
Proof.
  rewrite rz_Qc. unfold kE, dec. cbn [rmul r1 Qcring]. apply Qc_is_canon. unfold Qcmult. cbn [this Q2Qc].
  rewrite !Qred_correct. unfold Qeq, Qmult, inject_Z. cbn [Qnum Qden]. rewrite Pos.mul_1_r, Pos2Z.inj_pow. lia.
Qed.

Lemma kE_nonneg E : r0 [<=] kE E.
Proof. unfold kE, dec, rle, Qcle. cbn [r0 R Qcring this Q2Qc]. rewrite !Qred_correct. unfold Qle. cbn. lia. Qed.

Lemma kE_add E E' : kE (E + E') = kE E [*] kE E'.
Proof.
  unfold kE, dec. cbn [rmul Qcring]. apply Qc_is_canon. unfold Qcmult. cbn [this Q2Qc].
  rewrite !Qred_correct. unfold Qeq, Qmult. cbn [Qnum Qden]. rewrite !Pos2Z.inj_mul, !Pos2Z.inj_pow, Pos2Z.inj_add, Z.pow_add_r by lia. lia.
Qed.

Lemma dec_mul E E' a b : (dec E a [*] dec E' b : R) = dec (E + E') (a * b).
Proof. rewrite !dec_rz, kE_add, rz_mul. ring. Qed.

Lemma rz_sumZ a b (f : Z -> Zring) : (rz (@sumZ Zring a b f) : R) = sumZ a b (fun t => rz (f t)).
Proof.
  unfold sumZ. generalize (Z.to_nat (b - a)). induction n as [|n IH]; cbn [sumn]; [apply rz_0|].
  rewrite <- IH. apply (rz_add R).
Qed.

Lemma gz_dec E (z : list Zring) i : gz (map (dec E) z) i = (kE E [*] rz (gz z i : Zring) : R).
Proof. rewrite (@gz_map Zring R) by apply dec_0. apply dec_rz. Qed.

Lemma corr_dec E E' (za zb : list Zring) u :
  corr (map (dec E) za) (map (dec E') zb) u = (kE E [*] kE E' [*] rz (zcorr za zb u) : R).
Proof.
  unfold zcorr, corr. rewrite zlen_map, rz_sumZ, <- sumZ_scal. apply sumZ_ext. intros n Hn.
  rewrite !gz_dec. change (gz za n [*] gz zb (n + u)) with (gz za n * gz zb (n + u)). rewrite rz_mul. ring.
Qed.

Definition Dz (E E' : positive) : Z := 10 ^ Zpos E * 10 ^ Zpos E'.

Lemma resid_dec E E' (za zb : list Zring) :
  resid_sum (map (dec E) za) (map (dec E') zb) = kE E [*] kE E' [*] rz (zres za zb (Dz E E')).
Proof.
  unfold resid_sum, zres. rewrite zlen_map, rz_sumZ, <- sumZ_scal. apply sumZ_ext. intros k Hk.
  unfold resid. rewrite corr_dec. rewrite <- rz_abs.
  set (c := zcorr za zb (2 * k)).
  assert (HD : (kE E [*] kE E' [*] rz (Dz E E') : R) = r1).
  { unfold Dz. rewrite rz_mul. transitivity ((kE E [*] rz (10 ^ Zpos E)) [*] (kE E' [*] rz (10 ^ Zpos E')) : R); [ring|].
    rewrite !kE_one. ring. }
  transitivity (qabs (kE E [*] kE E' [*] rz (c - (if k =? 0 then Dz E E' else 0)))).
  - f_equal. rewrite rz_sub. destruct (k =? 0).
    + rewrite <- HD. ring.
    + rewrite rz_0. ring.
  - transitivity (qabs (kE E [*] kE E') [*] qabs (rz (c - (if k =? 0 then Dz E E' else 0)) : R)).
    + apply Qcabs_Qcmult.
    + f_equal. transitivity (qabs (kE E) [*] qabs (kE E')); [apply Qcabs_Qcmult|].
      rewrite !qabs_pos by apply kE_nonneg. reflexivity.
Qed.

(** The same sums by list traversal, for evaluation. *)
Fixpoint dotl (a b : list Z) : Z :=
  match a, b with x :: a', y :: b' => x * y + dotl a' b' | _, _ => 0 end.
Definition fcorr (a b : list Z) (u : Z) : Z :=
  if 0 <=? u then dotl a (skipn (Z.to_nat u) b) else dotl (skipn (Z.to_nat (- u)) a) b.
Definition fres (a b : list Z) (D : Z) : Z :=
  @sumZ Zring (- (zlen a / 2)) (zlen a / 2) (fun k => Z.abs (fcorr a b (2 * k) - (if k =? 0 then D else 0))).

Lemma dotl_spec (a b : list Zring) : dotl a b = @sumZ Zring 0 (zlen a) (fun n => gz a n [*] gz b n).
Proof.
  revert b. induction a as [|x a IH]; intros b; [reflexivity|].
  pose proof (zlen_nonneg a). rewrite zlen_cons, sumZ_first by lia.
  destruct b as [|y b].
  - cbn [dotl]. rewrite (sumZ_zero Zring) by (intros; rewrite (gz_big (C := Zring) []) by (unfold zlen; cbn [length]; lia); apply Z.mul_0_r).
    rewrite (gz_big (C := Zring) []) by (unfold zlen; cbn [length]; lia). cbn. lia.
  - cbn [dotl]. rewrite IH. rewrite !(gz_cons (C := Zring)), Z.eqb_refl.
    change (x * y + ?r) with (@radd Zring (@rmul Zring x y) r). f_equal.
    rewrite (sumZ_shift Zring 0 (zlen a) 1). apply (sumZ_ext Zring). intros t Ht.
    rewrite !(gz_cons (C := Zring)). destruct (Z.eqb_spec t 0) as [Et|_]; [lia|]. reflexivity.
Qed.

Lemma dotl_spec_n (a b : list Zring) n : zlen a = n -> dotl a b = @sumZ Zring 0 n (fun n => gz a n [*] gz b n).
Proof. intros <-. apply dotl_spec. Qed.

Lemma fcorr_spec (a b : list Zring) u : fcorr a b u = zcorr a b u.
Proof.
  unfold fcorr, zcorr, corr. pose proof (zlen_nonneg a). destruct (Z.leb_spec 0 u) as [Hu|Hu].
  - rewrite dotl_spec. apply (sumZ_ext Zring). intros n Hn. rewrite (gz_skipn (C := Zring)) by lia. rewrite Z2Nat.id by lia. reflexivity.
  - set (s := skipn (Z.to_nat (- u)) a).
    assert (Es : forall t, 0 <= t -> gz (s : list Zring) t = gz a (t - u)).
    { intros t Ht. unfold s. rewrite (gz_skipn (C := Zring)) by lia. f_equal. lia. }
    assert (El : zlen (s : list Zring) = Z.max 0 (zlen a + u)).
    { unfold s, zlen in *. rewrite (@skipn_length Zring). lia. }
    etransitivity; [exact (dotl_spec_n s b _ El)|]. clear El. clearbody s. destruct (Z_le_gt_dec (zlen a) (- u)) as [Hs|Hs].
    + rewrite Z.max_l by lia. rewrite (sumZ_zero Zring 0 (zlen a)).
      * reflexivity.
      * intros t Ht. rewrite (gz_neg (C := Zring) b) by lia. apply Z.mul_0_r.
    + rewrite Z.max_r by lia. rewrite (sumZ_split Zring 0 (- u) (zlen a)) by lia.
      rewrite (sumZ_zero Zring 0 (- u)) by (intros t Ht; rewrite (gz_neg (C := Zring) b) by lia; apply Z.mul_0_r).
      rewrite (sumZ_shift Zring 0 (zlen a + u) (- u)).
      replace (0 + - u) with (- u) by lia. replace (zlen a + u + - u) with (zlen a) by lia.
      change (@r0 Zring [+] ?q) with (0 + q). rewrite Z.add_0_l. apply (sumZ_ext Zring). intros t Ht.
      rewrite Es by lia. f_equal; f_equal; lia.
Qed.

Lemma fres_spec (a b : list Zring) D : fres a b D = zres a b D.
Proof. unfold fres, zres. apply (sumZ_ext Zring). intros. rewrite fcorr_spec. reflexivity. Qed.

(** Bound n/d. *)
Definition ratio (n : Z) (d : positive) : R := Q2Qc (n # d)%Q.
Definition zcheck (E E' : positive) (za zb : list Zring) (n : Z) (d : positive) : bool :=
  let D := Dz E E' in fres za zb D * Zpos d <=? n * D.

Lemma zcheck_ok E E' za zb n d : zcheck E E' za zb n d = true ->
  resid_sum (map (dec E) za) (map (dec E') zb) [<=] ratio n d.
Proof.
  unfold zcheck. cbv zeta. rewrite fres_spec. intros H. apply Z.leb_le in H. rewrite resid_dec. set (S := zres za zb (Dz E E')) in *. clearbody S.
  assert (Eq : (kE E [*] kE E' [*] rz S : R) = Q2Qc (S # (10 ^ E * 10 ^ E')%positive)%Q).
  { rewrite rz_Qc. unfold kE, dec. cbn [rmul Qcring]. apply Qc_is_canon. unfold Qcmult. cbn [this Q2Qc].
    rewrite !Qred_correct. unfold Qeq, Qmult, inject_Z. cbn [Qnum Qden]. lia. }
  rewrite Eq. unfold rle, ratio, Qcle. cbn [this Q2Qc]. rewrite !Qred_correct. unfold Qle. cbn [Qnum Qden].
  unfold Dz in H. rewrite Pos2Z.inj_mul, !Pos2Z.inj_pow. exact H.
Qed.

(** Correlation of a filter with itself: half of the shifts are enough. *)
Definition sres (z : list Z) (m D : Z) : Z :=
  Z.abs (m * fcorr z z 0 - D) + 2 * @sumZ Zring 1 (zlen z / 2) (fun k => Z.abs (m * fcorr z z (2 * k))).

Lemma zcorr_sym (z : list Zring) u : zcorr z z (- u) = zcorr z z u.
Proof.
  assert (P : forall u, 0 <= u -> zcorr z z (- u) = zcorr z z u).
  { clear u. intros u Hu. unfold zcorr, corr. pose proof (zlen_nonneg z).
    destruct (Z_le_gt_dec (zlen z) u) as [Hs|Hs].
    - rewrite !(sumZ_zero Zring); [reflexivity| |]; intros t Ht.
      + rewrite (gz_big (C := Zring) z (t + u)) by lia. apply Z.mul_0_r.
      + rewrite (gz_neg (C := Zring) z (t + - u)) by lia. apply Z.mul_0_r.
    - rewrite (sumZ_split Zring 0 u (zlen z)) by lia.
      rewrite (sumZ_zero Zring 0 u) by (intros t Ht; rewrite (gz_neg (C := Zring) z (t + - u)) by lia; apply Z.mul_0_r).
      rewrite (sumZ_split Zring 0 (zlen z - u) (zlen z)) by lia.
      rewrite (sumZ_zero Zring (zlen z - u) (zlen z)) by (intros t Ht; rewrite (gz_big (C := Zring) z (t + u)) by lia; apply Z.mul_0_r).
      rewrite (sumZ_shift Zring 0 (zlen z - u) u). replace (0 + u) with u by lia. replace (zlen z - u + u) with (zlen z) by lia.
      cbn [radd r0 Zring]. rewrite Z.add_0_l, Z.add_0_r. apply (sumZ_ext Zring). intros t Ht.
      cbn [rmul Zring]. rewrite Z.mul_comm. f_equal; f_equal; lia. }
  destruct (Z_le_gt_dec 0 u) as [H|H]; [apply P; lia|]. replace u with (- - u) at 2 by lia. symmetry. apply P. lia.
Qed.

Lemma sum_even (g : Z -> Zring) n : (forall k, g (- k) = g k) ->
  @sumZ Zring (- (Z.of_nat n + 1)) (Z.of_nat n + 1) g = g (- (Z.of_nat n + 1)) + (g 0 + 2 * @sumZ Zring 1 (Z.of_nat n + 1) g).
Proof.
  intros Hg. induction n as [|n IH].
  - change (Z.of_nat 0 + 1) with 1. rewrite (sumZ_first Zring (-(1)) 1) by lia. change (- (1) + 1) with 0. rewrite (sumZ_first Zring 0 1) by lia.
    rewrite !(sumZ_empty Zring) by lia. cbn [radd r0 Zring]. change (car Zring) with Z in *. lia.
  - rewrite sumZ_first by lia. replace (Z.of_nat (S n) + 1) with (Z.of_nat n + 1 + 1) by lia.
    replace (- (Z.of_nat n + 1 + 1) + 1) with (- (Z.of_nat n + 1)) by lia.
    rewrite (sumZ_last Zring (- (Z.of_nat n + 1)) (Z.of_nat n + 1)), (sumZ_last Zring 1 (Z.of_nat n + 1)) by lia. rewrite IH. rewrite (Hg (Z.of_nat n + 1)). cbn [radd Zring].
    change (car Zring) with Z in *. lia.
Qed.

Lemma zcorr_scale (z : list Zring) s u :
  zcorr (map (fun v => v * s) z) (map (fun v => v * s) z) u = s * s * zcorr z z u.
Proof.
  unfold zcorr, corr. rewrite (@zlen_map Zring Zring). change (s * s * ?q) with (@rmul Zring (s * s) q). rewrite <- sumZ_scal. apply (sumZ_ext Zring).
  intros t Ht. rewrite !(@gz_map Zring Zring) by reflexivity. cbn [rmul Zring]. change (car Zring) with Z in *. lia.
Qed.

Lemma sres_spec (z : list Zring) s D : zlen z mod 2 = 0 -> 2 <= zlen z ->
  zres (map (fun v => v * s) z) (map (fun v => v * s) z) D = sres z (s * s) D.
Proof.
  intros He Hz. unfold zres, sres. rewrite (@zlen_map Zring Zring).
  set (h := zlen z / 2). assert (Hh : zlen z = 2 * h) by (unfold h; pose proof (Z.div_mod (zlen z) 2); lia).
  set (g := fun k => Z.abs (s * s * zcorr z z (2 * k) - (if k =? 0 then D else 0))).
  transitivity (@sumZ Zring (- h) h g).
  { apply (sumZ_ext Zring). intros. unfold g. rewrite zcorr_scale. reflexivity. }
  replace h with (Z.of_nat (Z.to_nat (h - 1)) + 1) by lia.
  rewrite sum_even.
  - replace (Z.of_nat (Z.to_nat (h - 1)) + 1) with h by lia.
    assert (G1 : g (- h) = 0).
    { unfold g. destruct (Z.eqb_spec (- h) 0); [lia|]. replace (zcorr z z (2 * - h)) with 0; [lia|].
      unfold zcorr, corr. symmetry. apply (sumZ_zero Zring). intros t Ht. rewrite (gz_neg (C := Zring) z (t + _)) by lia. apply Z.mul_0_r. }
    rewrite G1. rewrite Z.add_0_l. f_equal.
    + unfold g. cbn [Z.eqb]. rewrite fcorr_spec. reflexivity.
    + f_equal. apply (sumZ_ext Zring). intros t Ht. unfold g. destruct (Z.eqb_spec t 0); [lia|]. rewrite fcorr_spec, Z.sub_0_r. reflexivity.
  - intros k. unfold g. replace (2 * - k) with (- (2 * k)) by lia. rewrite zcorr_sym.
    replace (- k =? 0) with (k =? 0) by (destruct (Z.eqb_spec k 0), (Z.eqb_spec (- k) 0); auto; lia). reflexivity.
Qed.

(** The same with the mantissas cut to their leading bits, for speed: every entry
    is [2 ^ k] times its cut value plus a remainder below [2 ^ k]. *)
Definition cut (k : Z) (z : list Z) : list Z := map (fun v => Z.shiftr v k) z.
Definition sumabs (z : list Z) : Z := fold_right (fun v s => Z.abs v + s) 0 z.

Lemma cut_split k v : 0 <= k -> 0 <= v - 2 ^ k * Z.shiftr v k < 2 ^ k.
Proof.
  intros Hk. rewrite Z.shiftr_div_pow2 by lia. assert (0 < 2 ^ k) by (apply Z.pow_pos_nonneg; lia).
  pose proof (Z.div_mod v (2 ^ k)). pose proof (Z.mod_pos_bound v (2 ^ k)). lia.
Qed.

Lemma sumabs_nonneg z : 0 <= sumabs z.
Proof. induction z as [|v z IH]; cbn [sumabs fold_right]; [lia|]. change (fold_right (fun v s => Z.abs v + s) 0 z) with (sumabs z). lia. Qed.

Lemma cut_term A x y x' y' : 0 < A -> 0 <= x - A * x' < A -> 0 <= y - A * y' < A ->
  Z.abs (x * y - A * A * (x' * y')) <= A * A * (Z.abs x' + Z.abs y' + 1).
Proof.
  intros HA Hx Hy. set (e := x - A * x') in *. set (f := y - A * y') in *.
  replace x with (A * x' + e) by (unfold e; lia). replace y with (A * y' + f) by (unfold f; lia). clearbody e f. clear x y.
  replace ((A * x' + e) * (A * y' + f) - A * A * (x' * y')) with (A * x' * f + A * y' * e + e * f) by lia.
  assert (E1 : Z.abs (A * x' * f) <= A * A * Z.abs x') by (rewrite !Z.abs_mul, (Z.abs_eq A), (Z.abs_eq f) by lia; replace (A * A * Z.abs x') with (A * Z.abs x' * A) by lia; apply Z.mul_le_mono_nonneg_l; [apply Z.mul_nonneg_nonneg|]; lia).
  assert (E2 : Z.abs (A * y' * e) <= A * A * Z.abs y') by (rewrite !Z.abs_mul, (Z.abs_eq A), (Z.abs_eq e) by lia; replace (A * A * Z.abs y') with (A * Z.abs y' * A) by lia; apply Z.mul_le_mono_nonneg_l; [apply Z.mul_nonneg_nonneg|]; lia).
  assert (E3 : 0 <= e * f <= A * A) by nia. replace (A * A * (Z.abs x' + Z.abs y' + 1)) with (A * A * Z.abs x' + A * A * Z.abs y' + A * A) by lia.
  set (p := A * x' * f) in *. set (q := A * y' * e) in *. set (r := e * f) in *. clearbody p q r. lia.
Qed.

Lemma dotl_cut k : 0 <= k -> forall a b,
  Z.abs (dotl a b - 2 ^ k * 2 ^ k * dotl (cut k a) (cut k b)) <= 2 ^ k * 2 ^ k * (sumabs (cut k a) + sumabs (cut k b) + zlen a).
Proof.
  intros Hk. assert (HA : 0 < 2 ^ k) by (apply Z.pow_pos_nonneg; lia).
  assert (P : forall z : list Z, 0 <= zlen z) by (intros; apply zlen_nonneg).
  induction a as [|x a IH]; intros b.
  - cbn [cut map dotl]. pose proof (sumabs_nonneg (cut k b)). rewrite Z.mul_0_r. cbn [Z.sub Z.abs]. apply Z.mul_nonneg_nonneg; [nia|]. change (sumabs []) with 0. cbn [zlen length]. unfold zlen. cbn [length]. lia.
  - destruct b as [|y b].
    + cbn [cut map dotl]. pose proof (sumabs_nonneg (cut k (x :: a))). pose proof (P (x :: a)).
      rewrite Z.mul_0_r. cbn [Z.sub Z.abs]. apply Z.mul_nonneg_nonneg; [nia|]. change (sumabs []) with 0.
      change (Z.shiftr x k :: map (fun v => Z.shiftr v k) a) with (cut k (x :: a)). lia.
    + specialize (IH b). cbn [cut map dotl]. fold (cut k a) (cut k b).
      pose proof (cut_term (2 ^ k) x y _ _ HA (cut_split k x Hk) (cut_split k y Hk)) as T.
      change (sumabs (Z.shiftr x k :: cut k a)) with (Z.abs (Z.shiftr x k) + sumabs (cut k a)).
      change (sumabs (Z.shiftr y k :: cut k b)) with (Z.abs (Z.shiftr y k) + sumabs (cut k b)).
      rewrite zlen_cons.
      set (A2 := 2 ^ k * 2 ^ k) in *. set (d := dotl (cut k a) (cut k b)) in *. set (p := Z.shiftr x k * Z.shiftr y k) in *.
      set (u := Z.abs (Z.shiftr x k)) in *. set (v := Z.abs (Z.shiftr y k)) in *. clearbody A2 d p u v. lia.
Qed.

Lemma sumabs_skipn n z : sumabs (skipn n z) <= sumabs z.
Proof.
  revert n. induction z as [|v z IH]; intros [|n]; cbn [skipn]; try lia.
  specialize (IH n). change (sumabs (v :: z)) with (Z.abs v + sumabs z). lia.
Qed.

Lemma fcorr_cut k z u : 0 <= k -> 0 <= u ->
  Z.abs (fcorr z z u - 2 ^ k * 2 ^ k * fcorr (cut k z) (cut k z) u) <= 2 ^ k * 2 ^ k * (2 * sumabs (cut k z) + zlen z).
Proof.
  intros Hk Hu. unfold fcorr. destruct (Z.leb_spec 0 u); [|lia].
  assert (HA : 0 < 2 ^ k) by (apply Z.pow_pos_nonneg; lia).
  pose proof (dotl_cut k Hk z (skipn (Z.to_nat u) z)) as D. unfold cut in D at 2 4. rewrite <- !skipn_map in D.
  pose proof (sumabs_skipn (Z.to_nat u) (cut k z)) as S1. fold (cut k z) in D.
  set (c := dotl (cut k z) (skipn (Z.to_nat u) (cut k z))) in *. set (c0 := dotl z (skipn (Z.to_nat u) z)) in *.
  set (A2 := 2 ^ k * 2 ^ k) in *. assert (0 < A2) by (unfold A2; nia). clearbody c c0 A2. nia.
Qed.

Lemma sumZ_le_z (f g : Z -> Zring) e a n : (forall t, a <= t < a + Z.of_nat n -> (f t : Z) <= g t + e) ->
  @sumn Zring n f a <= @sumn Zring n g a + Z.of_nat n * e.
Proof.
  induction n as [|n IH]; intros H; cbn [sumn]; [cbn; lia|].
  assert (IH' := IH (fun t Ht => H t ltac:(lia))). specialize (H (a + Z.of_nat n) ltac:(lia)).
  cbn [radd Zring]. change (car Zring) with Z in *. lia.
Qed.

Definition slack (k m : Z) (z : list Z) : Z :=
  zlen z * (m * (2 ^ k * 2 ^ k * (2 * sumabs (cut k z) + zlen z))).

Lemma sres_cut k z m D : 0 <= k -> 0 <= m -> 2 <= zlen z ->
  sres z m D <= sres (cut k z) (m * (2 ^ k * 2 ^ k)) D + slack k m z.
Proof.
  intros Hk Hm Hz. unfold sres. assert (El : zlen (cut k z) = zlen z) by apply zlen_map. rewrite El. clear El.
  set (h := zlen z / 2). assert (Hh : 1 <= h /\ 2 * h <= zlen z) by (unfold h; split; [apply Z.div_le_lower_bound; lia|apply Z.mul_div_le; lia]).
  set (e := m * (2 ^ k * 2 ^ k * (2 * sumabs (cut k z) + zlen z))).
  assert (He : 0 <= e) by (unfold e; pose proof (sumabs_nonneg (cut k z)); assert (0 < 2 ^ k) by (apply Z.pow_pos_nonneg; lia); apply Z.mul_nonneg_nonneg; [lia|]; apply Z.mul_nonneg_nonneg; [nia|lia]).
  assert (P : forall u, 0 <= u -> Z.abs (m * fcorr z z u - m * (2 ^ k * 2 ^ k) * fcorr (cut k z) (cut k z) u) <= e).
  { intros u Hu. pose proof (fcorr_cut k z u Hk Hu) as F. unfold e. set (c := fcorr (cut k z) (cut k z) u) in *. set (c0 := fcorr z z u) in *.
    set (A2 := 2 ^ k * 2 ^ k) in *. clearbody c c0 A2. replace (m * c0 - m * A2 * c) with (m * (c0 - A2 * c)) by lia. rewrite Z.abs_mul, (Z.abs_eq m) by lia. apply Z.mul_le_mono_nonneg_l; auto. }
  assert (P0 := P 0 (Z.le_refl 0)).
  assert (S1 : @sumZ Zring 1 h (fun t => Z.abs (m * fcorr z z (2 * t)))
          <= @sumZ Zring 1 h (fun t => Z.abs (m * (2 ^ k * 2 ^ k) * fcorr (cut k z) (cut k z) (2 * t))) + (h - 1) * e).
  { unfold sumZ. rewrite <- (Z2Nat.id (h - 1)) at 3 by lia.
    apply (sumZ_le_z (fun t => Z.abs (m * fcorr z z (2 * t))) (fun t => Z.abs (m * (2 ^ k * 2 ^ k) * fcorr (cut k z) (cut k z) (2 * t))) e 1).
    intros t Ht. specialize (P (2 * t) ltac:(lia)). lia. }
  change (slack k m z) with (zlen z * e).
  set (s1 := @sumZ Zring 1 h _) in *. set (s2 := @sumZ Zring 1 h _) in S1 |- *. clearbody e s1 s2. 
  set (c := fcorr (cut k z) (cut k z) 0) in *. set (c0 := fcorr z z 0) in *. clearbody c c0 h. set (q := m * (2 ^ k * 2 ^ k)) in *. clearbody q.
  change (car Zring) with Z in *. nia.
Qed.

Definition scheck (t : positive * list Z) (s : positive * Z) (n : Z) (d : positive) : bool :=
  let E := (fst t + fst s)%positive in let D := Dz E E in
  (zlen (snd t) mod 2 =? 0) && (2 <=? zlen (snd t)) && (sres (snd t) (snd s * snd s) D * Zpos d <=? n * D).
Definition tscale (t : positive * list Z) (s : positive * Z) : positive * list Z :=
  ((fst t + fst s)%positive, map (fun z => z * snd s) (snd t)).
Lemma dtab_scale t s : map (fun v : R => v [*] dec (fst s) (snd s)) (dtab t) = dtab (tscale t s).
Proof. unfold dtab, tscale. cbn [fst snd]. rewrite !map_map. apply map_ext. intros. apply dec_mul. Qed.
Lemma scheck_ok t s n d : scheck t s n d = true -> resid_sum (dtab (tscale t s)) (dtab (tscale t s)) [<=] ratio n d.
Proof.
  unfold scheck. cbv zeta. rewrite !andb_true_iff, Z.eqb_eq, Z.leb_le. intros [[H1 H2] H3].
  apply (zcheck_ok (fst t + fst s) (fst t + fst s)). unfold zcheck. cbv zeta. rewrite fres_spec.
  pose proof (sres_spec (snd t) (snd s) (Dz (fst t + fst s) (fst t + fst s)) H1 H2) as E.
  apply Z.leb_le. apply Z.leb_le in H3. unfold tscale. cbn [fst snd]. etransitivity; [|exact H3].
  apply Z.eq_le_incl. f_equal. exact E.
Qed.

Definition acheck (t : positive * list Z) (n : Z) (d : positive) : bool :=
  let D := Dz (fst t) (fst t) in
  (zlen (snd t) mod 2 =? 0) && (2 <=? zlen (snd t)) && (sres (snd t) 1 D * Zpos d <=? n * D).
Lemma acheck_ok t n d : acheck t n d = true -> resid_sum (dtab t) (dtab t) [<=] ratio n d.
Proof.
  unfold acheck. cbv zeta. rewrite !andb_true_iff, Z.eqb_eq, Z.leb_le. intros [[H1 H2] H3].
  apply (zcheck_ok (fst t) (fst t)). unfold zcheck. cbv zeta. rewrite fres_spec.
  pose proof (sres_spec (snd t) 1 (Dz (fst t) (fst t)) H1 H2) as E.
  assert (Em : @map Z Z (fun z => z * 1) (snd t) = snd t).
  { etransitivity; [|apply map_id]. apply map_ext. intros. apply Z.mul_1_r. }
  change (zres (@map Z Z (fun z => z * 1) (snd t)) (@map Z Z (fun z => z * 1) (snd t)) (Dz (fst t) (fst t)) = sres (snd t) (1 * 1) (Dz (fst t) (fst t))) in E.
  rewrite Em in E. apply Z.leb_le. apply Z.leb_le in H3. etransitivity; [|exact H3].
  apply Z.eq_le_incl. f_equal. exact E.
Qed.

(** The checks on cut mantissas. *)
Definition ccheck (k : Z) (t : positive * list Z) (s : positive * Z) (n : Z) (d : positive) : bool :=
  let E := (fst t + fst s)%positive in let D := Dz E E in let m := snd s * snd s in
  (0 <=? k) && (zlen (snd t) mod 2 =? 0) && (2 <=? zlen (snd t)) &&
  ((sres (cut k (snd t)) (m * (2 ^ k * 2 ^ k)) D + slack k m (snd t)) * Zpos d <=? n * D).
Lemma ccheck_ok k t s n d : ccheck k t s n d = true -> scheck t s n d = true.
Proof.
  unfold ccheck, scheck. cbv zeta. rewrite !andb_true_iff, Z.eqb_eq, !Z.leb_le. intros [[[H0 H1] H2] H3]. repeat split; auto.
  etransitivity; [|exact H3]. apply Z.mul_le_mono_nonneg_r; [lia|]. apply sres_cut; auto. nia.
Qed.
Definition dcheck (k : Z) (t : positive * list Z) (n : Z) (d : positive) : bool :=
  let D := Dz (fst t) (fst t) in
  (0 <=? k) && (zlen (snd t) mod 2 =? 0) && (2 <=? zlen (snd t)) &&
  ((sres (cut k (snd t)) (1 * (2 ^ k * 2 ^ k)) D + slack k 1 (snd t)) * Zpos d <=? n * D).
Lemma dcheck_ok k t n d : dcheck k t n d = true -> acheck t n d = true.
Proof.
  unfold dcheck, acheck. cbv zeta. rewrite !andb_true_iff, Z.eqb_eq, !Z.leb_le. intros [[[H0 H1] H2] H3]. repeat split; auto.
  etransitivity; [|exact H3]. apply Z.mul_le_mono_nonneg_r; [lia|]. apply sres_cut; auto. lia.
Qed.
Lemma forallb_imp {A} (f g : A -> bool) l : (forall x, f x = true -> g x = true) -> forallb f l = true -> forallb g l = true.
Proof. rewrite !forallb_forall. auto. Qed.

Definition tcheck (t t' : positive * list Z) (n : Z) (d : positive) : bool := zcheck (fst t) (fst t') (snd t) (snd t') n d.
Lemma tcheck_ok t t' n d : tcheck t t' n d = true -> resid_sum (dtab t) (dtab t') [<=] ratio n d.
Proof. apply zcheck_ok. Qed.

Lemma nthZ_map (l : list (positive * list Z)) i : 0 <= i < zlen l -> nthZ (map dtab l) i = dtab (nth (Z.to_nat i) l (1%positive, [])).
Proof.
  intros H. unfold nthZ. rewrite (nth_indep _ [] (dtab (1%positive, []))) by (rewrite map_length; unfold zlen in H; lia).
  apply map_nth.
Qed.

Lemma nth_forallb {A} (f : A -> bool) l i d : forallb f l = true -> (i < length l)%nat -> f (nth i l d) = true.
Proof. rewrite forallb_forall. intros H Hi. apply H. apply nth_In. auto. Qed.

(** The bounds. *)
Definition bound_db : R := ratio 1 (10 ^ 17).
Definition bound_sym : R := ratio 3 (10 ^ 11).
Definition bound_coif : R := ratio 14 (10 ^ 17).
Definition bound_bior : R := ratio 21 (10 ^ 13).
Definition bound_dmey : R := ratio 67 (10 ^ 4).

(** Number of bits to drop to keep about [b]. *)
Definition drop (b : Z) (t : positive * list Z) : Z := Z.max 0 (Z.log2 (10 ^ Zpos (fst t)) - b).

Lemma db_check : forallb (fun t => acheck t 1 (10 ^ 17)) db_list = true.
Proof. apply (forallb_imp (fun t => dcheck (drop 68 t) t 1 (10 ^ 17))); [intros t; apply dcheck_ok|]. vm_compute. reflexivity. Qed.
Lemma sym_check : forallb (fun t => acheck t 3 (10 ^ 11)) sym_list = true.
Proof. apply (forallb_imp (fun t => dcheck (drop 48 t) t 3 (10 ^ 11))); [intros t; apply dcheck_ok|]. vm_compute. reflexivity. Qed.
Lemma dmey_check : acheck dmey_z 67 (10 ^ 4) = true.
Proof. apply (dcheck_ok (drop 24 dmey_z)). vm_compute. reflexivity. Qed.

Lemma coif_check : forallb (fun t => scheck t sqrt2_z 14 (10 ^ 17)) coif_list = true.
Proof. apply (forallb_imp (fun t => ccheck (drop 68 t) t sqrt2_z 14 (10 ^ 17))); [intros t; apply ccheck_ok|]. vm_compute. reflexivity. Qed.

Definition zwindow (t : positive * list Z) (off F : Z) : positive * list Z := (fst t, @window Zring (snd t) off F).
Lemma dtab_window t off F : window (dtab t) off F = dtab (zwindow t off F).
Proof.
  unfold window, dtab, zwindow. cbn [fst snd]. unfold tab, window, tab. rewrite map_map. apply map_ext. intros k.
  rewrite (@gz_map Zring R) by apply dec_0. reflexivity.
Qed.
Definition bior_z (q : Z * Z * Z * Z) : (positive * list Z) * (positive * list Z) :=
  let '(row, col, off, F) := q in
  let r := nth (Z.to_nat row) bior_table [] in
  (zwindow (nth 0 r (1%positive, [])) off F, nth (Z.to_nat col) r (1%positive, [])).
Lemma bior_check : forallb (fun '(_, q) => let '(a, b) := bior_z q in tcheck a b 21 (10 ^ 13) && tcheck b a 21 (10 ^ 13)) bior_list = true.
Proof. vm_compute. reflexivity. Qed.
