(** Sums, moments, inner products and integer translates of the cascade
    approximations, and their consequences for wavefun. *)
From Coq Require Import QArith.
From Verif Require Import Base BaseLemmas CConv Spec Lengths Dwt DwtProofs Swt Multilevel MultilevelProofs.
From Verif Require Import FilterSpec Filters FiltersProofs FiltersFacts Cwt CwtProofs Wavefun WavefunSpec WavefunProofs.
Open Scope Z_scope.

Section WF.
Variable C : CRing.
Add Ring Cring_ring_wff : (rth C).
Notation "a [+] b" := (radd a b). Notation "a [*] b" := (rmul a b).

Lemma pow2_pos n : 1 <= 2 ^ Z.of_nat n.
Proof. pose proof (Z.pow_pos_nonneg 2 (Z.of_nat n)). lia. Qed.
Lemma pow2_S n : 2 ^ Z.of_nat (S n) = 2 * 2 ^ Z.of_nat n.
Proof. rewrite Nat2Z.inj_succ, Z.pow_succ_r by lia. reflexivity. Qed.

(** Support. *)
Definition supp (F : Z) (n : nat) : Z := (F - 1) * (2 ^ Z.of_nat n - 1) + 1.
Lemma supp_S F n : supp F (S n) = (F - 1) * 2 ^ Z.of_nat n + supp F n.
Proof. unfold supp. rewrite pow2_S. ring. Qed.
Lemma supp_pos F n : 1 <= F -> 1 <= supp F n.
Proof. intros H. unfold supp. pose proof (pow2_pos n). nia. Qed.

Lemma sc_support (h : list C) n : 1 <= zlen h -> forall i, ~ (0 <= i < supp (zlen h) n) -> sc C h n i = r0.
Proof.
  intros Hh. induction n as [|n IH]; intros i Hi; cbn [sc].
  - unfold pulse. destruct (Z.eqb_spec i 0) as [->|]; [|reflexivity]. exfalso. apply Hi. unfold supp. change (2 ^ Z.of_nat 0) with 1. lia.
  - apply sumZ_zero. intros k Hk. rewrite IH; [ring|]. intros H. apply Hi. rewrite supp_S. pose proof (pow2_pos n). nia.
Qed.

Lemma scw_support (g h : list C) n : zlen g = zlen h -> 1 <= zlen h -> forall i, ~ (0 <= i < supp (zlen h) (S n)) -> scw C g h n i = r0.
Proof.
  intros Hg Hh i Hi. unfold scw. apply sumZ_zero. intros k Hk. rewrite sc_support; [ring|lia|]. intros H. apply Hi.
  rewrite supp_S. pose proof (pow2_pos n). nia.
Qed.

Lemma sc_S (h : list C) n i : sc C h (S n) i = scw C h h n i.
Proof. reflexivity. Qed.

(** The pairing of a function with a two-scale combination. *)
Lemma pairing (g h : list C) n (f : Z -> C) lo hi :
  zlen g = zlen h -> 1 <= zlen h -> lo <= 0 -> supp (zlen h) (S n) <= hi ->
  sumZ lo hi (fun i => f i [*] scw C g h n i) =
  sumZ 0 (zlen g) (fun k => gz g k [*] sumZ 0 (supp (zlen h) n) (fun j => f (j + 2 ^ Z.of_nat n * k) [*] sc C h n j)).
Proof.
  intros Hg Hh Hlo Hhi. unfold scw. set (p := 2 ^ Z.of_nat n). pose proof (pow2_pos n) as Hp. fold p in Hp.
  rewrite supp_S in Hhi. fold p in Hhi.
  rewrite (sumZ_ext _ lo hi _ (fun i => sumZ 0 (zlen g) (fun k => gz g k [*] (f i [*] sc C h n (i - p * k))))).
  2:{ intros i _. rewrite <- sumZ_scal. apply sumZ_ext. intros; ring. }
  rewrite sumZ_swap. apply sumZ_ext. intros k Hk. rewrite sumZ_scal. f_equal.
  rewrite (sumZ_shift _ 0 (supp (zlen h) n) (p * k)).
  rewrite (sumZ_widen _ (0 + p * k) (supp (zlen h) n + p * k) lo hi).
  - apply sumZ_ext. intros t _. f_equal. f_equal. lia.
  - nia.
  - nia.
  - intros t Ht Hne. rewrite sc_support; [ring|lia|lia].
Qed.

(** Total mass. *)
Lemma sc_sum (h : list C) n : 1 <= zlen h -> sumZ 0 (supp (zlen h) n) (sc C h n) = cpow (sumZ 0 (zlen h) (gz h)) n.
Proof.
  intros Hh. induction n as [|n IH].
  - cbn [sc cpow]. rewrite (sumZ_single _ 0 (supp (zlen h) 0) 0).
    + reflexivity.
    + pose proof (supp_pos (zlen h) 0). lia.
    + intros t Ht Hne. unfold pulse. destruct (Z.eqb_spec t 0); [lia|reflexivity].
  - rewrite (sumZ_ext _ 0 (supp (zlen h) (S n)) _ (fun i => r1 [*] scw C h h n i)) by (intros; rewrite sc_S; ring).
    rewrite pairing by lia. cbn [cpow]. rewrite <- sumZ_scal_r. apply sumZ_ext. intros k Hk. f_equal.
    rewrite <- IH. apply sumZ_ext. intros; ring.
Qed.

Lemma scw_sum (g h : list C) n : zlen g = zlen h -> 1 <= zlen h ->
  sumZ 0 (supp (zlen h) (S n)) (scw C g h n) = sumZ 0 (zlen g) (gz g) [*] cpow (sumZ 0 (zlen h) (gz h)) n.
Proof.
  intros Hg Hh. rewrite (sumZ_ext _ 0 (supp (zlen h) (S n)) _ (fun i => r1 [*] scw C g h n i)) by (intros; ring).
  rewrite pairing by lia. rewrite <- sumZ_scal_r. apply sumZ_ext. intros k Hk. f_equal.
  rewrite <- sc_sum by lia. apply sumZ_ext. intros; ring.
Qed.

(** Inner products. *)
Lemma sc_dual (h h' : list C) n : zlen h' = zlen h -> 1 <= zlen h -> even_shift_dual h h' ->
  forall k, sumZ 0 (supp (zlen h) n) (fun i => sc C h' n (i + 2 ^ Z.of_nat n * k) [*] sc C h n i) = if k =? 0 then r1 else r0.
Proof.
  intros Hh' Hh Hd.
  assert (Step : forall n, (forall k, sumZ 0 (supp (zlen h) n) (fun i => sc C h' n (i + 2 ^ Z.of_nat n * k) [*] sc C h n i) = if k =? 0 then r1 else r0) ->
    forall g g', zlen g = zlen h -> zlen g' = zlen h -> forall k,
    sumZ 0 (supp (zlen h) (S n)) (fun i => scw C g' h' n (i + 2 ^ Z.of_nat (S n) * k) [*] scw C g h n i) = corr g g' (2 * k)).
  { clear n. intros n IH g g' Hg Hg' k. rewrite (pairing g h n (fun i => scw C g' h' n (i + 2 ^ Z.of_nat (S n) * k))) by lia.
    unfold corr. apply sumZ_ext. intros a Ha. f_equal.
    rewrite pow2_S. set (p := 2 ^ Z.of_nat n).
    rewrite (sumZ_ext _ 0 (supp (zlen h) n) _ (fun j => sumZ 0 (zlen g') (fun m => gz g' m [*] (sc C h' n (j + p * (a + 2 * k - m)) [*] sc C h n j)))).
    2:{ intros j _. unfold scw. fold p. rewrite <- sumZ_scal_r. apply sumZ_ext. intros m _.
        replace (j + p * a + 2 * p * k - p * m) with (j + p * (a + 2 * k - m)) by ring. ring. }
    rewrite sumZ_swap.
    rewrite (sumZ_ext _ 0 (zlen g') _ (fun m => gz g' m [*] (if a + 2 * k - m =? 0 then r1 else r0))).
    2:{ intros m _. rewrite sumZ_scal. f_equal. apply IH. }
    destruct (Z.leb_spec 0 (a + 2 * k)) as [H1|H1].
    2:{ rewrite (gz_neg g') by lia. apply sumZ_zero. intros m Hm. destruct (Z.eqb_spec (a + 2 * k - m) 0); [lia|ring]. }
    destruct (Z.ltb_spec (a + 2 * k) (zlen g')) as [H2|H2].
    2:{ rewrite (gz_big g') by lia. apply sumZ_zero. intros m Hm. destruct (Z.eqb_spec (a + 2 * k - m) 0); [lia|ring]. }
    rewrite (sumZ_single _ 0 (zlen g') (a + 2 * k)); [|lia|].
    - replace (a + 2 * k - (a + 2 * k) =? 0) with true by lia. ring.
    - intros m Hm Hne. destruct (Z.eqb_spec (a + 2 * k - m) 0); [lia|ring]. }
  induction n as [|n IH]; intros k.
  - cbn [sc]. change (2 ^ Z.of_nat 0) with 1. rewrite (sumZ_single _ 0 (supp (zlen h) 0) 0).
    + unfold pulse. replace (0 + 1 * k) with k by lia. change (0 =? 0) with true. cbv iota. ring.
    + pose proof (supp_pos (zlen h) 0). lia.
    + intros t Ht Hne. unfold pulse. destruct (Z.eqb_spec t 0); [lia|ring].
  - specialize (Step n IH h h' eq_refl Hh' k). rewrite <- (sumZ_ext _ 0 (supp (zlen h) (S n)) (fun i => sc C h' (S n) (i + 2 ^ Z.of_nat (S n) * k) [*] sc C h (S n) i)) in Step
      by (intros; rewrite !sc_S; reflexivity).
    rewrite Step. rewrite Hd by (rewrite Z.mul_comm; apply Z_mod_mult).
    destruct (Z.eqb_spec k 0); destruct (Z.eqb_spec (2 * k) 0); try reflexivity; lia.
Qed.

Lemma scw_dual (h h' g g' : list C) n : zlen h' = zlen h -> zlen g = zlen h -> zlen g' = zlen h -> 1 <= zlen h -> even_shift_dual h h' ->
  forall k, sumZ 0 (supp (zlen h) (S n)) (fun i => scw C g' h' n (i + 2 ^ Z.of_nat (S n) * k) [*] scw C g h n i) = corr g g' (2 * k).
Proof.
  intros Hh' Hg Hg' Hh Hd k. rewrite (pairing g h n (fun i => scw C g' h' n (i + 2 ^ Z.of_nat (S n) * k))) by lia.
  unfold corr. apply sumZ_ext. intros a Ha. f_equal.
  rewrite pow2_S. set (p := 2 ^ Z.of_nat n).
  rewrite (sumZ_ext _ 0 (supp (zlen h) n) _ (fun j => sumZ 0 (zlen g') (fun m => gz g' m [*] (sc C h' n (j + p * (a + 2 * k - m)) [*] sc C h n j)))).
  2:{ intros j _. unfold scw. fold p. rewrite <- sumZ_scal_r. apply sumZ_ext. intros m _.
      replace (j + p * a + 2 * p * k - p * m) with (j + p * (a + 2 * k - m)) by ring. ring. }
  rewrite sumZ_swap.
  rewrite (sumZ_ext _ 0 (zlen g') _ (fun m => gz g' m [*] (if a + 2 * k - m =? 0 then r1 else r0))).
  2:{ intros m _. rewrite sumZ_scal. f_equal. apply sc_dual; auto. }
  destruct (Z.leb_spec 0 (a + 2 * k)) as [H1|H1].
  2:{ rewrite (gz_neg g') by lia. apply sumZ_zero. intros m Hm. destruct (Z.eqb_spec (a + 2 * k - m) 0); [lia|ring]. }
  destruct (Z.ltb_spec (a + 2 * k) (zlen g')) as [H2|H2].
  2:{ rewrite (gz_big g') by lia. apply sumZ_zero. intros m Hm. destruct (Z.eqb_spec (a + 2 * k - m) 0); [lia|ring]. }
  rewrite (sumZ_single _ 0 (zlen g') (a + 2 * k)); [|lia|].
  - replace (a + 2 * k - (a + 2 * k) =? 0) with true by lia. ring.
  - intros m Hm Hne. destruct (Z.eqb_spec (a + 2 * k - m) 0); [lia|ring].
Qed.

(** Integer translates. *)
Lemma sc_translates (h : list C) c n : 1 <= zlen h -> even_part h = c -> odd_part h = c ->
  forall i lo hi, i + 2 ^ Z.of_nat n * lo <= 0 -> supp (zlen h) n <= i + 2 ^ Z.of_nat n * hi ->
  sumZ lo hi (fun k => sc C h n (i + 2 ^ Z.of_nat n * k)) = cpow c n.
Proof.
  intros Hh He Ho. induction n as [|n IH]; intros i lo hi Hlo Hhi.
  - cbn [sc cpow]. change (2 ^ Z.of_nat 0) with 1 in *. unfold supp in Hhi. change (2 ^ Z.of_nat 0) with 1 in Hhi.
    rewrite (sumZ_single _ lo hi (- i)); [|lia|].
    + unfold pulse. replace (i + 1 * - i =? 0) with true by lia. reflexivity.
    + intros t Ht Hne. unfold pulse. destruct (Z.eqb_spec (i + 1 * t) 0); [lia|reflexivity].
  - rewrite pow2_S in *. rewrite supp_S in Hhi. set (p := 2 ^ Z.of_nat n) in *. pose proof (pow2_pos n) as Hp. fold p in Hp.
    set (F := zlen h) in *. set (S' := supp F n) in *.
    assert (HS : 1 <= S') by (apply supp_pos; lia).
    set (f := fun r => sc C h n (i + p * r)).
    assert (Hf : forall r, i + p * r < 0 \/ S' <= i + p * r -> f r = r0) by (intros r Hr; apply sc_support; fold F; fold S'; lia).
    set (M := Z.abs i + S' + Z.abs lo + Z.abs hi + F + 2).
    assert (HV : forall m, 0 <= m < F -> sumZ lo hi (fun k => f (2 * k - m)) = sumZ (- M) M (fun k => f (2 * k - m mod 2))).
    { intros m Hm. rewrite (sumZ_shift _ lo hi (- (m / 2))).
      rewrite (sumZ_widen _ (lo + - (m / 2)) (hi + - (m / 2)) (- M) M).
      - apply sumZ_ext. intros t _. f_equal. lia.
      - lia.
      - lia.
      - intros t Ht Hne. apply Hf.
        destruct (Z.ltb_spec t (lo + - (m / 2))) as [H|H].
        + left. assert (2 * (t - - (m / 2)) - m <= 2 * lo - 2) by lia. nia.
        + right. assert (2 * hi - m <= 2 * (t - - (m / 2)) - m) by lia. nia. }
    transitivity (sumZ 0 F (fun m => gz h m [*] sumZ (- M) M (fun k => f (2 * k - m mod 2)))).
    { rewrite (sumZ_ext _ lo hi _ (fun k => sumZ 0 F (fun m => gz h m [*] f (2 * k - m)))).
      2:{ intros k _. cbn [sc]. fold p. fold F. apply sumZ_ext. intros m _. unfold f. f_equal. f_equal. ring. }
      rewrite sumZ_swap. apply sumZ_ext. intros m Hm. rewrite sumZ_scal. f_equal. apply HV; lia. }
    set (V0 := sumZ (- M) M (fun k => f (2 * k))). set (V1 := sumZ (- M) M (fun k => f (2 * k - 1))).
    transitivity (even_part h [*] V0 [+] odd_part h [*] V1).
    { unfold even_part, odd_part. fold F. rewrite <- !sumZ_scal_r, <- sumZ_add. apply sumZ_ext. intros m Hm.
      assert (Hm2 : m mod 2 = 0 \/ m mod 2 = 1) by lia. destruct Hm2 as [E|E]; rewrite E.
      - change (0 =? 0) with true. change (0 =? 1) with false. rewrite (sumZ_ext _ (- M) M _ (fun k => f (2 * k))) by (intros; f_equal; lia). cbv iota. fold V0. ring.
      - change (1 =? 0) with false. change (1 =? 1) with true. cbv iota. fold V1. ring. }
    rewrite He, Ho. cbn [cpow].
    replace (c [*] V0 [+] c [*] V1) with (c [*] (V0 [+] V1)) by ring. f_equal.
    rewrite <- (IH i (- (2 * M) - 1) (2 * M - 1)).
    + fold p. change (fun k => sc C h n (i + p * k)) with f.
      rewrite (sumZ_shift _ (- (2 * M) - 1) (2 * M - 1) (2 * M + 1)).
      replace (- (2 * M) - 1 + (2 * M + 1)) with 0 by lia. replace (2 * M - 1 + (2 * M + 1)) with (2 * (2 * M)) by lia.
      rewrite sumZ_even_odd by lia. unfold V0, V1.
      rewrite (sumZ_shift _ (- M) M M (fun k => f (2 * k))). rewrite (sumZ_shift _ (- M) M M (fun k => f (2 * k - 1))).
      replace (- M + M) with 0 by lia. replace (M + M) with (2 * M) by lia.
      rewrite (sumZ_ext _ 0 (2 * M) (fun t => f (2 * t - (2 * M + 1))) (fun t => f (2 * (t - M) - 1))) by (intros; f_equal; lia).
      rewrite (sumZ_ext _ 0 (2 * M) (fun t => f (2 * t + 1 - (2 * M + 1))) (fun t => f (2 * (t - M)))) by (intros; f_equal; lia).
      ring.
    + fold p. unfold M. nia.
    + fold p. fold S'. unfold M. nia.
Qed.

(** Moments. *)
Lemma rz_powr_add (g : list C) (m : nat) : (forall r, (r <= m)%nat -> moment g r = r0) ->
  forall (j q : Z) (r a : nat), (r + a <= m)%nat ->
  sumZ 0 (zlen g) (fun k => gz g k [*] (powr (rz k) r [*] powr (rz (j + q * k)) a)) = r0.
Proof.
  intros Hm j q r a. revert r. induction a as [|a IH]; intros r Hr.
  - cbn [powr]. rewrite (sumZ_ext _ 0 (zlen g) _ (fun k => gz g k [*] powr (rz k) r)) by (intros; ring). apply Hm. lia.
  - rewrite (sumZ_ext _ 0 (zlen g) _ (fun k => rz j [*] (gz g k [*] (powr (rz k) r [*] powr (rz (j + q * k)) a))
        [+] rz q [*] (gz g k [*] (powr (rz k) (S r) [*] powr (rz (j + q * k)) a)))).
    + rewrite sumZ_add, !sumZ_scal. rewrite (IH r) by lia. rewrite (IH (S r)) by lia. ring.
    + intros k _. cbn [powr]. rewrite (rz_add _ j (q * k)), rz_mul. ring.
Qed.

Lemma scw_moment (g h : list C) n m : zlen g = zlen h -> 1 <= zlen h -> (forall r, (r <= m)%nat -> moment g r = r0) ->
  forall d, sumZ 0 (supp (zlen h) (S n)) (fun i => powr (rz (i + d)) m [*] scw C g h n i) = r0.
Proof.
  intros Hg Hh Hm d. rewrite (pairing g h n (fun i => powr (rz (i + d)) m)) by lia. set (p := 2 ^ Z.of_nat n).
  rewrite (sumZ_ext _ 0 (zlen g) _ (fun k => sumZ 0 (supp (zlen h) n) (fun j => (gz g k [*] (powr (rz k) 0 [*] powr (rz (j + d + p * k)) m)) [*] sc C h n j))).
  2:{ intros k _. rewrite <- sumZ_scal. apply sumZ_ext. intros j _. cbn [powr]. replace (j + p * k + d) with (j + d + p * k) by lia. ring. }
  rewrite sumZ_swap. apply sumZ_zero. intros j _. rewrite sumZ_scal_r. rewrite (rz_powr_add g m Hm (j + d) p 0 m) by lia. ring.
Qed.

(** * The arrays *)
Variable s : C.
Hypothesis Hs : s [*] s = r1 [+] r1.

Lemma cpow_sq n : cpow s n [*] cpow s n = rz (2 ^ Z.of_nat n).
Proof.
  induction n as [|n IH]; cbn [cpow]; [change (2 ^ Z.of_nat 0) with 1; rewrite rz_1; ring|].
  rewrite pow2_S, rz_mul, <- IH, rz_2, <- Hs. ring.
Qed.

(** [a] is an array holding the cascade with filters g, h (and sign q) from
    position 1. *)
Definition holds (a : list C) (q : C) (g h : list C) (L : nat) : Prop :=
  supp (zlen h) L + 1 <= zlen a /\ forall i, gz a i = q [*] cascade_with s g h L (i - 1).

Lemma holds_sc a q g h n : holds a q g h (S n) -> forall i, gz a i = q [*] cpow s (S n) [*] scw C g h n (i - 1).
Proof. intros [_ H] i. rewrite H, cascade_with_sc. ring. Qed.

Lemma holds_pair a q g h n (f : Z -> C) : zlen g = zlen h -> 1 <= zlen h -> holds a q g h (S n) ->
  sumZ 0 (zlen a) (fun i => f i [*] gz a i) =
  q [*] cpow s (S n) [*] sumZ 0 (supp (zlen h) (S n)) (fun i => f (i + 1) [*] scw C g h n i).
Proof.
  intros Hg Hh Ha. pose proof Ha as [Hl _]. rewrite (sumZ_ext _ 0 (zlen a) _ (fun i => q [*] cpow s (S n) [*] (f i [*] scw C g h n (i - 1)))).
  2:{ intros i _. rewrite (holds_sc _ _ _ _ _ Ha). ring. }
  rewrite sumZ_scal. f_equal. rewrite (sumZ_shift _ 0 (supp (zlen h) (S n)) 1).
  rewrite (sumZ_widen _ (0 + 1) (supp (zlen h) (S n) + 1) 0 (zlen a)); [|lia|lia|].
  - apply sumZ_ext. intros t _. f_equal. f_equal. lia.
  - intros t Ht Hne. rewrite scw_support by lia. ring.
Qed.

Lemma holds_sum a q g h n : zlen g = zlen h -> 1 <= zlen h -> holds a q g h (S n) ->
  sumZ 0 (zlen h) (gz h) = s ->
  sumZ 0 (zlen a) (gz a) = q [*] (s [*] sumZ 0 (zlen g) (gz g)) [*] rz (2 ^ Z.of_nat n).
Proof.
  intros Hg Hh Ha Hsum. rewrite (sumZ_ext _ 0 (zlen a) _ (fun i => r1 [*] gz a i)) by (intros; ring).
  rewrite (holds_pair a q g h n (fun _ => r1)) by auto.
  rewrite (sumZ_ext _ 0 (supp (zlen h) (S n)) _ (scw C g h n)) by (intros; ring).
  rewrite scw_sum by auto. rewrite Hsum. rewrite <- cpow_sq. cbn [cpow]. ring.
Qed.

Lemma holds_inner a b q q' g h g' h' n : zlen h' = zlen h -> zlen g = zlen h -> zlen g' = zlen h -> 1 <= zlen h ->
  even_shift_dual h h' -> holds a q g h (S n) -> holds b q' g' h' (S n) ->
  forall k, inner_shift a b (2 ^ Z.of_nat (S n) * k) = q [*] q' [*] rz (2 ^ Z.of_nat (S n)) [*] corr g g' (2 * k).
Proof.
  intros Hh' Hg Hg' Hh Hd Ha Hb k. unfold inner_shift.
  rewrite (sumZ_ext _ 0 (zlen a) _ (fun i => gz b (i + 2 ^ Z.of_nat (S n) * k) [*] gz a i)) by (intros; ring).
  rewrite (holds_pair a q g h n (fun i => gz b (i + 2 ^ Z.of_nat (S n) * k))) by auto.
  rewrite <- (scw_dual h h' g g' n) by auto. rewrite <- cpow_sq.
  rewrite <- !sumZ_scal. apply sumZ_ext. intros i _. rewrite (holds_sc _ _ _ _ _ Hb).
  replace (i + 1 + 2 ^ Z.of_nat (S n) * k - 1) with (i + 2 ^ Z.of_nat (S n) * k) by lia. ring.
Qed.

Lemma holds_moment a q g h n m : zlen g = zlen h -> 1 <= zlen h -> holds a q g h (S n) ->
  (forall r, (r <= m)%nat -> moment g r = r0) ->
  sumZ 0 (zlen a) (fun i => powr (rz i) m [*] gz a i) = r0.
Proof.
  intros Hg Hh Ha Hm. rewrite (holds_pair a q g h n (fun i => powr (rz i) m)) by auto.
  rewrite scw_moment by auto. ring.
Qed.

Lemma cpow_one c n : s [*] c = r1 -> cpow s n [*] cpow c n = r1.
Proof. intros H. induction n as [|n IH]; cbn [cpow]; [ring|]. transitivity ((s [*] c) [*] (cpow s n [*] cpow c n)); [ring|]. rewrite H, IH. ring. Qed.

Lemma holds_translates a h n : 2 <= zlen h -> holds a r1 h h (S n) ->
  s [*] even_part h = r1 -> s [*] odd_part h = r1 ->
  forall i, 0 <= i < 2 ^ Z.of_nat (S n) -> sumZ 0 (zlen h) (fun k => gz a (i + 2 ^ Z.of_nat (S n) * k)) = r1.
Proof.
  intros Hh Ha He Ho i Hi.
  assert (Heo : even_part h = odd_part h).
  { transitivity (s [*] odd_part h [*] even_part h); [rewrite Ho; ring|].
    transitivity (s [*] even_part h [*] odd_part h); [ring|]. rewrite He. ring. }
  set (p := 2 ^ Z.of_nat (S n)) in *.
  rewrite (sumZ_ext _ 0 (zlen h) _ (fun k => cpow s (S n) [*] sc C h (S n) (i - 1 + p * k))).
  2:{ intros k _. rewrite (holds_sc _ _ _ _ _ Ha), sc_S. replace (i + p * k - 1) with (i - 1 + p * k) by lia. ring. }
  rewrite sumZ_scal.
  assert (HF : supp (zlen h) (S n) <= (zlen h - 1) * p).
  { unfold supp. fold p. lia. }
  destruct (Z.eq_dec i 0) as [->|Hi0].
  - rewrite (sumZ_shift _ 0 (zlen h) 0), Z.add_0_l, Z.add_0_r.
    rewrite (sumZ_widen _ 0 (zlen h) 0 (zlen h + 1)); [|lia|lia|].
    + rewrite (sumZ_ext _ 0 (zlen h + 1) _ (fun k => sc C h (S n) (0 - 1 + p * k))) by (intros; f_equal; lia).
      unfold p. rewrite (sc_translates h (even_part h) (S n)); [apply cpow_one; exact He|lia|reflexivity|congruence|lia|].
      fold p. nia.
    + intros t Ht Hne. apply sc_support; [lia|]. nia.
  - 
    rewrite (sumZ_widen _ 0 (zlen h) (-1) (zlen h + 1)); [|lia|lia|].
    + unfold p. rewrite (sc_translates h (even_part h) (S n)); [apply cpow_one; exact He|lia|reflexivity|congruence|fold p; lia|].
      fold p. nia.
    + intros t Ht Hne. apply sc_support; [lia|]. nia.
Qed.

End WF.
