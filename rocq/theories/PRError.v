(** Error of idwt after dwt for a bank whose even-shift correlations are only
    approximately those of a perfect-reconstruction bank, over the rationals. *)
From Verif Require Import Base BaseLemmas CConv Spec ExtLemmas Instances Lengths Dwt DwtProofs PR FilterSpec Filters FiltersProofs.
From Coq Require Import QArith Qcanon Qcabs Lqa.
Open Scope Z_scope.

Notation R := Qcring (only parsing).
Add Ring R_ring_err : (rth R).
Definition rle (a b : R) : Prop := Qcle a b.
Definition qabs (a : R) : R := Qcabs a.
Notation "a [<=] b" := (rle a b) (at level 70).

Lemma rz_Qc z : (rz z : R) = Q2Qc (inject_Z z).
Proof.
  assert (Hpos : forall n : nat, (rz (Z.of_nat n) : R) = Q2Qc (inject_Z (Z.of_nat n))).
  { induction n as [|n IH]; [reflexivity|]. rewrite Nat2Z.inj_succ, <- Z.add_1_r, rz_add, IH, rz_1.
    cbn [radd r1 Qcring]. apply Qc_is_canon. cbn [this Q2Qc Qcplus]. rewrite !Qred_correct. rewrite inject_Z_plus. reflexivity. }
  destruct (Z_le_gt_dec 0 z) as [H|H].
  - rewrite <- (Z2Nat.id z) by lia. apply Hpos.
  - replace z with (- (- z)) by lia. rewrite rz_opp. rewrite <- (Z2Nat.id (- z)) by lia. rewrite Hpos.
    cbn [ropp Qcring]. apply Qc_is_canon. cbn [this Q2Qc Qcopp]. rewrite !Qred_correct. rewrite inject_Z_opp. reflexivity.
Qed.

Lemma rz_le a b : a <= b -> ((rz a : R) [<=] (rz b : R)).
Proof.
  intros H. rewrite !rz_Qc. unfold rle, Qcle. cbn [this Q2Qc]. rewrite !Qred_correct. rewrite <- Zle_Qle. exact H.
Qed.
Lemma rz_nonneg z : 0 <= z -> (r0 [<=] (rz z : R)).
Proof. apply (rz_le 0). Qed.
Lemma rle_refl (a : R) : a [<=] a.
Proof. apply Qcle_refl. Qed.
Lemma rle_trans (a b c : R) : a [<=] b -> b [<=] c -> a [<=] c.
Proof. apply Qcle_trans. Qed.
Lemma qabs_nonneg (a : R) : r0 [<=] qabs a.
Proof. apply Qcabs_nonneg. Qed.
Lemma qabs_pos (a : R) : r0 [<=] a -> qabs a = a.
Proof. apply Qcabs_pos. Qed.
Lemma qabs_neg (a : R) : a [<=] r0 -> qabs a = [--] a.
Proof. apply Qcabs_neg. Qed.
Lemma rz_abs z : qabs (rz z : R) = rz (Z.abs z).
Proof.
  destruct (Z_le_gt_dec 0 z).
  - rewrite Z.abs_eq by lia. apply qabs_pos. apply rz_nonneg. lia.
  - rewrite Z.abs_neq by lia. rewrite qabs_neg.
    + rewrite rz_opp. reflexivity.
    + apply (rz_le z 0). lia.
Qed.

Lemma qabs_add (a b c d : R) : (qabs a [<=] c -> qabs b [<=] d -> qabs (a [+] b) [<=] c [+] d).
Proof.
  intros H1 H2. eapply Qcle_trans; [apply Qcabs_triangle|]. apply Qcplus_le_compat; auto.
Qed.
Lemma qabs_opp (a : R) : qabs ([--] a) = qabs a.
Proof. apply Qcabs_opp. Qed.
Lemma qabs_sub (a b c d : R) : (qabs a [<=] c -> qabs b [<=] d -> qabs (a [-] b) [<=] c [+] d).
Proof.
  intros H1 H2. replace (a [-] b) with (a [+] [--] b) by ring. apply qabs_add; [auto|]. rewrite qabs_opp. auto.
Qed.
Lemma qabs_mul (a b c d : R) : (qabs a [<=] c -> qabs b [<=] d -> qabs (a [*] b) [<=] c [*] d).
Proof.
  intros H1 H2. cbn [rmul Qcring]. rewrite Qcabs_Qcmult.
  apply Qcle_trans with (c [*] qabs b).
  - apply Qcmult_le_compat_r; [auto|apply Qcabs_nonneg].
  - rewrite (Qcmult_comm c), (Qcmult_comm c). apply Qcmult_le_compat_r; [auto|].
    eapply Qcle_trans; [apply Qcabs_nonneg|exact H1].
Qed.

Lemma qabs_sum a b (f g : Z -> R) :
  (forall t, a <= t < b -> (qabs (f t) [<=] g t)) -> (qabs (sumZ a b f) [<=] sumZ a b g).
Proof.
  intros H. unfold sumZ. assert (G : forall n, Z.of_nat n <= Z.max 0 (b - a) -> (qabs (sumn n f a) [<=] sumn n g a)).
  { induction n as [|n IH]; intros Hn; cbn [sumn].
    - rewrite qabs_pos by apply rle_refl. apply rle_refl.
    - apply qabs_add; [apply IH; lia|apply H; lia]. }
  apply G. lia.
Qed.

Lemma qmul_mono (a b c : R) : (a [<=] b -> r0 [<=] c -> a [*] c [<=] b [*] c).
Proof. intros. cbn [rmul Qcring]. apply Qcmult_le_compat_r; auto. Qed.

(** * Size of the extensions near the signal *)
Definition gain (m : mode) (F : Z) : Z := match m with SMOOTH | ANTIREFLECT => 4 * F + 7 | _ => 1 end.

Section Ext.
Variable M : R.
Variable x : list R.
Hypothesis HM : forall i, 0 <= i < zlen x -> (qabs (gz x i) [<=] M).

Lemma qone : (rz 1 [*] M : R) = M.
Proof. rewrite rz_1. ring. Qed.

Lemma M_nonneg : 1 <= zlen x -> (r0 [<=] M).
Proof. intros H. eapply rle_trans; [apply qabs_nonneg|apply (HM 0)]. lia. Qed.

Lemma gz_le_M i : 1 <= zlen x -> (qabs (gz x i) [<=] M).
Proof.
  intros Hx. destruct (Z_lt_ge_dec i 0); [|destruct (Z_lt_ge_dec i (zlen x))].
  - rewrite gz_neg by lia. rewrite qabs_pos by apply rle_refl. apply M_nonneg. auto.
  - apply HM. lia.
  - rewrite gz_big by lia. rewrite qabs_pos by apply rle_refl. apply M_nonneg. auto.
Qed.

Lemma scale_le (e : R) k K : (qabs e [<=] rz k [*] M) -> k <= K -> 1 <= zlen x -> (qabs e [<=] (rz K [*] M : R)).
Proof.
  intros H Hk Hx. eapply rle_trans; [exact H|]. apply qmul_mono; [apply rz_le; auto|apply M_nonneg; auto].
Qed.

Lemma ext_gain m F n : min_len m <= zlen x -> 1 <= F -> - F <= n <= zlen x + F -> (qabs (ext m x n) [<=] (rz (gain m F) [*] M : R)).
Proof.
  intros Hx HF Hn. assert (HN : 1 <= zlen x) by (destruct m; cbn [min_len] in Hx; lia).
  pose proof (fun i => gz_le_M i HN) as Hg.
  assert (Hsub : forall i j, (qabs (gz x i [-] gz x j) [<=] (rz 2 [*] M : R))).
  { intros i j. replace (rz 2 [*] M : R) with (M [+] M); [apply qabs_sub; auto|]. rewrite rz_2. ring. }
  assert (Hlin : forall k i a b, Z.abs k <= F + 1 -> (qabs (gz x i [+] rz k [*] (gz x a [-] gz x b)) [<=] (rz (4 * F + 7) [*] M : R))).
  { intros k i a b Hk. apply scale_le with (k := 1 + (F + 1) * 2); [|lia|auto].
    replace (rz (1 + (F + 1) * 2) [*] M : R) with (M [+] rz (F + 1) [*] (rz 2 [*] M)).
    - apply qabs_add; [auto|]. apply qabs_mul; [|auto]. rewrite rz_abs. apply rz_le. auto.
    - rewrite (rz_add R 1), (rz_mul R (F + 1)), rz_1. ring. }
  destruct m; cbn [gain ext]; cbv zeta; rewrite ?qone.
  - destruct (_ && _); [auto|]. rewrite qabs_pos by apply rle_refl. apply M_nonneg; auto.
  - destruct (_ <? _); auto.
  - auto.
  - destruct (zlen x <? 2); [apply scale_le with (k := 1); [rewrite qone; auto|lia|auto]|].
    destruct (Z.ltb_spec n 0); [apply Hlin; lia|].
    destruct (Z.ltb_spec n (zlen x)); [apply scale_le with (k := 1); [rewrite qone; auto|lia|auto]|].
    apply Hlin. lia.
  - auto.
  - apply Hg.
  - destruct (_ <=? _); auto.
  - destruct (_ <? _); auto. rewrite qabs_opp. auto.
  - cbn [min_len] in Hx. set (L := zlen x - 1) in *. set (q := n / (2 * L)).
    assert (Hq : - F <= q <= F + 1).
    { unfold q. split; [apply Z.div_le_lower_bound; nia|].
      assert (n / (2 * L) < F + 2); [|lia]. apply Z.div_lt_upper_bound; [lia|]. unfold L in *. nia. }
    replace (rz (4 * F + 7) [*] M : R) with (rz 3 [*] M [+] rz (2 * (F + 1)) [*] (rz 2 [*] M)).
    + apply qabs_add.
      * destruct (_ <=? _); [apply scale_le with (k := 1); [rewrite qone; auto|lia|auto]|].
        replace (rz 3 [*] M : R) with ((M [+] M) [+] M).
        -- apply qabs_sub; [apply qabs_add; auto|auto].
        -- change 3 with (1 + 2). rewrite rz_add, rz_1, rz_2. ring.
      * apply qabs_mul; [rewrite rz_abs; apply rz_le; lia|auto].
    + replace (4 * F + 7) with (3 + 2 * (F + 1) * 2) by lia. rewrite (rz_add R 3), (rz_mul R (2 * (F + 1))). ring.
Qed.
End Ext.

(** * The error *)
Definition resid (a b : list R) (k : Z) : R := corr a b (2 * k) [-] (if k =? 0 then r1 else r0).
Definition resid_sum (a b : list R) : R := sumZ (- (zlen a / 2)) (zlen a / 2) (fun k => qabs (resid a b k)).

Lemma response_error (a b : list R) (e : Z -> R) n (B : R) : 2 <= zlen a ->
  (forall k, - (zlen a / 2) <= k < zlen a / 2 -> (qabs (e (n + 2 * k)) [<=] B)) ->
  (qabs (even_response a b e n [-] e n) [<=] resid_sum a b [*] B).
Proof.
  intros Ha He. unfold even_response, resid_sum. set (K := zlen a / 2). fold K in He. assert (1 <= K) by (unfold K; lia).
  assert (E : e n = sumZ (- K) K (fun k => (if k =? 0 then r1 else r0) [*] e (n + 2 * k))).
  { rewrite (sumZ_single _ (- K) K 0); [|lia|].
    - cbn [Z.eqb]. replace (n + 2 * 0) with n by lia. ring.
    - intros t Ht Hne. replace (t =? 0) with false by lia. ring. }
  rewrite E at 1. rewrite <- sumZ_sub, <- sumZ_scal_r. apply qabs_sum. intros k Hk.
  replace (corr a b (2 * k) [*] e (n + 2 * k) [-] (if k =? 0 then r1 else r0) [*] e (n + 2 * k)) with (resid a b k [*] e (n + 2 * k)).
  - apply qabs_mul; [apply rle_refl|apply He; lia].
  - unfold resid. ring.
Qed.

Theorem idwt_dwt_error fuel (a b x : list R) m (M : R) :
  zlen b = zlen a -> zlen a mod 2 = 0 -> 2 <= zlen a -> min_len m <= zlen x -> resources fuel (zlen x) (zlen a) ->
  (forall i, 0 <= i < zlen x -> (qabs (gz x i) [<=] M)) ->
  let w := bi_bank a b in
  exists cA cD y, dwt fuel x w m = Ok (cA, cD) /\ idwt fuel (Some cA) (Some cD) w m = Ok y /\
    zlen y = zlen x + zlen x mod 2 /\
    forall n, 0 <= n < zlen y -> (qabs (gz y n [-] ext m x n) [<=] resid_sum a b [*] (rz (gain m (zlen a)) [*] M)).
Proof.
  intros Hl HF2 HF Hx Hr HM w. assert (HN : 1 <= zlen x) by (destruct m; cbn [min_len] in Hx; lia).
  destruct (idwt_dwt_response R fuel a b x m Hl HF2 HF Hx Hr) as (cA & cD & E1 & E2).
  eexists cA, cD, _. split; [exact E1|]. split; [exact E2|].
  assert (Hz : zlen (tab (zlen x + zlen x mod 2) (even_response a b (ext m x))) = zlen x + zlen x mod 2) by (apply zlen_tab; lia).
  split; [exact Hz|]. rewrite Hz. intros n Hn. rewrite gz_tab by lia.
  apply response_error; [auto|]. intros k Hk. apply ext_gain; auto; lia.
Qed.
