(** Concrete scaling filters over Q(sqrt 2). *)
From Verif Require Import Base BaseLemmas CConv Spec Instances Lengths Dwt Swt DwtProofs ExBanks ExBanks2 FilterSpec Filters FiltersProofs FiltersFacts.
From Coq Require Import QArith Qcanon.
Open Scope Z_scope.

(** Finite check of duality to even shifts. *)
Section Check.
Variable C : CRing.
Add Ring C_ring_esd : (rth C).
Variable eqb : C -> C -> bool.
Hypothesis eqb_ok : forall a b, eqb a b = true -> a = b.
Definition esd_check (a b : list C) : bool :=
  (zlen b =? zlen a) &&
  forallb (fun k => let u := Z.of_nat k - zlen a in
    negb (u mod 2 =? 0) || eqb (corr a b u) (if u =? 0 then r1 else r0)) (seq 0 (2 * length a + 1)).
Lemma esd_check_ok a b : esd_check a b = true -> even_shift_dual a b.
Proof.
  unfold esd_check. rewrite andb_true_iff, Z.eqb_eq. intros (Hl & H) u Hu. rewrite forallb_forall in H.
  destruct (Z_lt_ge_dec u (- zlen a)) as [H1|H1]; [|destruct (Z_lt_ge_dec (zlen a) u) as [H2|H2]].
  - pose proof (zlen_nonneg a). replace (u =? 0) with false by lia. unfold corr. apply sumZ_zero. intros t Ht. rewrite (gz_neg b) by lia. ring.
  - pose proof (zlen_nonneg a). replace (u =? 0) with false by lia. unfold corr. apply sumZ_zero. intros t Ht. rewrite (gz_big b) by lia. ring.
  - specialize (H (Z.to_nat (u + zlen a)) ltac:(apply in_seq; unfold zlen in *; lia)). cbv zeta in H.
    rewrite Z2Nat.id in H by lia. replace (u + zlen a - zlen a) with u in H by lia. rewrite Hu in H. cbn [Z.eqb negb orb] in H.
    apply eqb_ok. exact H.
Qed.
End Check.

Lemma qs_eqb_ok a b : qs_eqb a b = true -> a = b.
Proof.
  destruct a as [a1 a2], b as [b1 b2]. unfold qs_eqb. cbn. rewrite andb_true_iff. intros (H1 & H2).
  apply Qc_eq_bool_correct in H1. apply Qc_eq_bool_correct in H2. congruence.
Qed.
Lemma qs_eqb_refl a : qs_eqb a a = true.
Proof.
  destruct a as [a1 a2]. unfold qs_eqb, Qc_eq_bool. cbn. destruct (Qc_eq_dec a1 a1), (Qc_eq_dec a2 a2); congruence || reflexivity.
Qed.

(** Division of a + b*sqrt 2 by its conjugate. *)
Definition qs_div (x y : QS2) : QS2 :=
  let n := (fst y * fst y - (1 + 1) * (snd y * snd y))%Qc in
  ((fst x * fst y - (1 + 1) * (snd x * snd y)) / n, (snd x * fst y - fst x * snd y) / n)%Qc.

Lemma qs_div_ok (x y : QS2) : (fst y * fst y - (1 + 1) * (snd y * snd y))%Qc <> 0%Qc -> (qs_div x y [*] y : QS2) = x.
Proof.
  destruct x as [x1 x2], y as [y1 y2]. cbn [fst snd]. intros H. unfold qs_div. cbn [rmul QS2 Sqrt2 s2mul fst snd].
  change (r1 [+] r1 : Qcring) with (1 + 1)%Qc. cbn [rmul radd Qcring]. unfold s2mul. cbn [fst snd rmul radd r1 Qcring].
  f_equal; field; exact H.
Qed.

Lemma qs_two_regular (a : QS2) : a [*] (r1 [+] r1) = r0 -> a = r0.
Proof.
  destruct a as [a1 a2]. cbn [rmul radd r0 r1 QS2 Sqrt2]. unfold s2mul, s2add. cbn [fst snd rmul radd r0 r1 Qcring]. intros H.
  pose proof (f_equal fst H) as H1. pose proof (f_equal snd H) as H2. cbn [fst snd] in H1, H2. clear H.
  assert (E : forall q : Qc, (q * (1 + 1))%Qc = 0%Qc -> q = 0%Qc).
  { intros q Hq. apply Qcmult_integral in Hq. destruct Hq as [Hq|Hq]; [exact Hq|discriminate]. }
  f_equal; apply E.
  - rewrite <- H1. ring.
  - rewrite <- H2. ring.
Qed.

Definition h_haar : list QS2 := [isqrt2; isqrt2].
Definition h_unit : list QS2 := [qsz 1; qsz 0].

Lemma sqrt2_sq : (sqrt2 [*] sqrt2 : QS2) = r1 [+] r1.
Proof. apply qs_eqb_ok. vm_compute. reflexivity. Qed.

Lemma h_haar_dual : even_shift_dual (C := QS2) h_haar h_haar.
Proof. apply (esd_check_ok QS2 qs_eqb qs_eqb_ok). vm_compute. reflexivity. Qed.
Lemma h_unit_dual : even_shift_dual (C := QS2) h_unit h_unit.
Proof. apply (esd_check_ok QS2 qs_eqb qs_eqb_ok). vm_compute. reflexivity. Qed.

(** The Haar filter inside length 4. *)
Definition h_haar4 : list QS2 := [qsz 0; isqrt2; isqrt2; qsz 0].
Lemma h_haar4_dual : even_shift_dual (C := QS2) h_haar4 h_haar4.
Proof. apply (esd_check_ok QS2 qs_eqb qs_eqb_ok). vm_compute. reflexivity. Qed.
(** Unit energy, orthogonal to its even shifts, with sum 1. *)
Definition h_half : list QS2 := [qs 1 2 0 1; qs 1 2 0 1; qs 1 2 0 1; qs (-1) 2 0 1].
Lemma h_half_dual : even_shift_dual (C := QS2) h_half h_half.
Proof. apply (esd_check_ok QS2 qs_eqb qs_eqb_ok). vm_compute. reflexivity. Qed.

(** orthonormal to its even shifts, but the normalised bank is not a
    perfect-reconstruction bank. *)
Lemma ofb_not_pr : exists (h : list QS2) (w : wavelet QS2),
  zlen h mod 2 = 0 /\ 2 <= zlen h /\ even_shift_dual h h /\
  orthogonal_filter_bank sqrt2 qs_div h = Ok w /\ ~ pr_wavelet w.
Proof.
  set (c := map (fun v : QS2 => qs_div (sqrt2 [*] v) (sumZ 0 (zlen h_half) (gz h_half))) h_half).
  exists h_half, (bi_bank c c). split; [reflexivity|]. split; [vm_compute; discriminate|]. split; [exact h_half_dual|].
  split; [rewrite ofb_structure; reflexivity|]. intros (_ & _ & _ & _ & _ & H). specialize (H 0 3 (or_introl eq_refl)).
  apply (f_equal (fun x : QS2 => qs_eqb x r1)) in H.
  change (zlen (dec_lo (bi_bank c c))) with 4 in H. change (3 =? 4 - 1) with true in H. cbn iota in H. rewrite (qs_eqb_refl r1) in H.
  revert H. vm_compute. discriminate.
Qed.

Lemma h_haar4_div a : (qs_div a (sumZ 0 (zlen h_haar4) (gz h_haar4)) [*] sumZ 0 (zlen h_haar4) (gz h_haar4) : QS2) = a.
Proof. apply qs_div_ok. vm_compute. discriminate. Qed.
Lemma h_haar4_sum : (sumZ 0 (zlen h_haar4) (gz h_haar4) [*] sumZ 0 (zlen h_haar4) (gz h_haar4) : QS2) = r1 [+] r1.
Proof. apply qs_eqb_ok. vm_compute. reflexivity. Qed.
