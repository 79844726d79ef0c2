(** Concrete filter banks used by the examples. *)
From Verif Require Import Base BaseLemmas CConv Spec Instances Lengths Dwt DwtProofs.
From Coq Require Import QArith Qcanon.
Open Scope Z_scope.

(** Finite check of the perfect-reconstruction identities. *)
Section Check.
Variable C : CRing.
Add Ring Cring_ring_chk : (rth C).
Variable eqb : C -> C -> bool.
Hypothesis eqb_ok : forall a b, eqb a b = true -> a = b.

Definition pr_term (h0 h1 g0 g1 : list C) (p s m : Z) : C :=
  if m mod 2 =? p then gz g0 m [*] gz h0 (s - m) [+] gz g1 m [*] gz h1 (s - m) else r0.

Definition pr_check (h0 h1 g0 g1 : list C) : bool :=
  let F := zlen h0 in
  (zlen h1 =? F) && (zlen g0 =? F) && (zlen g1 =? F) && (F mod 2 =? 0) && (2 <=? F) &&
  forallb (fun k => let s := Z.of_nat k in
     forallb (fun p => eqb (sumZ 0 F (pr_term h0 h1 g0 g1 p s)) (if s =? F - 1 then r1 else r0)) [0; 1])
    (seq 0 (2 * length h0)).

Lemma pr_check_ok h0 h1 g0 g1 : pr_check h0 h1 g0 g1 = true -> pr_bank h0 h1 g0 g1.
Proof.
  unfold pr_check. cbv zeta. rewrite !andb_true_iff. intros (((((H1 & H2) & H3) & H4) & H5) & H6).
  unfold pr_bank. cbv zeta. repeat (split; [lia|]).
  intros p s Hp. destruct (Z_lt_ge_dec s 0) as [Hs|Hs].
  - replace (s =? zlen h0 - 1) with false by lia. apply sumZ_zero. intros t Ht.
    rewrite !(gz_neg _ (s - t)) by lia. destruct (_ =? p); ring.
  - destruct (Z_lt_ge_dec s (2 * zlen h0)) as [Hs'|Hs'].
    + rewrite forallb_forall in H6. specialize (H6 (Z.to_nat s)). cbv beta in H6.
      rewrite forallb_forall in H6. cbv zeta in H6. rewrite Z2Nat.id in H6 by lia. apply eqb_ok. apply (H6 ltac:(apply in_seq; unfold zlen in *; lia) p).
      destruct Hp as [-> | ->]; cbn; auto.
    + replace (s =? zlen h0 - 1) with false by lia. apply sumZ_zero. intros t Ht.
      rewrite !(gz_big _ (s - t)) by lia. destruct (_ =? p); ring.
Qed.
End Check.

(** Integer bank of length 4. *)
Definition zbank : wavelet Zring :=
  mkWavelet (C := Zring) [-2; -2; -2; -1] [-1; -1; -2; -1] [-1; 1; -2; 1] [2; -2; 2; -1].
Lemma zbank_pr : pr_wavelet zbank.
Proof. apply (pr_check_ok Zring Z.eqb). { intros. now apply Z.eqb_eq. } vm_compute. reflexivity. Qed.

(** Integer bank of length 2 (unnormalised Haar-like). *)
Definition zbank2 : wavelet Zring := mkWavelet (C := Zring) [2; 1] [1; 1] [-1; 1] [2; -1].
Lemma zbank2_pr : pr_wavelet zbank2.
Proof. apply (pr_check_ok Zring Z.eqb). { intros. now apply Z.eqb_eq. } vm_compute. reflexivity. Qed.

(** Rational orthonormal bank of length 4 (two Givens rotations). *)
Definition qc (n : Z) (d : positive) : Qcring := Q2Qc (n # d)%Q.
Definition qlo : list Qcring := [qc 15 65; qc 20 65; qc (-48) 65; qc 36 65].
Definition qhi : list Qcring := [qc (-36) 65; qc (-48) 65; qc (-20) 65; qc 15 65].
Definition qbank : wavelet Qcring := mkWavelet qlo qhi (rev qlo) (rev qhi).
Lemma qbank_pr : pr_wavelet qbank.
Proof. apply (pr_check_ok Qcring Qc_eq_bool). { intros a b. apply Qc_eq_bool_correct. } vm_compute. reflexivity. Qed.
