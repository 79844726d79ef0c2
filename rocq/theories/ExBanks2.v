(** The ring C[sqrt 2] and the Haar bank with its irrational taps. *)
From Verif Require Import Base Instances Spec Dwt DwtProofs ExBanks.
From Coq Require Import QArith Qcanon.
Open Scope Z_scope.

Section Sqrt2.
Variable C : CRing.
Add Ring Cr_s2 : (rth C).
Definition s2 : Type := (C * C)%type.
Definition s2add (a b : s2) : s2 := (fst a [+] fst b, snd a [+] snd b).
Definition s2sub (a b : s2) : s2 := (fst a [-] fst b, snd a [-] snd b).
Definition s2mul (a b : s2) : s2 :=
  (fst a [*] fst b [+] (r1 [+] r1) [*] (snd a [*] snd b), fst a [*] snd b [+] snd a [*] fst b).
Definition s2opp (a : s2) : s2 := ([--] fst a, [--] snd a).
Lemma s2_rth : ring_theory (r0, r0) (r1, r0) s2add s2mul s2sub s2opp (@eq s2).
Proof.
  split; intros; unfold s2add, s2mul, s2sub, s2opp; cbn [fst snd];
    try destruct x as [x1 x2]; cbn [fst snd]; f_equal; ring.
Qed.
Definition Sqrt2 : CRing := mkCRing s2 (r0, r0) (r1, r0) s2add s2mul s2sub s2opp s2_rth.
End Sqrt2.

(** a + b*sqrt(2) over the rationals. *)
Definition QS2 : CRing := Sqrt2 Qcring.
Definition qs (n : Z) (d : positive) (n' : Z) (d' : positive) : QS2 := (qc n d, qc n' d').
Definition sqrt2 : QS2 := qs 0 1 1 1.
Definition isqrt2 : QS2 := qs 0 1 1 2.
Definition halfs : QS2 := qs 1 2 0 1.
Definition qs_eqb (a b : QS2) : bool := Qc_eq_bool (fst a) (fst b) && Qc_eq_bool (snd a) (snd b).

(** The Haar filter bank as tabulated: all taps are 1/sqrt 2. *)
Definition haar : wavelet QS2 :=
  mkWavelet (C := QS2) [qs 0 1 1 2; qs 0 1 1 2] [qs 0 1 (-1) 2; qs 0 1 1 2]
    [qs 0 1 1 2; qs 0 1 1 2] [qs 0 1 1 2; qs 0 1 (-1) 2].
Lemma haar_pr : pr_wavelet haar.
Proof.
  apply (pr_check_ok QS2 qs_eqb).
  - intros [a1 a2] [b1 b2]. unfold qs_eqb. cbn. rewrite andb_true_iff. intros (H1 & H2).
    apply Qc_eq_bool_correct in H1. apply Qc_eq_bool_correct in H2. congruence.
  - vm_compute. reflexivity.
Qed.
(** Integer samples in this ring, and readable results. *)
Definition qsz (z : Z) : QS2 := qs z 1 0 1.
Definition show (x : QS2) : Q * Q := (this (fst x), this (snd x)).
