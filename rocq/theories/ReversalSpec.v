(** Specification of the behaviour of the transforms under time reversal and
    of the samples a coefficient depends on. *)
From Verif Require Import Base CConv Spec Dwt.
Open Scope Z_scope.

(** The filter bank with every filter read backwards. *)
Definition rev_bank {C : CRing} (w : wavelet C) : wavelet C :=
  mkWavelet (rev (dec_lo w)) (rev (dec_hi w)) (rev (rec_lo w)) (rev (rec_hi w)).

(** Linear phase: the low-pass filter is a palindrome, the high-pass filter
    changes its sign when it is read backwards. *)
Definition linear_phase {C : CRing} (w : wavelet C) : Prop :=
  rev (dec_lo w) = dec_lo w /\ rev (dec_hi w) = map ropp (dec_hi w).

(** First and last sample that the coefficient number k of level j of a
    decomposition with filters of length F looks at. *)
Definition first_sample (F : Z) (j : nat) (k : Z) : Z := 2 ^ Z.of_nat j * k - (2 ^ Z.of_nat j - 1) * (F - 2).
Definition last_sample (j : nat) (k : Z) : Z := 2 ^ Z.of_nat j * (k + 1) - 1.
