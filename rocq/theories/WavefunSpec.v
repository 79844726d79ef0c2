(** Specification of the cascade approximations of a scaling function and a
    wavelet: the two-scale equations
      phi_{L+1}(x) = sqrt2 * sum_k h_k phi_L(2x - k),
      psi_{L+1}(x) = sqrt2 * sum_k g_k phi_L(2x - k)
    on the grid of step 2^-L, started from the unit pulse. The argument [i]
    stands for the point x = i / 2^L. *)
From Coq Require Import QArith.
From Verif Require Import Base.
Open Scope Z_scope.

Section WavefunSpec.
Context {C : CRing}.
Variable s : C.             (* sqrt 2 *)

Definition pulse (i : Z) : C := if i =? 0 then r1 else r0.

Fixpoint cascade (h : list C) (L : nat) (i : Z) : C :=
  match L with
  | O => pulse i
  | S L' => s [*] sumZ 0 (zlen h) (fun k => gz h k [*] cascade h L' (i - 2 ^ Z.of_nat L' * k))
  end.

(** The wavelet with filter [g] at level L >= 1; for [g] = [h] it is the scaling
    function. *)
Definition cascade_with (g h : list C) (L : nat) (i : Z) : C :=
  s [*] sumZ 0 (zlen g) (fun k => gz g k [*] cascade h (L - 1) (i - 2 ^ Z.of_nat (L - 1) * k)).

(** Length of the sampled functions: the support (F-1) 2^L, in the orthogonal
    case with both end points. *)
Definition wavefun_len (orth : bool) (F L : Z) : Z :=
  if F =? 2 then 2 ^ L + 2 else (F - 1) * 2 ^ L + (if orth then 1 else 0).

(** Sum of the entries. *)
Definition total (a : list C) : C := sumZ 0 (zlen a) (gz a).

(** Inner product of two finite sequences, the second one shifted. *)
Definition inner_shift (a b : list C) (d : Z) : C := sumZ 0 (zlen a) (fun i => gz a i [*] gz b (i + d)).

(** Power. *)
Fixpoint powr (a : C) (n : nat) : C := match n with O => r1 | S n' => a [*] powr a n' end.

(** The m-th discrete moment of a filter. *)
Definition moment (g : list C) (m : nat) : C := sumZ 0 (zlen g) (fun k => gz g k [*] powr (rz k) m).

(** The sums of the even and of the odd entries of a filter. *)
Definition even_part (h : list C) : C := sumZ 0 (zlen h) (fun k => if k mod 2 =? 0 then gz h k else r0).
Definition odd_part (h : list C) : C := sumZ 0 (zlen h) (fun k => if k mod 2 =? 1 then gz h k else r0).

End WavefunSpec.

(** [k] is the first frequency, other than 0, at which the magnitude is largest. *)
Definition peak (mag : list Q) (k : Z) : Prop :=
  1 <= k < zlen mag /\
  (forall j, 1 <= j < zlen mag -> (nth (Z.to_nat j) mag 0 <= nth (Z.to_nat k) mag 0)%Q) /\
  (forall j, 1 <= j < k -> (nth (Z.to_nat j) mag 0 < nth (Z.to_nat k) mag 0)%Q).
