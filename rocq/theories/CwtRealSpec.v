(** The spectrum of sampled complex values and its peak. *)
From Coq Require Import QArith Reals Qreals ZArith.
From Verif Require Import Base Continuous CwtReal.
Open Scope R_scope.

(** Absolute value of sum_j psi_j exp(-2 pi i j k / n). *)
Definition spectrum (psi : Z -> R * R) (n k : Z) : R :=
  let t j := 2 * PI * IZR j * IZR k / IZR n in
  sqrt ((@sumZ Rring 0 n (fun j => fst (psi j) * cos (t j) + snd (psi j) * sin (t j))) ^ 2 +
        (@sumZ Rring 0 n (fun j => snd (psi j) * cos (t j) - fst (psi j) * sin (t j))) ^ 2).

(** [k] is the first position in 1 .. n-1 of a largest value. *)
Definition peak_at (mag : Z -> R) (n k : Z) : Prop :=
  (1 <= k < n)%Z /\ (forall j, (1 <= j < n)%Z -> mag j <= mag k) /\ (forall j, (1 <= j < k)%Z -> mag j < mag k).

(** Sample [i] of [n] on the support of the wavelet. *)
Definition sampled (f : R -> R * R) (a : cattrs) (n : Z) (i : Z) : R * R :=
  f (Q2R (inject_Z i * ((a_upper a - a_lower a) / inject_Z (n - 1)) + a_lower a)).
