(** What the continuous wavelet transform should compute. *)
From Coq Require Import QArith Qround.
From Verif Require Import Base.
Open Scope Z_scope.

Section CwtSpec.
Context {C : CRing}.

(** The integral of the sampled wavelet up to the sample [i], rectangle rule. *)
Definition integral (psi : list C) (step : C) (i : Z) : C := step [*] sumZ 0 (i + 1) (gz psi).

(** Stretching by [s] the function sampled at the [n] points of a grid of the
    given step and width: the number of samples, and the samples, 0 outside. *)
Definition stretched_len (n : Z) (step width s : Q) : Z := Z.min (Qceiling (s * width + 1)) (Qceiling (inject_Z n * (s * step))).
Definition stretched (P : Z -> C) (n : Z) (step width s : Q) (i : Z) : C :=
  if (0 <=? i) && (i <? stretched_len n step width s) then P (Qfloor (inject_Z i / (s * step))) else r0.

(** The coefficient at [t]: the correlation of the signal with the differences
    of the stretched integral, centred at its middle [(L + 1) / 2]; [r] is the
    square root of the scale. *)
Definition cwt_at (P : Z -> C) (n : Z) (step width s : Q) (r : C) (xs : list C) (t : Z) : C :=
  let c := (stretched_len n step width s + 1) / 2 in
  r [*] sumZ 0 (zlen xs) (fun i => gz xs i [*] (stretched P n step width s (i - t + c) [-] stretched P n step width s (i - t + c - 1))).

(** [w] and [v] are inverse roots of unity of order [n], [u] is 1/n. *)
Fixpoint power (a : C) (n : nat) : C := match n with O => r1 | S n' => a [*] power a n' end.
Definition unity (n : Z) (w v u : C) : Prop :=
  w [*] v = r1 /\ u [*] rz n = r1 /\
  forall d, 0 < d < n -> sumZ 0 n (fun j => power w (Z.to_nat (j * d))) = r0 /\ sumZ 0 n (fun j => power v (Z.to_nat (j * d))) = r0.
End CwtSpec.

(** The roots of unity needed for the convolution of lengths [N] and [L] by
    Fourier transforms of the next power of two. *)
Definition has_roots {C : CRing} (w v ninv : Z -> C) (N L : Z) : Prop :=
  forall m, 0 <= m -> N + L - 1 <= 2 ^ m < 2 * (N + L - 1) -> unity (2 ^ m) (w (2 ^ m)) (v (2 ^ m)) (ninv (2 ^ m)).
(** A set of samples closed under the ring operations, kept by [re]. *)
Definition real_samples {C : CRing} (re : C -> C) (R : C -> Prop) : Prop :=
  R r0 /\ (forall a b, R a -> R b -> R (a [+] b)) /\ (forall a b, R a -> R b -> R (a [*] b)) /\ (forall a b, R a -> R b -> R (a [-] b)) /\ forall a, R a -> re a = a.
