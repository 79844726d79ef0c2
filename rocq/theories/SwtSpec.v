(** Specification of the stationary transform, independent of the model. *)
From Verif Require Import Base Spec.

Section SwtSpec.
Context {C : CRing}.

(** Level [l] of the undecimated transform of [x] with filter [h]: circular
    convolution with the filter whose taps are 2^(l-1) apart. *)
Definition swt_step (l : Z) (h x : list C) : list C :=
  tab (zlen x) (fun n => sumZ 0 (zlen h) (fun m =>
    gz h m [*] gz x ((n + 2 ^ (l - 1) * (zlen h / 2 - m)) mod zlen x))).

(** Approximation and detail after [n] levels beginning above level [s]. *)
Fixpoint swt_approx (h0 : list C) (s : Z) (n : nat) (x : list C) : list C :=
  match n with O => x | S n' => swt_step (s + Z.of_nat n) h0 (swt_approx h0 s n' x) end.
Definition swt_detail (h0 h1 : list C) (s : Z) (n : nat) (x : list C) : list C :=
  swt_step (s + Z.of_nat n) h1 (swt_approx h0 s (n - 1) x).

End SwtSpec.
