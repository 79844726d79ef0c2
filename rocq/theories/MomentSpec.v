(** Binomial coefficients, and sums weighted by them. *)
From Verif Require Import Base.
Open Scope Z_scope.

Fixpoint choose (n k : nat) : Z :=
  match k, n with
  | O, _ => 1
  | S _, O => 0
  | S k', S n' => choose n' k' + choose n' k
  end.

Section MomentSpec.
Context {C : CRing}.
(** The sum of (k choose r) h_k. *)
Definition binomial_moment (h : list C) (r : nat) : C :=
  sumZ 0 (zlen h) (fun k => rz (choose (Z.to_nat k) r) [*] gz h k).
End MomentSpec.
