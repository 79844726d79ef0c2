(** Polynomial signals. *)
From Verif Require Import Base CConv.
Open Scope Z_scope.

Section PolySpec.
Context {C : CRing}.
(** The value of the polynomial with coefficients [c] at the integer [i]. *)
Fixpoint peval (c : list C) (i : Z) : C :=
  match c with [] => r0 | a :: t => a [+] rz i [*] peval t i end.
(** The samples of [x] are the values of a polynomial of degree < p. *)
Definition polynomial (p : nat) (x : list C) : Prop :=
  exists c, length c = p /\ forall i, 0 <= i < zlen x -> gz x i = peval c i.
End PolySpec.

(** The coefficient number k of level j only depends on samples inside a signal
    of length N; F is the length of the filters. *)
Definition inside (F N : Z) (j : nat) (k : Z) : Prop :=
  (2 ^ Z.of_nat j - 1) * (F - 2) <= 2 ^ Z.of_nat j * k /\ 2 ^ Z.of_nat j * (k + 1) <= N.

(** Extension modes that keep a constant, and a straight line. *)
Definition keeps_constants (m : mode) : Prop := m <> ZEROPAD /\ m <> ANTISYMMETRIC.
Definition keeps_lines (m : mode) : Prop := m = SMOOTH \/ m = ANTIREFLECT.
