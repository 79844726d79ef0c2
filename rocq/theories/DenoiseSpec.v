(** Specification for denoising: distances of lists and of lists of
    coefficients, and the size of coefficients. *)
From Coq Require Import Reals.
From Verif Require Import Base BaseLemmas CwtReal.

(** Sum of the squares of the differences, of two lists and of two lists of
    lists. *)
Definition dist2 {C : CRing} (u v : list C) : C := sumZ 0 (zlen u) (fun i => (gz u i [-] gz v i) [*] (gz u i [-] gz v i)).
Fixpoint dist2s {C : CRing} (X Y : list (list C)) : C :=
  match X, Y with u :: X', v :: Y' => dist2 u v [+] dist2s X' Y' | _, _ => r0 end.

(** Sum of the absolute values, and number of elements that are not zero. *)
Open Scope R_scope.
Fixpoint size1 (l : list R) : R := match l with [] => 0 | x :: t => Rabs x + size1 t end.
Fixpoint nonzeros (l : list R) : R := match l with [] => 0 | x :: t => (if Req_EM_T x 0 then 0 else 1) + nonzeros t end.
(** Sum of the squares of the elements below [v] in absolute value. *)
Fixpoint small2 (v : R) (l : list R) : R := match l with [] => 0 | x :: t => (if Rlt_dec (Rabs x) v then x * x else 0) + small2 v t end.
