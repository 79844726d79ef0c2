(** Specification of the picture of an extension mode: the signal in the middle
    of five times its length. *)
From Verif Require Import Base CConv Spec.
Open Scope list_scope. Open Scope Z_scope.

Section BPS.
Context {C : CRing}.
Implicit Types x : list C.

(** The signal of even length that periodization extends. *)
Definition evened (m : mode) x : list C := match m with PERIODIZATION => if zlen x mod 2 =? 1 then x ++ [gz x (zlen x - 1)] else x | _ => x end.
(** The value drawn at position t of the picture. *)
Definition drawn (m : mode) x (t : Z) : C := ext m (evened m x) (t - 2 * zlen (evened m x)).
End BPS.

(** The bars, times two. *)
Definition bars_of (m : mode) (symw : bool) (n : Z) : list Z :=
  map (fun rep => if symw then 4 * n + 2 * (rep * (n - 1)) else 4 * n - 1 + 2 * (rep * n))
    match m with SMOOTH | CONSTANT_EDGE | ZEROPAD => [0; 1] | _ => [-2; -1; 0; 1; 2; 3] end.
