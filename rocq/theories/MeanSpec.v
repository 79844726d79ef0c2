(** Specification for the mean of data: sums of lists and of every second tap. *)
From Verif Require Import Base.
Open Scope list_scope. Open Scope Z_scope.

Definition total {C : CRing} (x : list C) : C := sumZ 0 (zlen x) (gz x).
(** Sum of the taps of parity [q]. *)
Definition taps_sum {C : CRing} (q : Z) (h : list C) : C := sumZ 0 (zlen h) (fun j => if j mod 2 =? q then gz h j else r0).
Fixpoint power {C : CRing} (s : C) (n : nat) : C := match n with O => r1 | S n' => s [*] power s n' end.
