(** Specification for changes of n-dimensional coefficients. *)
From Coq Require Import String.
From Verif Require Import Base BaseLemmas CConv Spec Lengths Dwt DwtProofs Facts1 CyclicMain Nd NdSpec Axis AxisProofs Multidim MultidimProofs ParsevalNd.
Open Scope list_scope. Open Scope Z_scope.

(** Sum of the squares of the differences of two arrays, and of two dicts of
    arrays with the same keys. *)
Definition nddist2 {C : CRing} (u v : nd C) : C :=
  ndsum C (nshape u) (fun idx => (ndget u idx [-] ndget v idx) [*] (ndget u idx [-] ndget v idx)).
Fixpoint ddist2 {C : CRing} (d e : dict (sarr C)) : C :=
  match d, e with (_, u) :: d', (_, v) :: e' => nddist2 (val C u) (val C v) [+] ddist2 d' e' | _, _ => r0 end.
Fixpoint ddist2s {C : CRing} (X Y : list (dict (sarr C))) : C :=
  match X, Y with d :: X', e :: Y' => ddist2 d e [+] ddist2s X' Y' | _, _ => r0 end.
(** Arrays of the same shapes under the same keys. *)
Definition alike {C : CRing} (d e : dict (sarr C)) : Prop :=
  Forall2 (fun p q => fst q = fst p /\ sarr_ok C (snd q) /\ sshape (snd q) = sshape (snd p)) d e.
(** Every axis in periodization mode, with an orthonormal bank and a length
    divisible by 2^N. *)
Definition orthonormal_levels (C : CRing) (plan : list (step C)) (sh : list Z) (N : nat) : Prop :=
  forall s, In s plan -> st_m C s = PERIODIZATION /\ orthonormal (st_w C s) /\ (2 ^ Z.of_nat N | nthz (st_ax C s) sh).
(** The elements of the arrays of the dicts, array by array. *)
Definition arrays_of {C : CRing} (X : list (dict (sarr C))) : list (list C) := concat (map (map (fun p => ndata (val C (snd p)))) X).
