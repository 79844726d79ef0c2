(** Specification of the transforms along an axis of n-dimensional arrays:
    the 1-D operations of Spec.v and SwtSpec.v applied to every line. *)
From Verif Require Import Base Spec SwtSpec Nd.

Section NdSpec.
Context {C : CRing}.

(** Analysis with filter [h] along axis [ax]. *)
Definition dax (ax : nat) (m : mode) (h : list C) (x : nd C) : nd C :=
  along ax (coeff_len m (nthz ax (nshape x)) (zlen h)) (analysis m h) x.
(** Synthesis with filter [g] along axis [ax]. *)
Definition sax (ax : nat) (m : mode) (g : list C) (c : nd C) : nd C :=
  along ax (rec_len m (nthz ax (nshape c)) (zlen g)) (synthesis m g) c.
(** One level of the stationary transform along axis [ax]. *)
Definition wax (ax : nat) (l : Z) (h : list C) (x : nd C) : nd C :=
  along ax (nthz ax (nshape x)) (swt_step l h) x.

Definition ndadd (a b : nd C) : nd C := ndtab (nshape a) (fun idx => ndget a idx [+] ndget b idx).
Definition ndscal (s : C) (a : nd C) : nd C := ndtab (nshape a) (fun idx => s [*] ndget a idx).
Definition ndzero (sh : list Z) : nd C := ndtab sh (fun _ => r0).
(** Restriction to the index range of a smaller shape. *)
Definition ndcrop (sh : list Z) (a : nd C) : nd C := ndtab sh (ndget a).

(** Synthesis from both bands, either of which may be missing. *)
Definition sax2 (ax : nat) (m : mode) (g0 g1 : list C) (a d : option (nd C)) : option (nd C) :=
  match a, d with
  | Some a, Some d => Some (ndadd (sax ax m g0 a) (sax ax m g1 d))
  | Some a, None => Some (sax ax m g0 a)
  | None, Some d => Some (sax ax m g1 d)
  | None, None => None
  end.

End NdSpec.
