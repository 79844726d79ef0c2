(** Specification of rectangular parts of an array. *)
From Coq Require Import String Permutation.
From Verif Require Import Base Nd Multidim.

(** One entry of a numpy index: a full or a bounded slice. *)
Inductive sl : Type := SAll | SRange (a b : Z).

(** The multi-indices of an array of shape [sh] that an index selects; axes
    without an entry are taken whole. *)
Fixpoint selects (ss : list sl) (sh idx : list Z) : Prop :=
  match sh, idx with
  | n :: sh', i :: idx' =>
      match ss with
      | [] => 0 <= i < n /\ selects [] sh' idx'
      | SAll :: ss' => 0 <= i < n /\ selects ss' sh' idx'
      | SRange a b :: ss' => (0 <= i < n /\ a <= i < b) /\ selects ss' sh' idx'
      end
  | [], [] => ss = []
  | _, _ => False
  end.

(** Two dictionaries hold the same items. *)
Definition same_items {A} (d e : dict A) : Prop := Permutation d e.

Section Lists.
Context {C : CRing}.
(** A dictionary of arrays, nothing missing. *)
Definition bands (d : dict (nd C)) : dict (option (nd C)) := map (fun '(k, a) => (k, Some a)) d.
Definition dict_wf (d : dict (nd C)) : Prop := NoDup (map fst d) /\ forall k a, In (k, a) d -> nd_wf a.
(** All elements of a list of arrays one after the other. *)
Definition elements (l : list (nd C)) : list C := flat_map ndata l.
(** The axes argument fits keys of length [n] for an approximation of [dim]
    dimensions. *)
Definition axes_fit (axes : option (list Z)) (n dim : nat) : Prop :=
  match axes with Some l => List.length l = n | None => n = dim end.
End Lists.
