(** Specification: a filter that equals its mirror image up to the sign. *)
From Verif Require Import Base.
Open Scope Z_scope.

Definition mirrored {C : CRing} (h : list C) : Prop :=
  exists c s, (s = r1 \/ s = [--] r1) /\ forall i, gz h (c - i) = s [*] gz h i.
