(** Refused arguments: empty lists, lists of different lengths, a wrong shape. *)
From Coq Require Import QArith String.
From Verif Require Import Base BaseLemmas CConv Lengths Dwt Nd Axis Multidim MultilevelNd Packing Mra Fsw.
Open Scope list_scope. Open Scope Z_scope.

Lemma unravel_lengths (C : CRing) (arr : list C) slices shapes f : List.length (snd shapes) <> List.length (snd slices) -> unravel_coeffs C arr slices shapes f = Err ValueError.
Proof. intros H. unfold unravel_coeffs. destruct (Nat.eqb_spec (List.length (snd shapes)) (List.length (snd slices))); [contradiction|reflexivity]. Qed.

Lemma set_coeffs_spec (C : CRing) (r : fsw (C := C)) (c : nd C) :
  (nshape c = nshape (fs_coeffs r) -> exists r', set_coeffs r c = Ok r' /\ fs_coeffs r' = c /\ fs_slices r' = fs_slices r /\ fs_wavelets r' = fs_wavelets r /\ fs_modes r' = fs_modes r /\ fs_axes r' = fs_axes r) /\
  (nshape c <> nshape (fs_coeffs r) -> set_coeffs r c = Err ValueError).
Proof.
  unfold set_coeffs. destruct (list_eq_dec Z.eq_dec (nshape c) (nshape (fs_coeffs r))) as [E|E]; split; intros H; try contradiction; [|reflexivity].
  eexists. split; [reflexivity|]. repeat split.
Qed.

Lemma imra_nothing (C : CRing) (h : heap (C := C)) : imra h [] = Err TypeError.
Proof. reflexivity. Qed.
Lemma waverec_nothing (C : CRing) fuel (junk : Z -> C) w m axis : py_waverec fuel junk [] w m axis = Err ValueError.
Proof. reflexivity. Qed.
