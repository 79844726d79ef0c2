(** C115: the picture of an extension mode. *)
From Coq Require Import String.
From Verif Require Import Base BaseLemmas CConv Spec Instances Lengths Dwt Pad PadProofs BoundaryPlotSpec BoundaryPlot BoundaryPlotProofs.
Open Scope list_scope. Open Scope Z_scope.

Theorem C115_picture : forall (C : CRing) fuel (x : list C) m symw, min_len m <= zlen x -> (m = SMOOTH -> 2 <= zlen x) -> 5 * zlen x + 9 < Z.of_nat fuel ->
  let e := evened m x in let n := zlen e in
  exists p, boundary_mode_subplot fuel x (mode_name m) symw = Ok p /\
    dots p = tab (5 * n) (fun t => (t, ext m e (t - 2 * n))) /\
    red p = tab (match m with PERIODIZATION => n - 1 | _ => n end) (fun i => (2 * n + i, gz e i)) /\
    bars p = bars_of m symw n.
Proof. exact subplot_spec. Qed.
Print Assumptions C115_picture.
Example C115_picture_ex : boundary_mode_subplot (C := Zring) 99 [7; 8] "reflect" true =
  Ok (mkPicture (C := Zring) [(0, 7); (1, 8); (2, 7); (3, 8); (4, 7); (5, 8); (6, 7); (7, 8); (8, 7); (9, 8)] [(4, 7); (5, 8)] [4; 6; 8; 10; 12; 14]).
Proof. reflexivity. Qed.

(** The bars are axes and centres of symmetry (whole samples for reflect and antireflect, halves for symmetric and antisymmetric). *)
Theorem C115_symmetry : forall (C : CRing) fuel (x : list C) p b, 2 <= zlen x -> 5 * zlen x + 9 < Z.of_nat fuel -> In b (bars p) ->
  (boundary_mode_subplot fuel x "reflect" true = Ok p -> forall t, drawn REFLECT x (b - t) = drawn REFLECT x t) /\
  (boundary_mode_subplot fuel x "antireflect" true = Ok p -> forall t, drawn ANTIREFLECT x (b - t) [+] drawn ANTIREFLECT x t = drawn ANTIREFLECT x (b / 2) [+] drawn ANTIREFLECT x (b / 2)) /\
  (boundary_mode_subplot fuel x "symmetric" false = Ok p -> forall t, drawn SYMMETRIC x (b - t) = drawn SYMMETRIC x t) /\
  (boundary_mode_subplot fuel x "antisymmetric" false = Ok p -> forall t, drawn ANTISYMMETRIC x (b - t) = [--] drawn ANTISYMMETRIC x t).
Proof. exact subplot_symmetry. Qed.
Print Assumptions C115_symmetry.
Example C115_symmetry_ex : exists p, boundary_mode_subplot (C := Zring) 99 [1; 2; 4] "antisymmetric" false = Ok p /\ In 17 (bars p) /\
  drawn (C := Zring) ANTISYMMETRIC [1; 2; 4] 8 = 4 /\ drawn (C := Zring) ANTISYMMETRIC [1; 2; 4] (17 - 8) = -4.
Proof. eexists. split; [vm_compute; reflexivity|]. split; [cbn; tauto|]. split; reflexivity. Qed.

(** Between two neighbouring bars of the periodic modes lies one copy of the signal. *)
Theorem C115_copies : forall (C : CRing) fuel (x : list C) m p k i, 1 <= zlen x -> m = PERIODIC \/ m = PERIODIZATION -> 5 * zlen x + 9 < Z.of_nat fuel ->
  boundary_mode_subplot fuel x (mode_name m) false = Ok p -> (k < 5)%nat -> 0 <= i < zlen (evened m x) ->
  let b := nth k (bars p) 0 in nth (S k) (bars p) 0 = b + 2 * zlen (evened m x) /\ b mod 2 = 1 /\ drawn m x ((b + 1) / 2 + i) = gz (evened m x) i.
Proof. exact subplot_copies. Qed.
Print Assumptions C115_copies.
Example C115_copies_ex : exists p, boundary_mode_subplot (C := Zring) 99 [1; 2; 4] "periodization" false = Ok p /\ bars p = [-1; 7; 15; 23; 31; 39] /\
  map fst (red p) = [8; 9; 10] /\ map (drawn (C := Zring) PERIODIZATION [1; 2; 4]) [8; 9; 10; 11] = [1; 2; 4; 4].
Proof. eexists. split; [vm_compute; reflexivity|]. repeat split; reflexivity. Qed.

(** In the modes smooth, constant and zero the two bars enclose exactly the red dots. *)
Theorem C115_enclose : forall (C : CRing) fuel (x : list C) m symw p t, 1 <= zlen x -> m = SMOOTH \/ m = CONSTANT_EDGE \/ m = ZEROPAD -> (m = SMOOTH -> 2 <= zlen x) ->
  5 * zlen x + 9 < Z.of_nat fuel -> boundary_mode_subplot fuel x (mode_name m) symw = Ok p ->
  exists b b', bars p = [b; b'] /\ (In t (map fst (red p)) <-> b <= 2 * t <= b').
Proof. exact subplot_enclose. Qed.
Print Assumptions C115_enclose.
Example C115_enclose_ex : exists p, boundary_mode_subplot (C := Zring) 99 [1; 2; 4] "smooth" true = Ok p /\ bars p = [12; 16] /\ map fst (red p) = [6; 7; 8].
Proof. eexists. split; [vm_compute; reflexivity|]. split; reflexivity. Qed.

(** In periodization mode the last sample of a signal of even length is not red. *)
Theorem C115_red_refuted : exists x p, zlen x mod 2 = 0 /\ boundary_mode_subplot (C := Zring) 99 x "periodization" false = Ok p /\ map snd (red p) <> x.
Proof. exists [1; 2]. eexists. split; [reflexivity|]. split; [vm_compute; reflexivity|discriminate]. Qed.
Print Assumptions C115_red_refuted.
(** With the default symw=True the bars of mode symmetric are not axes of symmetry. *)
Theorem C115_default_refuted : exists x p b t, boundary_mode_subplot (C := Zring) 99 x "symmetric" true = Ok p /\ In b (bars p) /\ drawn (C := Zring) SYMMETRIC x (b - t) <> drawn (C := Zring) SYMMETRIC x t.
Proof. exists [1; 2; 4]. eexists. exists 12, 7. split; [vm_compute; reflexivity|]. split; [cbn; tauto|vm_compute; discriminate]. Qed.
Print Assumptions C115_default_refuted.
