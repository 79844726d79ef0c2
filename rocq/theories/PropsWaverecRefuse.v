(** Property theorems for what waverec2, wavedecn_shapes and dwtn_max_level refuse (C122). *)
From Coq Require Import List Ascii String.
From Verif Require Import Base BaseLemmas CConv Spec Instances Lengths Dwt Nd NdSpec Axis Multidim Multilevel MultilevelNd Swt SwtNd SwtNdRefuse DwtRefuse WaverecRefuse ExBanks ExNd ExMra.
Import ListNotations.
Open Scope list_scope. Open Scope Z_scope.

Theorem C122_waverec2 : forall (C : CRing) fuel junk (a : option (sarr C)) (ds : list (option (sarr C) * option (sarr C) * option (sarr C))) w m axes,
  (~ NoDup axes -> waverec2 fuel junk a ds w m axes = Err ValueError) /\
  (forall d1 d2 d3 rest x y, ds = (d1, d2, d3) :: rest -> NoDup axes -> In (Some x) [d1; d2; d3] -> In (Some y) [d1; d2; d3] -> sshape x <> sshape y ->
     waverec2 fuel junk a ds w m axes = Err ValueError) /\
  (forall rest, ds = (None, None, None) :: rest -> NoDup axes -> match a with None => True | Some a0 => ndim a0 < 2 end -> waverec2 fuel junk a ds w m axes = Err IndexError) /\
  (forall a0, a = Some a0 -> 2 <= ndim a0 -> ds <> [] -> List.length axes <> 2%nat -> waverec2 fuel junk a ds w m axes = Err ValueError).
Proof. exact waverec2_refuses. Qed.
Print Assumptions C122_waverec2.
Example C122_waverec2_ex : NoDup [0; 1] /\ sshape (s2_ 2 2 [1; 2; 3; 4]) <> sshape (s2_ 1 2 [1; 2]) /\ ~ NoDup [1; 1] /\
  waverec2 (C := Zring) 99 jk (Some (s2_ 2 2 [1; 2; 3; 4])) [(None, Some (s2_ 2 2 [1; 2; 3; 4]), Some (s2_ 1 2 [1; 2]))] (One zbank) (One SYMMETRIC) [0; 1] = Err ValueError /\
  waverec2 (C := Zring) 99 jk None [(None, None, None)] (One zbank) (One SYMMETRIC) [0; 1] = Err IndexError.
Proof.
  split; [repeat constructor; cbn; intuition lia|]. split; [discriminate|]. split; [intros H; inversion H as [|x l Hin Hr]; apply Hin; now left|]. split; reflexivity.
Qed.

(** Arrays of different shapes at any level: no result, whatever the levels before do. *)
Theorem C122_waverec2_uneven : forall (C : CRing) fuel junk (a : option (sarr C)) (ds : list (option (sarr C) * option (sarr C) * option (sarr C))) w m axes d1 d2 d3 x y,
  In (d1, d2, d3) ds -> In (Some x) [d1; d2; d3] -> In (Some y) [d1; d2; d3] -> sshape x <> sshape y -> forall r, waverec2 fuel junk a ds w m axes <> Ok r.
Proof. exact waverec2_uneven. Qed.
Print Assumptions C122_waverec2_uneven.
(** The second of two levels. *)
Example C122_waverec2_uneven_ex : let q := s2_ 1 1 [5] in let x := s2_ 2 2 [1; 2; 3; 4] in let y := s2_ 1 2 [1; 2] in
  sshape x <> sshape y /\ (exists r, waverec2 (C := Zring) 99 jk (Some q) [(Some q, Some q, Some q)] (One zbank2) (One SYMMETRIC) [0; 1] = Ok r) /\
  waverec2 (C := Zring) 99 jk (Some q) [(Some q, Some q, Some q); (Some x, None, Some y)] (One zbank2) (One SYMMETRIC) [0; 1] = Err ValueError.
Proof. split; [discriminate|]. split; [eexists; vm_compute; reflexivity|vm_compute; reflexivity]. Qed.

(** One level: idwt2, for the arrays that are there. *)
Theorem C122_waverec2_one_level : forall (C : CRing) fuel junk (a : sarr C) d1 d2 d3 w m axes, NoDup axes -> 2 <= ndim a -> (forall x, In (Some x) [d1; d2; d3] -> sshape x = sshape a) ->
  waverec2 fuel junk (Some a) [(d1, d2, d3)] w m axes = idwt2 fuel junk (Some a, (d1, d2, d3)) w m axes.
Proof. exact waverec2_one_level. Qed.
Print Assumptions C122_waverec2_one_level.
Example C122_waverec2_one_level_ex : let q := s2_ 1 1 [5] in NoDup [0; 1] /\ 2 <= ndim q /\ (forall x, In (Some x) [None; Some q; None] -> sshape x = sshape q) /\
  exists r, idwt2 (C := Zring) 99 jk (Some q, (None, Some q, None)) (One zbank2) (One SYMMETRIC) [0; 1] = Ok (Some r).
Proof.
  split; [repeat constructor; cbn; intuition lia|]. split; [vm_compute; congruence|]. split; [intros x [E|[E|[E|[]]]]; try discriminate; injection E as <-; reflexivity|].
  eexists; vm_compute; reflexivity.
Qed.

Theorem C122_wavedecn_shapes : forall shape lens m level axes,
  (shape = [] -> wavedecn_shapes shape lens m level axes = Err ValueError) /\
  (forall l, axes = Some l -> shape <> [] -> ~ NoDup l -> wavedecn_shapes shape lens m level axes = Err ValueError) /\
  (forall l, axes = Some l -> shape <> [] -> NoDup l -> Exists (outside (zlen shape)) l -> wavedecn_shapes shape lens m level axes = Err AxisError) /\
  (let l := match axes with Some l => l | None => tab (zlen shape) (fun i => i) end in shape <> [] -> NoDup l -> Forall (fun x => ~ outside (zlen shape) x) l ->
     wrong_count lens (List.length l) \/ wrong_count m (List.length l) \/ (exists v, level = Some v /\ v < 0) \/ l = [] -> wavedecn_shapes shape lens m level axes = Err ValueError).
Proof. exact wavedecn_shapes_refuses. Qed.
Print Assumptions C122_wavedecn_shapes.
Example C122_wavedecn_shapes_ex : Exists (outside (zlen [64; 32])) [0; -3] /\ wrong_count (Seq [4; 4; 2]) 2 /\ Forall (fun x => ~ outside (zlen [64; 32]) x) [-1; 0] /\
  wavedecn_shapes [64; 32] (One 4) (One SYMMETRIC) (Some 3) (Some [0; -3]) = Err AxisError /\
  wavedecn_shapes [64; 32] (Seq [4; 4; 2]) (One SYMMETRIC) (Some 3) (Some [-1; 0]) = Err ValueError /\
  wavedecn_shapes [64; 32] (One 4) (One SYMMETRIC) (Some (-1)) None = Err ValueError.
Proof.
  split; [right; left; left; reflexivity|]. split; [eexists; repeat split; cbn; lia|]. split; [repeat constructor; unfold outside, zlen; cbn; lia|]. split; [|split]; reflexivity.
Qed.

Theorem C122_dwtn_max_level : forall shape lens axes,
  (shape = [] -> dwtn_max_level shape lens axes = Err ValueError) /\
  (forall l, axes = Some l -> shape <> [] -> ~ NoDup l -> dwtn_max_level shape lens axes = Err ValueError) /\
  (forall l, axes = Some l -> shape <> [] -> NoDup l -> Exists (outside (zlen shape)) l -> dwtn_max_level shape lens axes = Err AxisError) /\
  (let l := match axes with Some l => l | None => tab (zlen shape) (fun i => i) end in shape <> [] -> NoDup l -> Forall (fun x => ~ outside (zlen shape) x) l ->
     wrong_count lens (List.length l) \/ l = [] -> dwtn_max_level shape lens axes = Err ValueError).
Proof. exact dwtn_max_level_refuses. Qed.
Print Assumptions C122_dwtn_max_level.
Example C122_dwtn_max_level_ex : Exists (outside (zlen [64; 32])) [2] /\ wrong_count (Seq [4; 4; 2]) 2 /\
  dwtn_max_level [64; 32] (One 4) (Some [2]) = Err AxisError /\ dwtn_max_level [64; 32] (Seq [4; 4; 2]) None = Err ValueError /\ dwtn_max_level [64; 32] (One 4) (Some [0; 0]) = Err ValueError.
Proof. split; [left; right; vm_compute; congruence|]. split; [eexists; repeat split; cbn; lia|]. split; [|split]; reflexivity. Qed.
