(** Property theorems for what the discrete transforms refuse (C122). *)
From Coq Require Import List Ascii String.
From Verif Require Import Base BaseLemmas CConv Spec Instances Lengths Dwt Nd NdSpec Axis Multidim Multilevel MultilevelNd Swt SwtNd SwtNdRefuse DwtRefuse ExBanks ExNd ExMra.
Import ListNotations.
Open Scope string_scope. Open Scope list_scope. Open Scope Z_scope.

Theorem C122_dwt : forall (C : CRing) fuel junk (data : sarr C) w m axis,
  (outside (ndim data) axis -> py_dwt fuel junk data w m axis = Err AxisError) /\
  (forall x : list C, zlen x < 1 -> dwt_single fuel x w m = Err ValueError) /\
  (forall x : list C, zlen x = 1 -> 2 <= dec_len w -> m = REFLECT \/ m = ANTIREFLECT -> dwt_single fuel x w m = Err ValueError).
Proof. exact dwt_refuses. Qed.
Print Assumptions C122_dwt.
Example C122_dwt_ex : outside (ndim (s2_ 2 2 [1; 2; 3; 4])) 2 /\ zlen [7] = 1 /\ 2 <= dec_len zbank2 /\
  dwt_single (C := Zring) 99 [7] zbank2 REFLECT = Err ValueError /\ exists r, dwt_single (C := Zring) 99 [7] zbank2 SYMMETRIC = Ok r.
Proof. split; [right; vm_compute; congruence|]. repeat split; try (vm_compute; congruence). eexists. vm_compute. reflexivity. Qed.

Theorem C122_idwt : forall (C : CRing) fuel junk (a d : sarr C) w m axis,
  py_idwt fuel junk None None w m axis = Err ValueError /\
  (outside (ndim a) axis -> py_idwt fuel junk (Some a) None w m axis = Err AxisError /\ py_idwt fuel junk (Some a) (Some d) w m axis = Err AxisError) /\
  (outside (ndim d) axis -> py_idwt fuel junk None (Some d) w m axis = Err AxisError) /\
  (forall x y : list C, zlen x <> zlen y -> idwt_single fuel x y w m = Err ValueError).
Proof. exact idwt_refuses. Qed.
Print Assumptions C122_idwt.
Example C122_idwt_ex : outside (ndim (s2_ 2 2 [1; 2; 3; 4])) (-3) /\ zlen [1; 2] <> zlen [3] /\ idwt_single (C := Zring) 99 [1; 2] [3] zbank2 SYMMETRIC = Err ValueError.
Proof. split; [left; vm_compute; congruence|]. split; [discriminate|reflexivity]. Qed.

Theorem C122_dwtn : forall (C : CRing) fuel junk (data : sarr C) w m axes, (ndim data < 1 -> dwtn fuel junk data w m axes = Err ValueError) /\
  (1 <= ndim data -> let n := List.length (match axes with Some l => l | None => tab (ndim data) (fun i => i) end) in
     wrong_count w n \/ wrong_count m n -> dwtn fuel junk data w m axes = Err ValueError).
Proof. exact dwtn_refuses. Qed.
Print Assumptions C122_dwtn.
Example C122_dwtn_ex : ndim (of_nd (mkNd (C := Zring) [] [7])) < 1 /\ wrong_count (Seq [SYMMETRIC; ZEROPAD; SYMMETRIC]) 2 /\
  dwtn (C := Zring) 99 jk (s2_ 2 2 [1; 2; 3; 4]) (One zbank) (Seq [SYMMETRIC; ZEROPAD; SYMMETRIC]) None = Err ValueError.
Proof. split; [reflexivity|]. split; [eexists; repeat split; cbn; lia|reflexivity]. Qed.

(** Entries None count as missing. *)
Theorem C122_idwtn : forall (C : CRing) fuel junk (d : dict (option (sarr C))) w m axes,
  (forall k v, In (k, v) d -> v = None) \/ (exists k a c, In (k, Some a) d /\ In c (list_ascii_of_string k) /\ c <> "a"%char /\ c <> "d"%char) \/
  (exists k a k' a', In (k, Some a) d /\ In (k', Some a') d /\ (String.length k <> String.length k' \/ sshape a <> sshape a')) ->
  idwtn fuel junk d w m axes = Err ValueError.
Proof. exact idwtn_refuses. Qed.
Print Assumptions C122_idwtn.
Example C122_idwtn_ex : In "b"%char (list_ascii_of_string "ab") /\ "b"%char <> "a"%char /\ "b"%char <> "d"%char /\ sshape (s2_ 2 2 [1; 0; 3; 1]) <> sshape (s2_ 1 2 [1; 2]) /\
  idwtn (C := Zring) 99 jk [("aa", None); ("ab", Some (s2_ 2 2 [1; 2; 3; 4]))] (One zbank) (One SYMMETRIC) None = Err ValueError /\
  idwtn (C := Zring) 99 jk [("aa", Some (s2_ 2 2 [1; 0; 3; 1])); ("dd", Some (s2_ 1 2 [1; 2]))] (One zbank) (One SYMMETRIC) None = Err ValueError.
Proof. split; [right; left; reflexivity|]. repeat split; try discriminate; reflexivity. Qed.

Theorem C122_wavedecn : forall (C : CRing) fuel junk (data : sarr C) w m level axes,
  (ndim data < 1 -> wavedecn fuel junk data w m level axes = Err ValueError) /\
  (forall l, axes = Some l -> 1 <= ndim data -> NoDup l -> Exists (outside (ndim data)) l -> wavedecn fuel junk data w m level axes = Err AxisError) /\
  (let l := match axes with Some l => l | None => tab (ndim data) (fun i => i) end in 1 <= ndim data -> NoDup l -> Forall (fun x => ~ outside (ndim data) x) l ->
     wrong_count w (List.length l) \/ (exists v, level = Some v /\ v < 0) \/ l = [] -> wavedecn fuel junk data w m level axes = Err ValueError).
Proof. exact wavedecn_refuses. Qed.
Print Assumptions C122_wavedecn.
Example C122_wavedecn_ex : NoDup [0; 2] /\ Exists (outside 2) [0; 2] /\ Forall (fun x => ~ outside 2 x) [0; -1] /\
  wavedecn (C := Zring) 99 jk (s2_ 2 2 [1; 2; 3; 4]) (One zbank) (One SYMMETRIC) None (Some [0; 2]) = Err AxisError /\
  wavedecn (C := Zring) 99 jk (s2_ 2 2 [1; 2; 3; 4]) (One zbank) (One SYMMETRIC) (Some (-1)) (Some [0; -1]) = Err ValueError.
Proof.
  split; [repeat constructor; cbn; intuition lia|]. split; [right; left; unfold outside; lia|]. split; [repeat constructor; unfold outside; lia|]. split; reflexivity.
Qed.

Theorem C122_wavedec2 : forall (C : CRing) fuel junk (data : sarr C) w m level,
  (forall axes, ndim data < 2 \/ List.length axes <> 2%nat \/ ~ NoDup axes -> wavedec2 fuel junk data w m level axes = Err ValueError) /\
  (forall a b, 2 <= ndim data -> a <> b -> outside (ndim data) a \/ outside (ndim data) b -> wavedec2 fuel junk data w m level [a; b] = Err AxisError) /\
  (forall a b, 2 <= ndim data -> a <> b -> ~ outside (ndim data) a -> ~ outside (ndim data) b -> wrong_count w 2 \/ (exists v, level = Some v /\ v < 0) -> wavedec2 fuel junk data w m level [a; b] = Err ValueError).
Proof. exact wavedec2_refuses. Qed.
Print Assumptions C122_wavedec2.
Example C122_wavedec2_ex : outside 2 (-3) /\ ~ outside 2 (-2) /\ wrong_count (Seq [zbank; zbank; zbank]) 2 /\
  wavedec2 (C := Zring) 99 jk (s2_ 2 2 [1; 2; 3; 4]) (One zbank) (One SYMMETRIC) None [0; -3] = Err AxisError /\
  wavedec2 (C := Zring) 99 jk (s2_ 2 2 [1; 2; 3; 4]) (Seq [zbank; zbank; zbank]) (One SYMMETRIC) None [0; 1] = Err ValueError /\
  wavedec2 (C := Zring) 99 jk (of_nd (mkNd (C := Zring) [2] [1; 2])) (One zbank) (One SYMMETRIC) None [0; 1] = Err ValueError.
Proof. unfold outside. split; [lia|]. split; [lia|]. split; [eexists; repeat split; cbn; lia|]. repeat split; reflexivity. Qed.

Theorem C122_waverecn : forall (C : CRing) fuel junk a (ds : list (dict (option (sarr C)))) w m axes,
  (exists d, In d ds /\ ((exists k, In (k, None) d) \/ bad_letter d \/ bad_lengths d)) -> waverecn fuel junk a ds w m axes = Err ValueError.
Proof. exact waverecn_refuses. Qed.
Print Assumptions C122_waverecn.
Example C122_waverecn_ex : bad_lengths [("ad", Some (s2_ 2 2 [1; 2; 3; 4])); ("d", Some (s2_ 2 2 [1; 2; 3; 4]))] /\ bad_letter [("ah", Some (s2_ 2 2 [1; 2; 3; 4]))] /\
  waverecn (C := Zring) 99 jk (Some (s2_ 2 2 [1; 2; 3; 4])) [[("ad", None)]] (One zbank) (One SYMMETRIC) None = Err ValueError.
Proof.
  split; [do 4 eexists; split; [left; reflexivity|split; [right; left; reflexivity|discriminate]]|].
  split; [do 3 eexists; split; [left; reflexivity|split; [right; left; reflexivity|split; discriminate]]|reflexivity].
Qed.
