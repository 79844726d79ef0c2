(** Property theorems for what iswtn refuses (C121). *)
From Coq Require Import List Ascii String.
From Verif Require Import Base BaseLemmas CConv Spec Instances Lengths Dwt Nd NdSpec Axis Multidim MultilevelNd Swt SwtNd SwtNdRefuse ExBanks ExNd ExMra ExSwtNdRefuse.
Import ListNotations.
Open Scope list_scope. Open Scope string_scope. Open Scope list_scope. Open Scope Z_scope.

Theorem C121_items : forall (C : CRing) fuel junk (half : C) w axes norm,
  iswtn fuel junk half [] w axes norm = ([], Err IndexError) /\
  (forall cs, iswtn fuel junk half (cs ++ [NDict []]) w axes norm = (cs ++ [NDict []], Err ValueError)) /\
  (forall cs a, sshape a = [] -> iswtn fuel junk half (cs ++ [NArr a]) w axes norm = (cs ++ [NArr a], Err TypeError)) /\
  (forall cs a t, sshape a = 0 :: t -> iswtn fuel junk half (cs ++ [NArr a]) w axes norm = (cs ++ [NArr a], Err ValueError)) /\
  (forall cs a s, sshape a = [s] -> s <> 0 -> iswtn fuel junk half (cs ++ [NArr a]) w axes norm = (cs ++ [NArr a], Err TypeError)).
Proof. exact iswtn_refuses. Qed.
Print Assumptions C121_items.
Example C121_items_ex : sshape (of_nd (mkNd (C := Zring) [0; 3] [])) = [0; 3] /\ sshape (of_nd (mkNd (C := Zring) [2] [5; 6])) = [2] /\
  iswtn (C := Zring) 99 jk 1 [NArr (of_nd (mkNd (C := Zring) [2] [5; 6]))] (One zbank) None None = ([NArr (of_nd (mkNd (C := Zring) [2] [5; 6]))], Err TypeError) /\
  iswtn (C := Zring) 99 jk 1 [NArr (of_nd (mkNd (C := Zring) [0; 3] []))] (One zbank) None None = ([NArr (of_nd (mkNd (C := Zring) [0; 3] []))], Err ValueError).
Proof. repeat split; reflexivity. Qed.

Theorem C121_no_approximation : forall (C : CRing) fuel junk (half : C) cs d n k d0 rest w axes norm, NDict d0 :: rest = cs ++ [NDict d] -> longest d n -> a_times n k -> dget d0 k = None ->
  iswtn fuel junk half (NDict d0 :: rest) w axes norm = (NDict d0 :: rest, Err KeyError).
Proof. exact iswtn_no_approximation. Qed.
Print Assumptions C121_no_approximation.
Example C121_no_approximation_ex : [NDict d_a; NDict d_aa] = [NDict d_a] ++ [NDict d_aa] /\ longest d_aa 2 /\ a_times 2 "aa" /\ dget d_a "aa" = None.
Proof.
  split; [reflexivity|]. split; [split; [exists "ad"; eexists; split; [left; reflexivity|reflexivity]|]|split; [split; [reflexivity|cbn; intuition congruence]|reflexivity]].
  intros k v [E|[E|[]]]; injection E as <- _; cbn; lia.
Qed.

Theorem C121_axes : forall (C : CRing) fuel junk (half : C) cs d n k it rest cA w axes l norm, it :: rest = cs ++ [NDict d] -> longest d n -> a_times n k ->
  match it with NArr a => a = cA | NDict d0 => dget d0 k = Some cA end -> front_axes (ndim cA) axes l ->
  ~ NoDup l \/ List.length l <> n \/ (exists ws, w = Seq ws /\ List.length ws <> 1%nat /\ List.length ws <> n) ->
  iswtn fuel junk half (it :: rest) w axes norm = (it :: rest, Err ValueError).
Proof. exact iswtn_axes_refused. Qed.
Print Assumptions C121_axes.
Example C121_axes_ex : [NDict d_aa] = [] ++ [NDict d_aa] /\ a_times 2 "aa" /\ dget d_aa "aa" = Some (s2_ 2 2 [1; 2; 3; 4]) /\
  front_axes 2 (Some [1; -1]) [1; 1] /\ ~ NoDup [1; 1] /\ front_axes 2 (Some [-1]) [1] /\ List.length [1] <> 2%nat /\ front_axes 2 None [0; 1] /\
  iswtn (C := Zring) 99 jk 1 [NDict d_aa] (One zbank) (Some [1; -1]) None = ([NDict d_aa], Err ValueError) /\
  iswtn (C := Zring) 99 jk 1 [NDict d_aa] (Seq [zbank; zbank; zbank]) None None = ([NDict d_aa], Err ValueError).
Proof.
  split; [reflexivity|]. split; [split; [reflexivity|cbn; intuition congruence]|]. split; [reflexivity|]. split; [repeat constructor|]. split; [inversion 1; cbn in *; tauto|]. split; [repeat constructor|]. split; [discriminate|]. split; [reflexivity|]. split; reflexivity.
Qed.

Theorem C121_shapes : forall (C : CRing) fuel junk (half : C) d1 cs' cs d n cA rest w axes l norm, rest = NDict d1 :: cs' -> NArr cA :: rest = cs ++ [NDict d] -> longest d n ->
  front_axes (ndim cA) axes l -> NoDup l -> List.length l = n -> match w with One _ => True | Seq ws => List.length ws = 1%nat \/ List.length ws = n end -> uneven d1 ->
  iswtn fuel junk half (NArr cA :: rest) w axes norm = (NArr cA :: rest, Err RuntimeError).
Proof. exact iswtn_shapes. Qed.
Print Assumptions C121_shapes.
Example C121_shapes_ex : uneven d_uneven /\ longest d_uneven 2 /\ front_axes 2 None [0; 1].
Proof.
  split; [right; exists "ad"; eexists; exists "da"; eexists; split; [left; reflexivity|]; split; [right; left; reflexivity|discriminate]|].
  split; [split; [exists "ad"; eexists; split; [left; reflexivity|reflexivity]|]|reflexivity].
  intros k v [E|[E|[]]]; injection E as <- _; cbn; lia.
Qed.

Theorem C121_swtn : forall (C : CRing) fuel junk (data : sarr C) w level start axes l trim norm, front_axes (ndim data) axes l ->
  (ndim data < 1 -> swtn fuel junk data w level start axes trim norm = Err ValueError) /\
  (1 <= ndim data -> match axes with None => False | Some a => Exists (outside (ndim data)) a end -> swtn fuel junk data w level start axes trim norm = Err AxisError) /\
  (1 <= ndim data -> match axes with None => True | Some a => Forall (fun x => ~ outside (ndim data) x) a end ->
     ~ NoDup l \/ (exists ws, w = Seq ws /\ List.length ws <> 1%nat /\ List.length ws <> List.length l) ->
     swtn fuel junk data w level start axes trim norm = Err ValueError).
Proof. exact swtn_refuses. Qed.
Print Assumptions C121_swtn.
Example C121_swtn_ex : front_axes 2 (Some [1; -1]) [1; 1] /\ Forall (fun x => ~ outside 2 x) [1; -1] /\ ~ NoDup [1; 1] /\ Exists (outside 2) [0; -3] /\
  swtn (C := Zring) 99 jk (s2_ 2 2 [1; 2; 3; 4]) (One zbank) 1 0 (Some [1; -1]) true None = Err ValueError /\
  swtn (C := Zring) 99 jk (s2_ 2 2 [1; 2; 3; 4]) (One zbank) 1 0 (Some [0; -3]) true None = Err AxisError /\
  swtn (C := Zring) 99 jk (of_nd (mkNd (C := Zring) [] [7])) (One zbank) 1 0 None true None = Err ValueError.
Proof.
  split; [repeat constructor|]. split; [repeat constructor; unfold outside; lia|]. split; [inversion 1; cbn in *; tauto|]. split; [right; left; unfold outside; lia|]. repeat split; reflexivity.
Qed.

Theorem C121_swt2 : forall (C : CRing) fuel junk (data : sarr C) w level start trim norm,
  (forall axes, List.length axes <> 2%nat -> swt2 fuel junk data w level start axes trim norm = Err ValueError) /\
  (forall a b, a = b \/ ndim data < 2 -> swt2 fuel junk data w level start [a; b] trim norm = Err ValueError) /\
  (forall a b, a <> b -> 2 <= ndim data -> outside (ndim data) a \/ outside (ndim data) b -> swt2 fuel junk data w level start [a; b] trim norm = Err AxisError) /\
  (forall a b, ~ outside (ndim data) a -> ~ outside (ndim data) b -> a = b + ndim data \/ b = a + ndim data -> swt2 fuel junk data w level start [a; b] trim norm = Err ValueError).
Proof. exact swt2_refuses. Qed.
Print Assumptions C121_swt2.
Example C121_swt2_ex : ~ outside 2 1 /\ ~ outside 2 (-1) /\ 1 = -1 + 2 /\ outside 2 2 /\
  swt2 (C := Zring) 99 jk (s2_ 2 2 [1; 2; 3; 4]) (One zbank) 1 0 [1; -1] false None = Err ValueError /\
  swt2 (C := Zring) 99 jk (s2_ 2 2 [1; 2; 3; 4]) (One zbank) 1 0 [0; 2] false None = Err AxisError /\
  swt2 (C := Zring) 99 jk (s2_ 2 2 [1; 2; 3; 4]) (One zbank) 1 0 [0; 1; 2] false None = Err ValueError.
Proof. unfold outside. repeat split; try lia; reflexivity. Qed.

Theorem C121_swt : forall (C : CRing) fuel junk (data : sarr C) w level start axis trim norm, outside (ndim data) axis ->
  py_swt fuel junk data w level start axis trim norm = Err AxisError.
Proof. exact swt_refuses. Qed.
Print Assumptions C121_swt.
Example C121_swt_ex : outside (ndim (s2_ 2 2 [1; 2; 3; 4])) (-3) /\ py_swt (C := Zring) 99 jk (s2_ 2 2 [1; 2; 3; 4]) zbank (Some 1) 0 (-3) false None = Err AxisError.
Proof. split; [left; reflexivity|reflexivity]. Qed.

Theorem C121_iswt : forall (C : CRing) fuel junk (half : C) w norm axis,
  py_iswt fuel junk half [] w norm axis = Err IndexError /\
  (forall it rest a, match it with SPair b _ => b = a | SArr b => b = a end -> ndim a <= 1 -> axis <> 0 -> axis <> -1 -> py_iswt fuel junk half (it :: rest) w norm axis = Err AxisError) /\
  (forall it rest a, match it with SPair b _ => b = a | SArr b => b = a end -> ndim a = 0 -> axis = 0 \/ axis = -1 -> py_iswt fuel junk half (it :: rest) w norm axis = Err ValueError).
Proof. exact iswt_refuses. Qed.
Print Assumptions C121_iswt.
Example C121_iswt_ex : ndim (of_nd (mkNd (C := Zring) [2] [5; 6])) <= 1 /\ ndim (of_nd (mkNd (C := Zring) [] [5])) = 0 /\
  py_iswt (C := Zring) 99 jk 1 [SArr (of_nd (mkNd (C := Zring) [2] [5; 6])); SArr (of_nd (mkNd (C := Zring) [2] [1; 2]))] zbank None 1 = Err AxisError.
Proof. split; [vm_compute; congruence|]. split; reflexivity. Qed.
