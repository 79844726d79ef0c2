(** Property theorems for pad of arrays with several dimensions (C31). *)
From Coq Require Import String.
From Verif Require Import Base BaseLemmas CConv Spec Instances Lengths Dwt DwtProofs ExBanks Nd NdSpec Axis AxisProofs AxisProofs2 Multidim MultidimProofs MultidimFacts ExNd Pad PadProofs PadNd PadNdSpec PadNdProofs PadNdDwt PadNdFacts PadNdEmpty.

(** [ndext] extends the array along one axis after the other. *)
Theorem C31_pad_nd_partial : forall fuel (C : CRing) m (x : nd C) a ws,
  nd_wf x -> widths (List.length (nshape x)) a = Ok ws -> Forall2 (pad_ok m fuel) (nshape x) ws ->
  exists p, padn fuel x a (mode_name m) = Ok p /\ nd_wf p /\ nshape p = padded m (nshape x) ws /\
    forall idx, valid (padded m (nshape x) ws) idx -> ndget p idx = ndext m (nshape x) (ndget x) (unpad ws idx).
Proof. exact padn_spec. Qed.
Print Assumptions C31_pad_nd_partial.
Example C31_pad_nd_partial_ex : let x := mkNd (C := Zring) [2; 3] [1; 2; 4; 3; 7; 5] in
  nd_wf x /\ widths 2 (WMat [[1; 2]; [0; 1]]) = Ok [(1, 2); (0, 1)] /\ Forall2 (pad_ok SMOOTH 99) (nshape x) [(1, 2); (0, 1)] /\
  padn 99 x (WMat [[1; 2]; [0; 1]]) "smooth" =
    Ok (mkNd (C := Zring) [5; 4] [-1; -3; 3; 9;  1; 2; 4; 6;  3; 7; 5; 3;  5; 12; 6; 0;  7; 17; 7; -3]) /\
  ndext SMOOTH [2; 3] (ndget x) [3; 3] = -3 /\
  padn 99 x (WInt 1) "antisymmetric" = Ok (mkNd (C := Zring) [4; 5] [1; -1; -2; -4; 4;  -1; 1; 2; 4; -4;  -3; 3; 7; 5; -5;  3; -3; -7; -5; 5]) /\
  padn 99 x (WMat [[0]; [1]]) "periodization" = Ok (mkNd (C := Zring) [2; 6] [4; 1; 2; 4; 4; 1;  5; 3; 7; 5; 5; 3]).
Proof.
  cbv zeta. split; [split; [repeat constructor; lia|reflexivity]|]. split; [reflexivity|].
  split; [repeat constructor; cbn; try lia; intros; try lia; discriminate|].
  split; [vm_compute; reflexivity|]. split; [vm_compute; reflexivity|]. split; vm_compute; reflexivity.
Qed.

(** The forms of pad_widths. *)
Theorem C31_widths : forall n,
  (forall p, 0 <= p -> widths n (WInt p) = Ok (repeat (p, p) n)) /\
  (forall p, 0 <= p -> widths n (WVec [p]) = Ok (repeat (p, p) n)) /\
  (forall l r, 0 <= l -> 0 <= r -> widths n (WVec [l; r]) = Ok (repeat (l, r) n) /\ widths n (WMat [[l; r]]) = Ok (repeat (l, r) n)) /\
  (forall ws, List.length ws = n -> (1 <= n)%nat -> Forall (fun w => 0 <= fst w /\ 0 <= snd w) ws -> widths n (WMat (map (fun w => [fst w; snd w]) ws)) = Ok ws) /\
  (forall ps, List.length ps = n -> (1 <= n)%nat -> Forall (fun p => 0 <= p) ps -> widths n (WMat (map (fun p => [p]) ps)) = Ok (map (fun p => (p, p)) ps)).
Proof. exact widths_forms. Qed.
Print Assumptions C31_widths.
Example C31_widths_ex : widths 2 (WMat [[1]; [4]]) = Ok [(1, 1); (4, 4)] /\ widths 3 (WMat [[1; 2]; [3; 4]]) = Err ValueError /\
  widths 3 (WVec [1; 2; 3]) = Err ValueError /\ widths 2 (WMat [[1]; [2; 3]]) = Err ValueError /\ widths 2 (WVec []) = Err ValueError.
Proof. repeat split. Qed.

Theorem C31_nd_bad_widths : forall fuel (C : CRing) (x : nd C) a mode, widths_wrong (List.length (nshape x)) a -> padn fuel x a mode = Err ValueError.
Proof. exact padn_bad_widths. Qed.
Print Assumptions C31_nd_bad_widths.
Example C31_nd_bad_widths_ex : widths_wrong 2 (WMat [[1; 2]; [3; -4]]) /\ widths_wrong 2 (WVec [1; 2; 3]) /\
  padn 99 (mkNd (C := Zring) [1; 1] [5]) (WMat [[1; 2]; [3; -4]]) "zero" = Err ValueError.
Proof. split; [left; exists (-4); cbn; split; [auto 6|lia]|]. split; [right; cbn; lia|]. reflexivity. Qed.

(** The bands of the transform of the padded array contain the bands of the
    transform of the array, whatever the mode of the second transform. *)
Theorem C31_nd_dwt_of_padded : forall fuel (C : CRing) junk (x : sarr C) w M M' m m' wl a ws,
  sarr_ok C x -> 1 <= ndim x <= 64 -> m <> PERIODIZATION -> m' <> PERIODIZATION ->
  List.length wl = List.length (sshape x) -> widths (List.length (sshape x)) a = Ok ws -> Forall2 (pad_ok m fuel) (sshape x) ws -> Forall2 wide_enough wl ws ->
  resolves C (ndim x) w M (default_axes (ndim x) None) (full_plan 0 m wl) -> plan_ok C fuel (full_plan 0 m wl) (sshape x) ->
  resolves C (ndim x) w M' (default_axes (ndim x) None) (full_plan 0 m' wl) -> plan_ok C fuel (full_plan 0 m' wl) (padded m (sshape x) ws) ->
  exists p X Y, padn fuel (val C x) a (mode_name m) = Ok p /\ dwtn fuel junk x w M None = Ok X /\ dwtn fuel junk (of_nd p) w M' None = Ok Y /\
    Forall2 (fun u v => fst u = fst v /\ forall idx, valid (sshape (snd u)) idx -> ndget (val C (snd v)) (half_shift ws idx) = ndget (val C (snd u)) idx) X Y.
Proof. exact dwtn_of_padded. Qed.
Print Assumptions C31_nd_dwt_of_padded.
Example C31_nd_dwt_of_padded_ex : let wl := [zbank2; zbank] in let ws := [(2, 3); (2, 3)] in
  List.length wl = List.length (sshape x23) /\ widths 2 (WVec [2; 3]) = Ok ws /\ Forall2 (pad_ok SYMMETRIC 99) (sshape x23) ws /\ Forall2 wide_enough wl ws /\
  resolves Zring (ndim x23) (Seq wl) (One SYMMETRIC) (default_axes (ndim x23) None) (full_plan 0 SYMMETRIC wl) /\ plan_ok Zring 99 (full_plan 0 SYMMETRIC wl) (sshape x23) /\
  resolves Zring (ndim x23) (Seq wl) (One ZEROPAD) (default_axes (ndim x23) None) (full_plan 0 ZEROPAD wl) /\
  plan_ok Zring 99 (full_plan 0 ZEROPAD wl) (padded SYMMETRIC (sshape x23) ws) /\
  match padn 99 (val Zring x23) (WVec [2; 3]) "symmetric" with
  | Ok p => match dwtn 99 jk x23 (Seq wl) (One SYMMETRIC) None, dwtn 99 jk (of_nd p) (Seq wl) (One ZEROPAD) None with
            | Ok X, Ok Y => map (fun u => ndget (val Zring (snd u)) [0; 1]) X = map (fun v => ndget (val Zring (snd v)) [1; 2]) Y /\
                            map (fun u => ndget (val Zring (snd u)) [0; 1]) X <> map (fun v => ndget (val Zring (snd v)) [0; 1]) Y
            | _, _ => False
            end
  | _ => False
  end.
Proof.
  cbv zeta. split; [reflexivity|]. split; [reflexivity|]. split; [repeat constructor; cbn; try lia; intros; discriminate|].
  split; [repeat constructor; cbn; lia|]. split; [repeat split|]. split; [cbn [full_plan plan_ok]; repeat split; try (cbn; lia); vm_compute; congruence|]. split; [repeat split|].
  split; [cbn [full_plan plan_ok]; repeat split; try (cbn; lia); vm_compute; congruence|]. vm_compute. split; [reflexivity|discriminate].
Qed.

Theorem C31_nd_right_width_zero : forall fuel (C : CRing) m (x : nd C) a ws,
  m = SMOOTH \/ m = ANTISYMMETRIC -> nd_wf x -> widths (List.length (nshape x)) a = Ok ws ->
  Forall2 (fun N w => 2 <= N /\ 0 <= fst w /\ 0 <= snd w /\ fst w + N + snd w + 4 < Z.of_nat fuel) (nshape x) ws ->
  (exists w, In w ws /\ snd w = 0) -> padn fuel x a (mode_name m) = Err ValueError.
Proof. exact padn_right_zero. Qed.
Print Assumptions C31_nd_right_width_zero.
Example C31_nd_right_width_zero_ex : In (0, 0) [(2, 2); (0, 0)] /\
  padn 99 (mkNd (C := Zring) [2; 2] [1; 2; 3; 4]) (WMat [[2; 2]; [0; 0]]) "antisymmetric" = Err ValueError /\
  is_ok (padn 99 (mkNd (C := Zring) [2; 2] [1; 2; 3; 4]) (WMat [[2; 2]; [0; 0]]) "symmetric").
Proof. split; [cbn; auto|]. split; [vm_compute; reflexivity|]. eexists. vm_compute. reflexivity. Qed.
(** So the rows of an image cannot be padded alone in these two modes. *)
Theorem C31_nd_one_axis_refuted : exists (x : nd Zring) a ws m, nd_wf x /\ widths (List.length (nshape x)) a = Ok ws /\
  Forall (fun N => 2 <= N) (nshape x) /\ Forall (fun w => 0 <= fst w /\ 0 <= snd w) ws /\ padn 99 x a (mode_name m) = Err ValueError.
Proof. exact padn_one_axis. Qed.
Print Assumptions C31_nd_one_axis_refuted.

(** Widths zero change nothing, and an empty axis can only be padded with zeros. *)
Theorem C31_nd_nothing : forall fuel (C : CRing) m (x : nd C), by_name m -> nd_wf x -> padn fuel x (WInt 0) (mode_name m) = Ok x.
Proof. exact padn_nothing. Qed.
Print Assumptions C31_nd_nothing.
Theorem C31_nd_empty_axis : forall fuel (C : CRing) m (x : nd C) a ws k, by_name m -> m <> ZEROPAD -> widths (List.length (nshape x)) a = Ok ws ->
  (k < List.length ws)%nat -> nthz k (nshape x) = 0 -> nth k ws (0, 0) <> (0, 0) -> padn fuel x a (mode_name m) = Err ValueError.
Proof. exact padn_empty_axis. Qed.
Print Assumptions C31_nd_empty_axis.
Example C31_nd_nothing_ex : by_name REFLECT /\ nd_wf (mkNd (C := Zring) [2; 0] []) /\ padn 9 (mkNd (C := Zring) [2; 0] []) (WMat [[0; 3]; [0; 0]]) "reflect" = Ok (mkNd (C := Zring) [5; 0] []) /\
  padn 9 (mkNd (C := Zring) [2; 0] []) (WMat [[0; 3]; [0; 1]]) "reflect" = Err ValueError /\ padn 9 (mkNd (C := Zring) [2; 0] []) (WInt 1) "zero" = Ok (mkNd (C := Zring) [4; 2] [0; 0; 0; 0; 0; 0; 0; 0]).
Proof. split; [repeat split; discriminate|]. split; [split; [repeat constructor; cbn; lia|reflexivity]|]. repeat split. Qed.
