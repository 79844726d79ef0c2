(** Property theorems for pad and the part argument of downcoef and upcoef. *)
From Coq Require Import String.
From Verif Require Import Base BaseLemmas CConv Spec Instances Lengths Dwt DwtProofs ExBanks Pad PadProofs.

(** C31. [window m x l hi] is the extension of [x] on [-l, hi). *)
Theorem C31_pad_partial : forall fuel (C : CRing) (x : list C) l r m,
  min_len m <= zlen x -> 0 <= l -> 0 <= r -> l + zlen x + r + 4 < Z.of_nat fuel ->
  (m = SMOOTH -> 2 <= zlen x /\ 1 <= r) -> (m = ANTISYMMETRIC -> 1 <= r) ->
  pad fuel x l r (mode_name m) = Ok (window m x l (padded_end m (zlen x) + r)).
Proof. exact pad_spec. Qed.
Print Assumptions C31_pad_partial.
Example C31_pad_partial_ex : min_len ANTISYMMETRIC <= zlen [1; 2; 3] /\ (ANTISYMMETRIC = ANTISYMMETRIC -> 1 <= 5) /\
  pad (C := Zring) 99 [1; 2; 3] 4 5 (mode_name ANTISYMMETRIC) = Ok [3; -3; -2; -1; 1; 2; 3; -3; -2; -1; 1; 2] /\
  pad (C := Zring) 99 [1; 2; 4] 2 1 (mode_name SMOOTH) = Ok [-1; 0; 1; 2; 4; 6].
Proof. repeat split; try (cbn; lia). Qed.

Theorem C31_dwt_of_padded : forall fuel (C : CRing) m m' w (x : list C) l r p cA cD,
  wf_bank w -> min_len m <= zlen x -> m <> PERIODIZATION -> m' <> PERIODIZATION ->
  (m = SMOOTH -> 2 <= zlen x) -> l mod 2 = 0 -> dec_len w <= l -> dec_len w <= r -> l + zlen x + r + 4 < Z.of_nat fuel ->
  resources fuel (l + zlen x + r) (dec_len w) ->
  pad fuel x l r (mode_name m) = Ok p -> dwt fuel x w m = Ok (cA, cD) ->
  exists pA pD, dwt fuel p w m' = Ok (pA, pD) /\
    (forall k, 0 <= k < zlen cA -> gz pA (k + l / 2) = gz cA k) /\ (forall k, 0 <= k < zlen cD -> gz pD (k + l / 2) = gz cD k).
Proof. exact dwt_of_padded. Qed.
Print Assumptions C31_dwt_of_padded.
Example C31_dwt_of_padded_ex : wf_bank zbank /\ 4 mod 2 = 0 /\ dec_len zbank <= 4 /\ resources 99 (4 + 3 + 4) (dec_len zbank) /\
  exists p cA cD pA pD, pad (C := Zring) 99 [1; 2; 4] 4 4 (mode_name SYMMETRIC) = Ok p /\ dwt (C := Zring) 99 [1; 2; 4] zbank SYMMETRIC = Ok (cA, cD) /\
    dwt 99 p zbank ZEROPAD = Ok (pA, pD) /\ firstn 3 (skipn 2 pA) = cA /\ firstn 3 (skipn 2 pD) = cD /\ cA <> pA.
Proof.
  split; [repeat split; cbn; lia|]. split; [reflexivity|]. split; [cbn; lia|]. split; [vm_compute; split; [discriminate|reflexivity]|].
  do 5 eexists. split; [vm_compute; reflexivity|]. split; [vm_compute; reflexivity|]. split; [vm_compute; reflexivity|].
  split; [reflexivity|]. split; [reflexivity|]. discriminate.
Qed.

Theorem C31_right_width_zero_refuted : exists x l m, 2 <= zlen x /\ 0 <= l /\ pad (C := Zring) 99 x l 0 (mode_name m) = Err ValueError.
Proof. exact pad_right_zero_raises. Qed.
Print Assumptions C31_right_width_zero_refuted.

Theorem C31_right_width_zero : forall fuel (C : CRing) (x : list C) l, 2 <= zlen x -> 0 <= l ->
  pad fuel x l 0 "smooth" = Err ValueError /\ pad fuel x l 0 "antisymmetric" = Err ValueError.
Proof. exact pad_no_right_width. Qed.
Print Assumptions C31_right_width_zero.
Example C31_right_width_zero_ex : pad (C := Zring) 99 [3; 5; 8] 2 0 "smooth" = Err ValueError.
Proof. reflexivity. Qed.

Theorem C31_smooth_one_sample_refuted : exists x l r p, 1 <= zlen x /\ 1 <= l /\ 1 <= r /\
  pad (C := Zring) 99 x l r (mode_name SMOOTH) = Ok p /\ p <> window SMOOTH x l (zlen x + r).
Proof. exact pad_smooth_one_differs. Qed.
Print Assumptions C31_smooth_one_sample_refuted.

Theorem C31_smooth_one_sample : forall (C : CRing) (a : C) l r, 1 <= l -> 1 <= r ->
  pad_smooth (zpad C [a] l r) l r =
    Ok (tab (l + 1 + r) (fun n => if n <? l then a [+] rz (l - n) [*] a else a [-] rz (n - l) [*] a)).
Proof. exact pad_smooth_one. Qed.
Print Assumptions C31_smooth_one_sample.
Example C31_smooth_one_sample_ex : pad_smooth (zpad Zring [3] 2 1) 2 1 = Ok (A := list Z) [9; 6; 3; 0].
Proof. reflexivity. Qed.

Theorem C31_negative_widths : forall fuel (C : CRing) (x : list C) l r m, l < 0 \/ r < 0 -> pad fuel x l r m = Err ValueError.
Proof. exact pad_negative. Qed.
Print Assumptions C31_negative_widths.
Example C31_negative_widths_ex : pad (C := Zring) 99 [1] (-1) 3 "zero" = Err ValueError.
Proof. reflexivity. Qed.

Theorem C31_unknown_mode : forall fuel (C : CRing) (x : list C) l r s, (forall m, s <> mode_name m) -> pad fuel x l r s = Err ValueError.
Proof. exact pad_unknown. Qed.
Print Assumptions C31_unknown_mode.
Example C31_unknown_mode_ex : (forall m, "edge"%string <> mode_name m) /\ pad (C := Zring) 99 [1] 1 3 "edge" = Err ValueError.
Proof. split; [intros []; discriminate|reflexivity]. Qed.

(** C60 *)
Theorem C60_part_refuted : exists s, s <> "a"%string /\ s <> "d"%string /\ forall fuel (C : CRing) (x : list C) w m level,
  py_downcoef fuel s x w m level = downcoef fuel false x w m level.
Proof. exact part_accepts_more. Qed.
Print Assumptions C60_part_refuted.
Theorem C60_downcoef_part_partial : forall fuel (C : CRing) s (x : list C) w m level,
  (In s [""; "a"; "d"; "ad"]%string -> py_downcoef fuel s x w m level = downcoef fuel (String.eqb s "a") x w m level) /\
  (~ In s [""; "a"; "d"; "ad"]%string -> py_downcoef fuel s x w m level = Err ValueError).
Proof. exact downcoef_part. Qed.
Print Assumptions C60_downcoef_part_partial.
Example C60_downcoef_part_partial_ex :
  py_downcoef (C := Zring) 99 "da" [1; 2] zbank ZEROPAD 1 = Err ValueError /\ py_downcoef (C := Zring) 99 "" [1; 2] zbank ZEROPAD 1 = downcoef (C := Zring) 99 false [1; 2] zbank ZEROPAD 1 /\
  is_ok (downcoef (C := Zring) 99 false [1; 2] zbank ZEROPAD 1).
Proof. split; [reflexivity|]. split; [reflexivity|]. eexists. vm_compute. reflexivity. Qed.
Theorem C60_upcoef_part_partial : forall fuel (C : CRing) s (c : list C) w level take,
  (In s [""; "a"; "d"; "ad"]%string -> py_upcoef fuel s c w level take = upcoef fuel (String.eqb s "a") c w level take) /\
  (~ In s [""; "a"; "d"; "ad"]%string -> py_upcoef fuel s c w level take = Err ValueError).
Proof. exact upcoef_part. Qed.
Print Assumptions C60_upcoef_part_partial.
Example C60_upcoef_part_partial_ex :
  py_upcoef (C := Zring) 99 "x" [1; 2] zbank 1 0 = Err ValueError /\ is_ok (py_upcoef (C := Zring) 99 "ad" [1; 2] zbank 1 0).
Proof. split; [reflexivity|]. eexists. vm_compute. reflexivity. Qed.
