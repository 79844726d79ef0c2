(** Property theorems for the pictures of packet bases in the documentation. *)
From Coq Require Import Ascii String QArith.
From Verif Require Import Base Dwt Multidim DocUtils DocUtilsSpec DocUtilsProofs DocUtilsKeys DocUtilsBoxes.
Open Scope list_scope. Open Scope Z_scope.

(** C111. The keys of a decomposition with [level] levels are the leaves of a
    tree: every path of that length passes through exactly one of them. *)
Theorem C111_wavedec_keys : forall level, 1 <= level ->
  exists ks, wavedec_keys level = Ok ks /\ leaves ["a"; "d"]%char (Z.to_nat level) ks /\ zlen ks = level + 1.
Proof. exact wavedec_keys_leaves. Qed.
Print Assumptions C111_wavedec_keys.
Example C111_wavedec_keys_ex : 1 <= 3 /\ wavedec_keys 3 = Ok ["d"; "ad"; "aaa"; "aad"]%string.
Proof. split; [lia|]. vm_compute. reflexivity. Qed.

Theorem C111_wavedec2_keys : forall level, 1 <= level ->
  exists ks, wavedec2_keys level = Ok ks /\ leaves ["a"; "h"; "v"; "d"]%char (Z.to_nat level) ks /\ zlen ks = 3 * level + 1.
Proof. exact wavedec2_keys_leaves. Qed.
Print Assumptions C111_wavedec2_keys.
Example C111_wavedec2_keys_ex : 1 <= 2 /\ wavedec2_keys 2 = Ok ["h"; "v"; "d"; "aa"; "ah"; "av"; "ad"]%string.
Proof. split; [lia|]. vm_compute. reflexivity. Qed.

(** The boxes of the leaves of any tree cut the picture without gaps and
    overlaps, and the label of a key is in the middle of its box. *)
Theorem C111_basis : forall L keys s0 s1, leaves ["a"; "h"; "v"; "d"]%char L keys -> (2 ^ Z.of_nat L | s0) -> (2 ^ Z.of_nat L | s1) -> 0 <= s0 -> 0 <= s1 ->
  exists bs c, wp_basis_coords (s0, s1) keys = Ok (bs, c) /\ List.length bs = List.length keys /\ tiling s0 s1 bs /\
    forall n k b, nth_error keys n = Some k -> nth_error bs n = Some b -> dget c k = Some (middle b).
Proof. exact wp_tiling. Qed.
Print Assumptions C111_basis.
Example C111_basis_ex : wavedec2_keys 1 = Ok ["a"; "h"; "v"; "d"]%string /\ leaves ["a"; "h"; "v"; "d"]%char 1 ["a"; "h"; "v"; "d"]%string /\ (2 ^ 1 | 4) /\ (2 ^ 1 | 8) /\
  wp_basis_coords (4, 8) ["a"; "h"; "v"; "d"]%string = Ok
   ([box_ (0, 0) (2, -4); box_ (2, 0) (4, -4); box_ (0, -4) (2, -8); box_ (2, -4) (4, -8)],
    [("a", (1, -2)); ("h", (3, -2)); ("v", (1, -6)); ("d", (3, -6))]%string).
Proof.
  split; [reflexivity|]. split; [|split; [exists 2; reflexivity|split; [exists 4; reflexivity|vm_compute; reflexivity]]].
  destruct (C111_wavedec2_keys 1 ltac:(lia)) as (ks & E & H & _). injection E as <-. exact H.
Qed.

Theorem C111_wavedec2_picture : forall level s0 s1, 1 <= level -> (2 ^ level | s0) -> (2 ^ level | s1) -> 0 <= s0 -> 0 <= s1 ->
  exists ks bs c, wavedec2_keys level = Ok ks /\ wp_basis_coords (s0, s1) ks = Ok (bs, c) /\ zlen bs = 3 * level + 1 /\ tiling s0 s1 bs.
Proof. exact wavedec2_tiling. Qed.
Print Assumptions C111_wavedec2_picture.
Example C111_wavedec2_picture_ex : 1 <= 2 /\ (2 ^ 2 | 4) /\ (2 ^ 2 | 8) /\ exists bs c, wp_basis_coords (4, 8) ["h"; "v"; "d"; "aa"; "ah"; "av"; "ad"]%string = Ok (bs, c) /\
  nth_error bs 4 = Some (box_ (1, 0) (2, -2)) /\ holds 1 1 (box_ (1, 0) (2, -2)).
Proof.
  split; [lia|]. split; [exists 1; reflexivity|]. split; [exists 2; reflexivity|]. do 2 eexists. split; [vm_compute; reflexivity|]. split; [reflexivity|].
  unfold holds, lo, hi. cbn. lia.
Qed.

Theorem C111_fswavedecn_picture : forall levels s0 s1, 1 <= levels -> (2 ^ levels | s0) -> (2 ^ levels | s1) -> 0 <= s0 -> 0 <= s1 ->
  exists ks bs c, wavedec_keys levels = Ok ks /\ fswavedecn_coords (s0, s1) levels = Ok (bs, c) /\ zlen bs = (levels + 1) ^ 2 /\ tiling s0 s1 bs /\
    map fst c = list_prod ks ks /\ Forall2 (fun b '(_, p) => midpoint b p) bs c.
Proof. exact fsw_tiling. Qed.
Print Assumptions C111_fswavedecn_picture.
Example C111_fswavedecn_picture_ex : 1 <= 1 /\ (2 ^ 1 | 2) /\ (2 ^ 1 | 6) /\ exists c, fswavedecn_coords (2, 6) 1 =
  Ok ([box_ (0, 0) (1, -3); box_ (0, -3) (1, -6); box_ (1, 0) (2, -3); box_ (1, -3) (2, -6)], c) /\ midpoint (box_ (1, -3) (2, -6)) (3 # 2, -9 # 2)%Q.
Proof.
  split; [lia|]. split; [exists 1; reflexivity|]. split; [exists 3; reflexivity|]. eexists. split; [vm_compute; reflexivity|]. split; vm_compute; reflexivity.
Qed.

(** Without levels there are no keys, although the transform has one part. *)
Theorem C111_no_levels : forall level, level <= 0 -> wavedec_keys level = Ok [] /\ wavedec2_keys level = Ok [] /\ forall shape, fswavedecn_coords shape level = Ok ([], []).
Proof. exact no_levels. Qed.
Print Assumptions C111_no_levels.
Example C111_no_levels_ex : 0 <= 0 /\ fswavedecn_coords (4, 4) 0 = Ok ([], []).
Proof. split; [lia|reflexivity]. Qed.

(** The sizes matter: a picture of 3 by 3 cells has cells in none of the boxes. *)
Theorem C111_gaps_refuted : exists s0 s1 ks bs c i j, wavedec2_keys 1 = Ok ks /\ wp_basis_coords (s0, s1) ks = Ok (bs, c) /\ 0 <= i < s0 /\ 0 <= j < s1 /\ forall b, In b bs -> ~ holds i j b.
Proof. exact gaps. Qed.
Print Assumptions C111_gaps_refuted.
Example C111_gaps_refuted_ex : exists c, wp_basis_coords (3, 3) ["a"; "d"]%string = Ok ([box_ (0, 0) (1, -1); box_ (1, -1) (2, -2)], c).
Proof. eexists. vm_compute. reflexivity. Qed.

(** The key of the root alone is a basis, but no box can be drawn for it ... *)
Theorem C111_root_first : forall shape keys, wp_basis_coords shape (EmptyString :: keys) = Err UnboundLocalError.
Proof. exact root_first. Qed.
Print Assumptions C111_root_first.
Example C111_root_first_ex : wp_basis_coords (4, 4) [""]%string = Err UnboundLocalError.
Proof. reflexivity. Qed.

(** ... and after another key its box takes the size of that other key: here
    the cell (2, 2) is not in the box of the whole 4 by 4 picture. *)
Theorem C111_root_refuted : exists bs c b, wp_basis_coords (4, 4) ["aa"; ""]%string = Ok (bs, c) /\ nth_error bs 1 = Some b /\ dget c "" = Some (0, 0) /\ ~ holds 2 2 b.
Proof. exact root_later. Qed.
Print Assumptions C111_root_refuted.
Example C111_root_refuted_ex : exists c, wp_basis_coords (4, 4) ["aa"; ""]%string = Ok ([box_ (0, 0) (1, -1); box_ (0, 0) (1, -1)], c).
Proof. eexists. vm_compute. reflexivity. Qed.

(** Every outline is a closed rectangle. *)
Theorem C111_outlines : (forall shape keys bs c, wp_basis_coords shape keys = Ok (bs, c) -> forall b, In b bs -> rectangle b) /\
  forall shape levels bs c, fswavedecn_coords shape levels = Ok (bs, c) -> forall b, In b bs -> rectangle b.
Proof. exact (conj wp_rectangles fsw_rectangles). Qed.
Print Assumptions C111_outlines.
Example C111_outlines_ex : (exists c, wp_basis_coords (4, 8) ["h"]%string = Ok ([([2; 4; 4; 4; 4; 2; 2; 2], [0; 0; 0; -4; -4; -4; -4; 0])], c)) /\ exists bs c, fswavedecn_coords (4, 8) 1 = Ok (([0; 2; 2; 2; 2; 0; 0; 0], [0; 0; 0; -4; -4; -4; -4; 0]) :: bs, c).
Proof. split; repeat eexists; vm_compute; reflexivity. Qed.
