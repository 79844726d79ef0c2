(** Specifications for filter banks: alternating flip, the bank built from a
    synthesis and an analysis low-pass filter, correlations at even shifts. *)
From Verif Require Import Base Spec Dwt.

Section FS.
Context {C : CRing}.

(** (-1)^i *)
Definition sgn (i : Z) : C := if i mod 2 =? 0 then r1 else [--] r1.

(** The alternating flip: reverse and change the sign of the odd positions. *)
Definition alt_flip (l : list C) : list C := tab (zlen l) (fun i => sgn i [*] gz l (zlen l - 1 - i)).

(** [F] entries of [l] from position [n]. *)
Definition window (l : list C) (n F : Z) : list C := tab F (fun i => gz l (n + i)).

(** The bank with synthesis low-pass [a] and (reversed) analysis low-pass [b];
    the high-pass filters are alternating flips. For an orthogonal wavelet [a]
    and [b] are both the scaling filter. *)
Definition bi_bank (a b : list C) : wavelet C :=
  mkWavelet (rev b) (rev (alt_flip a)) a (alt_flip b).

(** Correlation of [a] and [b] at shift [u], and duality to even shifts:
    <a, b(. + u)> is 1 for u = 0 and 0 for the other even u. *)
Definition corr (a b : list C) (u : Z) : C := sumZ 0 (zlen a) (fun n => gz a n [*] gz b (n + u)).
Definition even_shift_dual (a b : list C) : Prop :=
  forall u, u mod 2 = 0 -> corr a b u = if u =? 0 then r1 else r0.

(** The signal [e] filtered with the even-shift correlations. *)
Definition even_response (a b : list C) (e : Z -> C) (n : Z) : C :=
  sumZ (- (zlen a / 2)) (zlen a / 2) (fun k => corr a b (2 * k) [*] e (n + 2 * k)).

End FS.

(** The orders of the biorthogonal family: order 10*N+M, the row and column of
    the analysis table, the offset at which the common synthesis table of the
    row is read, and the filter length. *)
Definition bior_list : list (Z * (Z * Z * Z * Z)) :=
  [(11, (0, 1, 4, 2)); (13, (0, 2, 2, 6)); (15, (0, 3, 0, 10));
   (22, (1, 1, 6, 6)); (24, (1, 2, 4, 10)); (26, (1, 3, 2, 14)); (28, (1, 4, 0, 18));
   (31, (2, 1, 8, 4)); (33, (2, 2, 6, 8)); (35, (2, 3, 4, 12)); (37, (2, 4, 2, 16)); (39, (2, 5, 0, 20));
   (44, (3, 1, 0, 10)); (55, (4, 1, 0, 12)); (68, (5, 1, 0, 18))].
