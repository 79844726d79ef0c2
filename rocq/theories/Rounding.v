(** Rounded arithmetic: the standard model of floating-point arithmetic (each
    operation returns the exact result up to a relative error [u], products also
    up to an absolute error [eta] for results below the normal range). *)
From Coq Require Import Reals.
From Verif Require Import Base CConv Spec Dwt Multilevel CwtReal RawConv.
Open Scope R_scope.

(** The arithmetic of the C type TYPE (float or double) of
    convolution.template.c and wt.template.c: [val] is the number a finite value
    stands for.  Adding or subtracting a zero is exact; sums and differences
    have no underflow error.  Not covered: overflow, NaN, contraction of
    [s += f * x] into one rounding, reordering of the sums. *)
Record flarith : Type := mkFlarith {
  fops :> Ops;
  val : fops -> R;
  fu : R;
  feta : R;
  fu_nonneg : 0 <= fu;
  feta_nonneg : 0 <= feta;
  val_zero : val o0 = 0;
  val_add : forall a b, Rabs (val (oadd a b) - (val a + val b)) <= fu * Rabs (val a + val b);
  val_add_0_l : forall a b, val a = 0 -> val (oadd a b) = val b;
  val_add_0_r : forall a b, val b = 0 -> val (oadd a b) = val a;
  val_sub : forall a b, Rabs (val (osub a b) - (val a - val b)) <= fu * Rabs (val a - val b);
  val_sub_0_l : forall a b, val a = 0 -> val (osub a b) = - val b;
  val_sub_0_r : forall a b, val b = 0 -> val (osub a b) = val a;
  val_mul : forall a b, Rabs (val (omul a b) - val a * val b) <= fu * Rabs (val a * val b) + feta
}.
Arguments val {_}.

(** [v] represents [r] up to [p] relative roundings. *)
Definition rounded (f : flarith) (p : nat) (v : f) (r : R) : Prop :=
  Rabs (val v - r) <= ((1 + fu f) ^ p - 1) * Rabs r.

(** The filters of [w] represent those of the real bank [b]. *)
Definition rounded_bank (f : flarith) (p : nat) (w : owavelet f) (b : wavelet Rring) : Prop :=
  Forall2 (rounded f p) (odec_lo w) (dec_lo b) /\ Forall2 (rounded f p) (odec_hi w) (dec_hi b) /\
  Forall2 (rounded f p) (orec_lo w) (rec_lo b) /\ Forall2 (rounded f p) (orec_hi w) (rec_hi b).

(** [v] is within [e] of [r], a number of absolute value at most [B]. *)
Definition near (f : flarith) (e B : R) (v : f) (r : R) : Prop := Rabs (val v - r) <= e /\ Rabs r <= B.

(** Absolute values. *)
Definition absl (x : list Rring) : list Rring := map (Rabs : Rring -> Rring) x.
(** Sum of the absolute values of a filter. *)
Definition norm1 (h : list Rring) : R := sumZ (C := Rring) 0 (zlen h) (fun j => Rabs (gz h j)).

(** Sum of the absolute values of the taps that reach the samples of parity [q]. *)
Definition taps (q : Z) (g : list Rring) : R := sumZ (C := Rring) 0 (zlen g) (fun j => if (j mod 2 =? q)%Z then Rabs (gz g j) else 0).
(** 1 + r + ... + r^(n-1) *)
Fixpoint geo (r : R) (n : nat) : R := match n with O => 0 | S n' => geo r n' + r ^ n' end.

(** [a] sums of at most [F] rounded products, filters with [p] and data with
    [q] relative errors; [a] is the sum of the absolute values of the products. *)
Definition conv_bound (f : flarith) (F : Z) (p q : nat) (a : R) : R :=
  let g := (1 + fu f) ^ (Z.to_nat F + p + q) in (g - 1) * a + IZR F * g * feta f.
(** [n] steps, each a sum of at most [F] products that enlarges the data by at
    most the factor [K], starting from data of size [B]. *)
Definition steps_bound (f : flarith) (F : Z) (p : nat) (K B : R) (n : nat) : R :=
  let g := (1 + fu f) ^ (Z.to_nat F + p) in (g ^ n - 1) * K ^ n * B + IZR F * g * feta f * geo (g * K) n.

(** _multilevel.py lines 49-109 (wavedec), 112-176 (waverec), over rounded
    arithmetic, all coefficient arrays given. *)
Definition o_wavedec {O : Ops} fuel (x : list O) (w : owavelet O) (m : mode) (level : option Z) : res (list (list O)) :=
  l <- check_level [(zlen x, odec_len w)] level ;; o_wavedec_loop fuel x w m (Z.to_nat l) [].
Definition o_waverec {O : Ops} fuel (cs : list (list O)) (w : owavelet O) (m : mode) : res (list O) :=
  match cs with [] => Err ValueError | a :: ds => o_waverec_loop fuel a ds w m end.
