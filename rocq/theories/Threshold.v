(** Model of pywt/_thresholding.py for real data.

    Simplifications: every finite float is a rational number, so the data are
    rationals (Q) and arithmetic is exact; the results of divisions by zero
    (infinities and nan) are represented. Zeros are unsigned; the only divisors
    that can vanish are magnitudes, which numpy returns as +0.0, and
    value_high - value_low. Infinite thresholds are in ThreshInf.v, complex data in
    ThreshC.v; infinite and nan data are not
    modelled. *)
From Coq Require Export QArith Qabs Qminmax.
From Coq Require Import String.
From Verif Require Import Base Dwt.

(** Floating-point numbers with exact finite part. *)
Inductive xq : Type := Fin (q : Q) | PInf | NInf | NaN.

Definition Qltb (a b : Q) : bool := negb (Qle_bool b a).

(** a / b, with b = 0 meaning +0.0. *)
Definition xdiv (a b : xq) : xq :=
  match a, b with
  | Fin p, Fin q => if Qeq_bool q 0 then (if Qeq_bool p 0 then NaN else if Qltb 0 p then PInf else NInf) else Fin (p / q)
  | PInf, Fin q => if Qltb q 0 then NInf else PInf
  | NInf, Fin q => if Qltb q 0 then PInf else NInf
  | Fin _, (PInf | NInf) => Fin 0
  | _, _ => NaN
  end.
Definition xopp (a : xq) : xq := match a with Fin p => Fin (- p) | PInf => NInf | NInf => PInf | NaN => NaN end.
Definition xadd (a b : xq) : xq :=
  match a, b with
  | Fin p, Fin q => Fin (p + q)
  | NaN, _ | _, NaN | PInf, NInf | NInf, PInf => NaN
  | PInf, _ | _, PInf => PInf
  | NInf, _ | _, NInf => NInf
  end.
Definition xsub (a b : xq) : xq := xadd a (xopp b).
Definition xsgn (a : xq) : comparison := match a with Fin p => (p ?= 0)%Q | PInf => Gt | NInf => Lt | NaN => Eq end.
Definition xmul (a b : xq) : xq :=
  match a, b with
  | Fin p, Fin q => Fin (p * q)
  | NaN, _ | _, NaN => NaN
  | _, _ => match xsgn a, xsgn b with
            | Eq, _ | _, Eq => NaN
            | Gt, Gt | Lt, Lt => PInf
            | _, _ => NInf
            end
  end.
(** x.clip(min=0, max=None); nan stays nan. *)
Definition xclip0 (a : xq) : xq :=
  match a with Fin p => if Qltb p 0 then Fin 0 else a | NInf => Fin 0 | _ => a end.

(** _thresholding.py lines 16-30 (soft), one element. *)
Definition soft1 (value substitute x : Q) : xq :=
  let magnitude := Qabs x in
  let thresholded := xclip0 (xsub (Fin 1) (xdiv (Fin value) (Fin magnitude))) in
  let thresholded := xmul (Fin x) thresholded in
  if Qeq_bool substitute 0 then thresholded
  else if Qltb magnitude value then Fin substitute else thresholded.

(** _thresholding.py lines 33-48 (nn_garrote), one element. *)
Definition garrote1 (value substitute x : Q) : xq :=
  let magnitude := Qabs x in
  let thresholded := xclip0 (xsub (Fin 1) (xdiv (Fin (value * value)) (Fin (magnitude * magnitude)))) in
  let thresholded := xmul (Fin x) thresholded in
  if Qeq_bool substitute 0 then thresholded
  else if Qltb magnitude value then Fin substitute else thresholded.

(** _thresholding.py lines 51-54 (hard), one element. *)
Definition hard1 (value substitute x : Q) : xq :=
  if Qltb (Qabs x) value then Fin substitute else Fin x.

(** _thresholding.py lines 57-61 (greater), one element. *)
Definition greater1 (value substitute x : Q) : xq :=
  if Qltb x value then Fin substitute else Fin x.

(** _thresholding.py lines 64-68 (less), one element. *)
Definition less1 (value substitute x : Q) : xq :=
  if Qltb value x then Fin substitute else Fin x.

(** _thresholding.py lines 71-78 (thresholding_options) and 160-170 (threshold). *)
Definition threshold (data : list Q) (value : Q) (mode : string) (substitute : Q) : res (list xq) :=
  match find (fun '(k, _) => String.eqb k mode)
    [("soft", soft1); ("hard", hard1); ("greater", greater1); ("less", less1);
     ("garrote", garrote1); ("garotte", garrote1)]%string with
  | Some (_, f) => Ok (map (f value substitute) data)
  | None => Err ValueError
  end.

(** _thresholding.py lines 238-243: firm thresholding of one element, before
    the large values are restored. *)
Definition firm0 (low high x : Q) : xq :=
  let magnitude := Qabs x in
  let vdiff := (high - low)%Q in
  let thresholded := xdiv (xmul (Fin high) (xsub (Fin 1) (xdiv (Fin low) (Fin magnitude)))) (Fin vdiff) in
  xmul (Fin x) (xclip0 thresholded).

(** _thresholding.py lines 227-249 (threshold_firm) for data of at least one
    dimension, given as the list of its rows along the first axis (one-element
    rows for 1-D data). large_vals[0] holds the first-axis indices of the large
    values; np.any tests whether one of these indices is non-zero. *)
Definition is_large (high x : Q) : bool := Qltb high (Qabs x).
Definition threshold_firm (data : list (list Q)) (low high : Q) : res (list (list xq)) :=
  if Qltb low 0 then Err ValueError else
  if Qltb high low then Err ValueError else
  let any_index := existsb (existsb (is_large high)) (tl data) in
  Ok (map (map (fun x => if any_index && is_large high x then Fin x else firm0 low high x)) data).
