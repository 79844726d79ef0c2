(** Model of pywt/_thresholding.py for complex data.

    A complex number is a pair of real numbers, arithmetic is exact; None stands
    for a result with nan in it. Only the functions with a division can give nan,
    and only for elements equal to zero (lines 20-23, 37-40). Infinite and nan
    inputs are not modelled. *)
From Coq Require Import Reals List String.
Import ListNotations.
From Verif Require Import Base Dwt.
Open Scope R_scope.

Definition cnum : Type := R * R.
Definition rltb (a b : R) : bool := if Rlt_dec a b then true else false.
Definition reqb (a b : R) : bool := if Req_EM_T a b then true else false.
(** np.absolute *)
Definition cabs (z : cnum) : R := sqrt (fst z * fst z + snd z * snd z).
(** np.less(magnitude, value) *)
Definition cless (z : cnum) (value : R) : bool := rltb (cabs z) value.

(** _thresholding.py lines 20-22, 37-39: (1 - num/den).clip(min=0, max=None), den >= 0.
    For den = 0 the quotient is +inf for num > 0 (the difference -inf is
    clipped to 0), nan for num = 0, and -inf for num < 0; then the difference is
    +inf and its product with the data, which are 0, is nan. *)
Definition cfactor (num den : R) : option R :=
  if reqb den 0 then (if rltb 0 num then Some 0 else None)
  else let t := 1 - num / den in Some (if rltb t 0 then 0 else t).
(** data * thresholded, complex by real. *)
Definition cscale (z : cnum) (t : option R) : option cnum :=
  match t with Some t => Some (fst z * t, snd z * t) | None => None end.
Definition is0 (z : cnum) : bool := reqb (fst z) 0 && reqb (snd z) 0.

(** _thresholding.py lines 16-30 (soft), one element. *)
Definition csoft1 (value : R) (substitute z : cnum) : option cnum :=
  let thresholded := cscale z (cfactor value (cabs z)) in
  if is0 substitute then thresholded
  else if cless z value then Some substitute else thresholded.

(** _thresholding.py lines 33-48 (nn_garrote), one element. *)
Definition cgarrote1 (value : R) (substitute z : cnum) : option cnum :=
  let thresholded := cscale z (cfactor (value * value) (cabs z * cabs z)) in
  if is0 substitute then thresholded
  else if cless z value then Some substitute else thresholded.

(** _thresholding.py lines 51-54 (hard), one element. *)
Definition chard1 (value : R) (substitute z : cnum) : option cnum :=
  if cless z value then Some substitute else Some z.

(** _thresholding.py lines 57-68 (greater, less): complex data are rejected.
    Lines 71-78 (thresholding_options) and 160-170 (threshold). *)
Definition threshold_c (data : list cnum) (value : R) (mode : string) (substitute : cnum) : res (list (option cnum)) :=
  match find (fun '(k, _) => String.eqb k mode)
    [("soft", Some csoft1); ("hard", Some chard1); ("greater", None); ("less", None);
     ("garrote", Some cgarrote1); ("garotte", Some cgarrote1)]%string with
  | Some (_, Some f) => Ok (map (f value substitute) data)
  | Some (_, None) => Err ValueError
  | None => Err ValueError
  end.

(** _thresholding.py lines 235-243: firm thresholding of one element for
    value_low < value_high, before the large values are restored. For den = 0
    see [cfactor]. *)
Definition cfirm0 (low high : R) (z : cnum) : option cnum :=
  cscale z (if reqb (cabs z) 0 then (if rltb 0 low then Some 0 else None)
            else let t := high * (1 - low / cabs z) / (high - low) in Some (if rltb t 0 then 0 else t)).
(** _thresholding.py lines 227-249 (threshold_firm), complex data of at least one
    dimension, given by its rows along the first axis as in Threshold.v. Only
    for value_low < value_high (equal values divide by 0 in line 239). *)
Definition clarge (high : R) (z : cnum) : bool := rltb high (cabs z).
Definition threshold_firm_c (data : list (list cnum)) (low high : R) : res (list (list (option cnum))) :=
  if rltb low 0 then Err ValueError else
  if rltb high low then Err ValueError else
  let any_index := existsb (existsb (clarge high)) (tl data) in
  Ok (map (map (fun z => if any_index && clarge high z then Some z else cfirm0 low high z)) data).
