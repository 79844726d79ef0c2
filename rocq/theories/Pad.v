(** Model of pad and of the string arguments of downcoef and upcoef
    (pywt/_dwt.py), for one-dimensional data.

    Simplifications: numpy.pad itself is not modelled; its documented result in
    the modes wrap, symmetric, reflect, reflect with reflect_type odd, edge and
    constant is the corresponding window of the infinite extension of the
    array, except that it refuses to extend an empty array and repeats the
    single sample of a length-one array in both reflect modes. Pad widths are
    the pair (left, right) of integers. *)
From Coq Require Import Ascii String.
From Verif Require Import Base CConv Spec Lengths Dwt.

Section Pad.
Variable fuel : nat.
Context {C : CRing}.

(** numpy.pad(x, (l, r), mode) for l, r >= 0; [m] names the numpy mode by its
    PyWavelets counterpart (PERIODIC: wrap, CONSTANT_EDGE: edge, ANTIREFLECT:
    reflect with reflect_type='odd', ZEROPAD: constant). *)
Definition np_pad (m : mode) (x : list C) (l r : Z) : res (list C) :=
  let N := zlen x in
  if (N =? 0) && negb ((l =? 0) && (r =? 0)) && negb (match m with ZEROPAD => true | _ => false end)
  then Err ValueError else
  let m := match m with REFLECT | ANTIREFLECT => if N =? 1 then CONSTANT_EDGE else m | _ => m end in
  Ok (tab (l + N + r) (fun n => ext m x (n - l))).

(** Python indexing v[i]. *)
Definition py_item (v : list C) (i : Z) : res C :=
  let j := if i <? 0 then i + zlen v else i in
  if (0 <=? j) && (j <? zlen v) then Ok (gz v j) else Err IndexError.

(** v[a:b] = [f 0; f 1; ...] with 0 <= a <= b <= len(v) and a right-hand side of
    length b - a. *)
Definition set_slice (v : list C) (a b : Z) (f : Z -> C) : list C :=
  tab (zlen v) (fun n => if (a <=? n) && (n <? b) then f (n - a) else gz v n).

(** _dwt.py lines 461-475 (pad_smooth), on the zero-padded vector. With
    pad_width[1] = 0 the last assignment is vector[0:] = <empty array>, which
    numpy refuses. *)
Definition pad_smooth (vector : list C) (l r : Z) : res (list C) :=
  left <- py_item vector l ;;
  next <- py_item vector (l + 1) ;;
  let slope_left := left [-] next in
  let vector := set_slice vector 0 l (fun k => left [+] rz (l - k) [*] slope_left) in
  right <- py_item vector (- r - 1) ;;
  prev <- py_item vector (- r - 2) ;;
  let slope_right := right [-] prev in
  if r =? 0 then Err ValueError else
  Ok (set_slice vector (zlen vector - r) (zlen vector) (fun k => right [+] rz (k + 1) [*] slope_right)).

(** vp[a:b] *= -1, where a > b selects nothing. *)
Definition negate (v : list C) (a b : Z) : list C :=
  tab (zlen v) (fun n => if (a <=? n) && (n <? b) then [--] gz v n else gz v n).

(** _dwt.py lines 477-508 (pad_antisymmetric), on the zero-padded vector.
    vector[l:-r] is empty for r = 0; the symmetric padding of an empty array is
    refused, and for l = 0 its empty result does not fit into the vector. *)
Definition pad_antisymmetric (vector : list C) (l r : Z) : res (list C) :=
  let vsize_nonpad := zlen vector - l - r in
  let inner := if r =? 0 then [] else slice_neg vector l r in
  vp <- np_pad SYMMETRIC inner l r ;;
  if negb (zlen vp =? zlen vector) then Err ValueError else
  let r_edge := l + vsize_nonpad - 1 in
  let l_edge := l in
  let seg_width := vsize_nonpad in
  '(_, _, vp) <- while fuel (fun '(r_edge, n, vp) => r_edge <=? zlen vp)
    (fun '(r_edge, n, vp) =>
       let vp := if n mod 2 =? 0 then vp
                 else negate vp (r_edge + 1) (Z.min (r_edge + 1 + seg_width) (zlen vp)) in
       Ok (r_edge + seg_width, n + 1, vp)) (r_edge, 1, vp) ;;
  '(_, _, vp) <- while fuel (fun '(l_edge, n, vp) => 0 <=? l_edge)
    (fun '(l_edge, n, vp) =>
       let vp := if n mod 2 =? 0 then vp
                 else negate vp (Z.max 0 (l_edge - seg_width)) l_edge in
       Ok (l_edge - seg_width, n + 1, vp)) (l_edge, 1, vp) ;;
  Ok vp.

(** numpy.pad(x, (l, r), function): the function gets the zero-padded array. *)
Definition np_pad_with (f : list C -> Z -> Z -> res (list C)) (x : list C) (l r : Z) : res (list C) :=
  v <- np_pad ZEROPAD x l r ;; f v l r.

Open Scope string_scope.
(** _dwt.py lines 439-516 (pad). *)
Definition pad (x : list C) (l r : Z) (mode : string) : res (list C) :=
  if (Z.min l r <? 0)%Z then Err ValueError else
  if mode =? "symmetric" then np_pad SYMMETRIC x l r
  else if mode =? "reflect" then np_pad REFLECT x l r
  else if (mode =? "periodic") || (mode =? "periodization") then
    x <- (if mode =? "periodization" then np_pad CONSTANT_EDGE x 0 (zlen x mod 2)%Z else Ok x) ;;
    np_pad PERIODIC x l r
  else if mode =? "zero" then np_pad ZEROPAD x l r
  else if mode =? "constant" then np_pad CONSTANT_EDGE x l r
  else if mode =? "smooth" then np_pad_with pad_smooth x l r
  else if mode =? "antisymmetric" then np_pad_with pad_antisymmetric x l r
  else if mode =? "antireflect" then np_pad ANTIREFLECT x l r
  else Err ValueError.

(** Python's [part in s] for strings: a substring test. *)
Fixpoint str_in (part s : string) : bool :=
  prefix part s || match s with EmptyString => false | String _ s' => str_in part s' end.

(** _dwt.py lines 331-343 (downcoef) for 1-D data. *)
Definition py_downcoef (part : string) (x : list C) (w : wavelet C) (m : mode) (level : Z) : res (list C) :=
  if negb (str_in part "ad") then Err ValueError else downcoef fuel (part =? "a") x w m level.

(** _dwt.py lines 389-401 (upcoef) for 1-D data. *)
Definition py_upcoef (part : string) (c : list C) (w : wavelet C) (level take : Z) : res (list C) :=
  if negb (str_in part "ad") then Err ValueError else upcoef fuel (part =? "a") c w level take.

End Pad.
