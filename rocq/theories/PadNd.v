(** Model of pad (pywt/_dwt.py) for arrays of one or more dimensions, with the
    argument pad_widths in all its forms.

    Simplifications: as in Pad.v numpy.pad itself is given by its documentation:
    it extends one axis after the other, the later axes including what was added
    along the earlier ones. Pad widths are integers (np.round of a float is not
    modelled). 0-d data are not modelled. *)
From Coq Require Import Ascii String.
From Verif Require Import Base CConv Spec Lengths Dwt Swt Nd Axis Pad.

(** The forms of pad_widths: a number, a sequence, a sequence of sequences. *)
Inductive pad_arg := WInt (p : Z) | WVec (v : list Z) | WMat (rows : list (list Z)).

(** One row (before, after) from one or two numbers, by broadcasting. *)
Definition as_pair (v : list Z) : res (Z * Z) :=
  match v with [p] => Ok (p, p) | [a; b] => Ok (a, b) | _ => Err ValueError end.

(** _dwt.py lines 442-446: np.array(pad_widths), the minimum (of an empty array:
    ValueError), np.broadcast_to(pad_widths, (x.ndim, 2)). Rows of different
    lengths do not make an array (ValueError). *)
Definition widths (n : nat) (a : pad_arg) : res (list (Z * Z)) :=
  let entries := match a with WInt p => [p] | WVec v => v | WMat rows => List.concat rows end in
  if (zlen entries =? 0) || existsb (fun p => p <? 0) entries then Err ValueError else
  match a with
  | WInt p => Ok (repeat (p, p) n)
  | WVec v => q <- as_pair v ;; Ok (repeat q n)
  | WMat rows =>
      if negb (forallb (fun r => Nat.eqb (List.length r) (List.length (hd [] rows))) rows) then Err ValueError else
      qs <- mapM as_pair rows ;;
      match qs with
      | [q] => Ok (repeat q n)
      | _ => if Nat.eqb (List.length qs) n then Ok qs else Err ValueError
      end
  end.

Section PadNd.
Variable fuel : nat.
Context {C : CRing}.

(** One axis of numpy.pad(x, ..., mode); compare np_pad in Pad.v. *)
Definition np_pad_axis (m : mode) (x : nd C) (w : nat * (Z * Z)) : res (nd C) :=
  let '(k, (l, r)) := w in
  let N := nthz k (nshape x) in
  if (N =? 0) && negb ((l =? 0) && (r =? 0)) && negb (match m with ZEROPAD => true | _ => false end)
  then Err ValueError else
  let m := match m with REFLECT | ANTIREFLECT => if N =? 1 then CONSTANT_EDGE else m | _ => m end in
  Ok (along k (l + N + r) (fun v => tab (l + N + r) (fun n => ext m v (n - l))) x).

Definition numbered {A} (l : list A) : list (nat * A) := combine (seq 0 (List.length l)) l.

Definition np_padn (m : mode) (x : nd C) (ws : list (Z * Z)) : res (nd C) :=
  foldM (np_pad_axis m) x (numbered ws).

(** One axis of numpy.pad(x, ..., function): the function is called with every
    line of the padded array along the axis, which it changes in place. *)
Definition each_line (f : list C -> Z -> Z -> res (list C)) (x : nd C) (w : nat * (Z * Z)) : res (nd C) :=
  let '(k, (l, r)) := w in
  let sh1 := setn k 1 (nshape x) in
  vs <- mapM (fun i => f (line x k (unravel sh1 i)) l r) (tab (prodZ sh1) (fun i => i)) ;;
  Ok (ndtab (nshape x) (fun idx => gz (nth (Z.to_nat (ravel sh1 (setn k 0 idx))) vs []) (nthz k idx))).

(** numpy.pad(x, ws, function): the array is padded with zeros, then the
    function is applied along every axis. *)
Definition np_padn_with (f : list C -> Z -> Z -> res (list C)) (x : nd C) (ws : list (Z * Z)) : res (nd C) :=
  v <- np_padn ZEROPAD x ws ;; foldM (each_line f) v (numbered ws).

Open Scope string_scope.
(** _dwt.py lines 439-516 (pad). *)
Definition padn (x : nd C) (pad_widths : pad_arg) (mode : string) : res (nd C) :=
  ws <- widths (List.length (nshape x)) pad_widths ;;
  if mode =? "symmetric" then np_padn SYMMETRIC x ws
  else if mode =? "reflect" then np_padn REFLECT x ws
  else if (mode =? "periodic") || (mode =? "periodization") then
    x <- (if mode =? "periodization" then np_padn CONSTANT_EDGE x (map (fun N => (0, N mod 2)%Z) (nshape x)) else Ok x) ;;
    np_padn PERIODIC x ws
  else if mode =? "zero" then np_padn ZEROPAD x ws
  else if mode =? "constant" then np_padn CONSTANT_EDGE x ws
  else if mode =? "smooth" then np_padn_with pad_smooth x ws
  else if mode =? "antisymmetric" then np_padn_with (pad_antisymmetric fuel) x ws
  else if mode =? "antireflect" then np_padn ANTIREFLECT x ws
  else Err ValueError.

End PadNd.
