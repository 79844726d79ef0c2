(** Model of the n-dimensional single-level transforms: pywt/_multidim.py,
    pywt/_utils.py lines 37-104, and the n-D case of dwt/idwt in pywt/_dwt.py.

    Simplifications: wavelet and mode arguments are already Wavelet objects and
    mode codes; dtypes are replaced by one exact ring; a Python dict is a list
    of (key, value) pairs with distinct keys, in insertion order. *)
From Coq Require Import Ascii String.
From Verif Require Import Base CConv Lengths Dwt Swt Nd NdSpec Axis.

Definition OverflowError : Z := 8.

(** dict.get *)
Definition dict (A : Type) : Type := list (string * A).
Fixpoint dget {A} (d : dict A) (k : string) : option A :=
  match d with [] => None | (k', v) :: t => if String.eqb k' k then Some v else dget t k end.
(** d[k] = v *)
Fixpoint dset {A} (d : dict A) (k : string) (v : A) : dict A :=
  match d with [] => [(k, v)] | (k', v') :: t => if String.eqb k' k then (k, v) :: t else (k', v') :: dset t k v end.

(** A wavelet/mode argument: a single object or a sequence. *)
Inductive per_axis (A : Type) := One (a : A) | Seq (l : list A).
Arguments One {A}. Arguments Seq {A}.

(** _utils.py lines 37-71 and 74-104 (_wavelets_per_axis, _modes_per_axis). *)
Definition objs_per_axis {A} (p : per_axis A) (n : nat) : res (list A) :=
  match p with
  | One a => Ok (repeat a n)
  | Seq [a] => Ok (repeat a n)
  | Seq l => if negb (Nat.eqb (List.length l) n) then Err ValueError else Ok l
  end.

(** itertools.product('ad', repeat=n), joined. *)
Fixpoint ad_keys (n : nat) : list string :=
  match n with
  | O => [EmptyString]
  | S n' => map (String "a"%char) (ad_keys n') ++ map (String "d"%char) (ad_keys n')
  end.

Section Md.
Context {C : CRing}.
Variable fuel : nat.
Variable junk : Z -> C.

Definition ndim (a : sarr C) : Z := zlen (sshape a).

(** [axes = [a + ndim if a < 0 else a for a in axes]] *)
Definition norm_axes (n : Z) (axes : list Z) : list Z := map (fun a => if a <? 0 then a + n else a) axes.

(** Conversion of a Python int to the [unsigned int axis] of the Cython functions. *)
Definition to_axis (a : Z) : res nat := if (a <? 0) || (4294967295 <? a) then Err OverflowError else Ok (Z.to_nat a).

(** _dwt.py lines 163-188 (dwt), data of any dimension. *)
Definition py_dwt (data : sarr C) (w : wavelet C) (m : mode) (axis : Z) : res (sarr C * sarr C) :=
  let data := of_nd (val C data) in
  let axis := if axis <? 0 then axis + ndim data else axis in
  if negb ((0 <=? axis) && (axis <? ndim data)) then Err AxisError else
  if ndim data =? 1 then
    '(cA, cD) <- dwt_single fuel (smem data) w m ;;
    Ok (of_nd (mkNd [zlen cA] cA), of_nd (mkNd [zlen cD] cD))
  else
    ax <- to_axis axis ;;
    dwt_axis fuel junk data w m ax.

(** _dwt.py lines 237-292 (idwt), coefficients of any dimension. *)
Definition py_idwt (cA cD : option (sarr C)) (w : wavelet C) (m : mode) (axis : Z) : res (option (sarr C)) :=
  let zeros_like (a : sarr C) := of_nd (ndzero (sshape a)) in
  match cA, cD with
  | None, None => Err ValueError
  | _, _ =>
      let '(a, d) := match cA, cD with
                     | Some a, Some d => (of_nd (val C a), of_nd (val C d))
                     | Some a, None => (of_nd (val C a), zeros_like a)
                     | None, Some d => (zeros_like d, of_nd (val C d))
                     | None, None => (of_nd (ndzero []), of_nd (ndzero []))
                     end in
      let axis := if axis <? 0 then axis + ndim a else axis in
      if negb ((0 <=? axis) && (axis <? ndim a)) then Err AxisError else
      if ndim a =? 1 then
        (* a buffer of another dimension is refused by Cython *)
        if negb (ndim d =? 1) then Err ValueError else
        r <- idwt_single fuel (smem a) (smem d) w m ;;
        Ok (Some (of_nd (mkNd [zlen r] r)))
      else
        ax <- to_axis axis ;;
        idwt_axis fuel junk (Some a) (Some d) w m ax
  end.

(** One axis of dwtn, _multidim.py lines 181-189. *)
Definition dwtn_step (coeffs : dict (sarr C)) (step : Z * (wavelet C * mode)) : res (dict (sarr C)) :=
  let '(axis, (w, m)) := step in
  r <- mapM (fun '(subband, x) =>
         ax <- to_axis axis ;;
         '(cA, cD) <- dwt_axis fuel junk x w m ax ;;
         Ok [(append subband "a"%string, cA); (append subband "d"%string, cD)]) coeffs ;;
  Ok (List.concat r).

(** _multidim.py lines 119-190 (dwtn). *)
Definition dwtn (data : sarr C) (w : per_axis (wavelet C)) (m : per_axis mode) (axes : option (list Z))
    : res (dict (sarr C)) :=
  if ndim data <? 1 then Err ValueError else
  let axes := match axes with None => tab (ndim data) (fun i => i) | Some l => l end in
  let axes := norm_axes (ndim data) axes in
  modes <- objs_per_axis m (List.length axes) ;;
  wavelets <- objs_per_axis w (List.length axes) ;;
  foldM dwtn_step [(EmptyString, data)] (combine axes (combine wavelets modes)).

Fixpoint all_ad (k : string) : bool :=
  match k with
  | EmptyString => true
  | String c k' => (Ascii.eqb c "a"%char || Ascii.eqb c "d"%char) && all_ad k'
  end.

(** _multidim.py lines 193-216 (_fix_coeffs). *)
Definition fix_coeffs (coeffs : dict (option (sarr C))) : res (dict (sarr C)) :=
  if existsb (fun '(k, v) => match v with None => true | Some _ => false end) coeffs then Err ValueError else
  if existsb (fun '(k, v) => negb (all_ad k)) coeffs then Err ValueError else
  let lens := map (fun '(k, _) => String.length k) coeffs in
  if negb (forallb (fun n => Nat.eqb n (hd O lens)) lens) then Err ValueError else
  Ok (flat_map (fun '(k, v) => match v with Some a => [(k, a)] | None => [] end) coeffs).

(** One axis of idwtn, _multidim.py lines 290-309. *)
Definition idwtn_step (n : Z) (coeffs : dict (option (sarr C))) (step : nat * (Z * (wavelet C * mode)))
    : res (dict (option (sarr C))) :=
  let '(key_length, (axis, (w, m))) := step in
  if (axis <? 0) || (n <=? axis) then Err AxisError else
  mapM (fun key =>
    let get k := match dget coeffs k with Some v => v | None => None end in
    r <- idwt_axis fuel junk (get (append key "a"%string)) (get (append key "d"%string)) w m (Z.to_nat axis) ;;
    Ok (key, r)) (ad_keys key_length).

Definition shape_eqb (a b : list Z) : bool := if list_eq_dec Z.eq_dec a b then true else false.

(** _multidim.py lines 219-311 (idwtn). A result [None] is Python's None. *)
Definition idwtn (coeffs : dict (option (sarr C))) (w : per_axis (wavelet C)) (m : per_axis mode)
    (axes : option (list Z)) : res (option (sarr C)) :=
  let coeffs := filter (fun '(k, v) => match v with None => false | Some _ => true end) coeffs in
  coeffs <- fix_coeffs coeffs ;;
  match coeffs with
  | [] => Err ValueError (* max() of an empty sequence *)
  | (k0, v0) :: rest =>
      let ndim_transform := Z.of_nat (String.length k0) in
      if existsb (fun '(k, v) => negb (shape_eqb (sshape v) (sshape v0))) rest then Err ValueError else
      let '(axes, n) := match axes with
                        | None => (tab ndim_transform (fun i => i), ndim_transform)
                        | Some l => (l, zlen (sshape v0))
                        end in
      let axes := norm_axes n axes in
      modes <- objs_per_axis m (List.length axes) ;;
      wavelets <- objs_per_axis w (List.length axes) ;;
      let steps := combine axes (combine wavelets modes) in
      r <- foldM (idwtn_step n) (map (fun '(k, v) => (k, Some v)) coeffs)
             (rev (combine (seq 0 (List.length steps)) steps)) ;;
      match dget r EmptyString with Some v => Ok v | None => Err KeyError end
  end.

Fixpoint distinct (l : list Z) : nat :=
  match l with [] => O | a :: t => if in_dec Z.eq_dec a t then distinct t else S (distinct t) end.

(** d[k] *)
Definition dgetE {A} (d : dict A) (k : string) : res A := match dget d k with Some v => Ok v | None => Err KeyError end.

(** _multidim.py lines 63-72 (dwt2): (cA, (cH, cV, cD)). *)
Definition dwt2 (data : sarr C) (w : per_axis (wavelet C)) (m : per_axis mode) (axes : list Z)
    : res (sarr C * (sarr C * sarr C * sarr C)) :=
  if negb (Nat.eqb (List.length axes) 2) then Err ValueError else
  if ndim data <? Z.of_nat (distinct axes) then Err ValueError else
  coefs <- dwtn data w m (Some axes) ;;
  aa <- dgetE coefs "aa"%string ;; da <- dgetE coefs "da"%string ;; ad <- dgetE coefs "ad"%string ;; dd <- dgetE coefs "dd"%string ;;
  Ok (aa, (da, ad, dd)).

(** _multidim.py lines 109-116 (idwt2). *)
Definition idwt2 (coeffs : option (sarr C) * (option (sarr C) * option (sarr C) * option (sarr C)))
    (w : per_axis (wavelet C)) (m : per_axis mode) (axes : list Z) : res (option (sarr C)) :=
  let '(LL, (HL, LH, HH)) := coeffs in
  if negb (Nat.eqb (List.length axes) 2) then Err ValueError else
  idwtn [("aa", LL); ("da", HL); ("ad", LH); ("dd", HH)]%string w m (Some axes).

End Md.
