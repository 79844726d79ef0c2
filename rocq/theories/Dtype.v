(** Model of the choice of the element types (dtypes) of the results, of the
    conversions between them, and of the places where a conversion changes values.

    Simplifications. [Int] stands for the integer types of 32 and 64 bits, [Bool]
    for bool; shorter integers, unsigned 64-bit integers, strings and object
    arrays are left out. A conversion between two floating or two complex types is
    the identity: rounding is not modelled. [Lst d] is a list (or another object
    without a dtype attribute) of Python numbers that numpy.asarray turns into an
    array of type [d]. The C library is built with complex numbers
    (_have_c99_complex). *)
From Coq Require Import Ascii String.
From Verif Require Import Base CConv Lengths Dwt Swt Nd NdSpec Axis Multidim MultilevelNd SwtNd Packing Instances.

Inductive dtype : Type := Bool | Int | Half | Single | Double | LongDouble | CSingle | CDouble | CLong.
Inductive like : Type := Arr (d : dtype) | Lst (d : dtype).

Definition dtype_eqb (a b : dtype) : bool :=
  match a, b with
  | Bool, Bool | Int, Int | Half, Half | Single, Single | Double, Double | LongDouble, LongDouble
  | CSingle, CSingle | CDouble, CDouble | CLong, CLong => true
  | _, _ => false
  end.
(** dtype.kind == 'c'. *)
Definition kind_c (d : dtype) : bool := match d with CSingle | CDouble | CLong => true | _ => false end.
(** dtype.kind in 'biu'. *)
Definition kind_i (d : dtype) : bool := match d with Bool | Int => true | _ => false end.
(** dtype.itemsize, 64-bit integers. *)
Definition itemsize (d : dtype) : Z :=
  match d with Bool => 1 | Half => 2 | Single => 4 | Int | Double | CSingle => 8 | LongDouble | CDouble => 16 | CLong => 32 end.

(** numpy.asarray(x). *)
Definition asarray (x : like) : dtype := match x with Arr d | Lst d => d end.
(** numpy.asarray(x, dtype=t): Python complex numbers do not convert to real ones. *)
Definition asarray_to (x : like) (t : dtype) : res dtype :=
  match x with
  | Arr _ => Ok t
  | Lst d => if kind_c d && negb (kind_c t) then Err TypeError else Ok t
  end.

(** numpy.result_type of two types. *)
Definition promote (a b : dtype) : dtype :=
  let rank d := match d with Bool => 0 | Half => 1 | Single | CSingle => 2 | Int => 3 | Double | CDouble => 3 | LongDouble | CLong => 4 end in
  let c := kind_c a || kind_c b in
  if kind_i a && kind_i b then (match a, b with Bool, Bool => Bool | _, _ => Int end)
  else match Z.max (rank a) (rank b), c with
       | 1, false => Half | 2, false => Single | 3, false => Double | 4, false => LongDouble
       | 3, true => CDouble | 4, true => CLong | _, true => CSingle | _, false => Double
       end.

(** _pywt.pyx lines 1033-1050 (_check_dtype). *)
Definition check_dtype (x : like) : dtype :=
  match x with
  | Arr Single => Single | Arr Double => Double | Arr CSingle => CSingle | Arr CDouble => CDouble
  | Arr Half => Single
  | Arr CLong => CDouble
  | Arr _ => Double
  | Lst _ => Double
  end.

(** ** One level *)

(** _dwt.py lines 171-188 (dwt), _dwt.pyx lines 26-180; also downcoef (_dwt.py lines 334-343),
    upcoef (_dwt.py lines 393-402) and swt of 1-D data (_swt.py lines 130-131). *)
Definition dwt_dtype (x : like) : res dtype := asarray_to x (check_dtype x).

(** _dwt.py lines 262-268, _multidim.py lines 300-307, _swt.py lines 234-241: the
    common type of two types that differ. *)
Definition upcast (a b : dtype) : dtype := if kind_c a || kind_c b then CDouble else Double.

(** _dwt.py lines 232-298 (idwt); both None is a ValueError (line 240). *)
Definition idwt_dtype (a d : option like) : res dtype :=
  match a, d with
  | None, None => Err ValueError
  | Some a, None => asarray_to a (check_dtype a)
  | None, Some d => asarray_to d (check_dtype d)
  | Some a, Some d =>
      ta <- asarray_to a (check_dtype a) ;;
      td <- asarray_to d (check_dtype d) ;;
      Ok (if dtype_eqb ta td then ta else upcast ta td)
  end.

(** _dwt.pyx line 97: the bands made by dwt_axis. *)
Definition dwt_axis_dtype (d : dtype) : dtype := check_dtype (Arr d).
(** _dwt.pyx lines 259-335 (idwt_axis): the types of the two converted arrays and
    of the output, which have to be the same for the C code to read them as such. *)
Definition idwt_axis_dtypes (a d : option dtype) : option (dtype * dtype * dtype) :=
  let a' := option_map (fun x => match d with
                                 | Some y => if itemsize x <? itemsize y then check_dtype (Arr y) else check_dtype (Arr x)
                                 | None => check_dtype (Arr x) end) a in
  let d' := option_map (fun y => match a' with
                                 | Some x => if itemsize y <? itemsize x then check_dtype (Arr x) else check_dtype (Arr y)
                                 | None => check_dtype (Arr y) end) d in
  match a', d' with
  | Some x, Some y => Some (x, y, x)
  | Some x, None => Some (x, x, x)
  | None, Some y => Some (y, y, y)
  | None, None => None
  end.

(** _multidim.py lines 164-190 (dwtn): the type of every band, after [n] axes. *)
Fixpoint dwtn_dtype_ (n : nat) (d : dtype) : dtype := match n with O => d | S n' => dwtn_dtype_ n' (dwt_axis_dtype d) end.
Definition dwtn_dtype (n : nat) (x : like) : dtype := dwtn_dtype_ n (asarray x).

(** _multidim.py lines 297-308: one pair of bands of idwtn. *)
Definition idwtn_pair (l h : option dtype) : option (dtype * dtype * dtype) :=
  match l, h with
  | Some a, Some b => if dtype_eqb a b then idwt_axis_dtypes l h else idwt_axis_dtypes (Some (upcast a b)) (Some (upcast a b))
  | _, _ => idwt_axis_dtypes l h
  end.
(** _multidim.py lines 289-311: all pairs, over [n] axes; [key] is the part of the
    key already fixed, and [bands] the arrays of the dictionary. *)
Fixpoint idwtn_dtype (n : nat) (key : string) (bands : string -> option dtype) : option dtype :=
  match n with
  | O => bands key
  | S n' => option_map snd (idwtn_pair (idwtn_dtype n' (key ++ "a") bands) (idwtn_dtype n' (key ++ "d") bands))
  end.

(** ** Several levels *)

(** _multilevel.py lines 90-107 (wavedec): the approximation, then the details
    from the coarsest. *)
Fixpoint wavedec_dtypes_ (n : nat) (a : dtype) (ds : list dtype) : res (list dtype) :=
  match n with
  | O => Ok (a :: ds)
  | S n' => d <- dwt_dtype (Arr a) ;; wavedec_dtypes_ n' d (d :: ds)
  end.
Definition wavedec_dtypes (level : nat) (x : like) : res (list dtype) := wavedec_dtypes_ level (asarray x) [].
(** _multilevel.py lines 150-178 (waverec), arrays or None. *)
Definition waverec_dtype (cs : list (option dtype)) : res (option dtype) :=
  match cs with
  | [] => Err ValueError
  | a :: ds => foldM (fun a d => t <- idwt_dtype (option_map Arr a) (option_map Arr d) ;; Ok (Some t)) a ds
  end.
(** _swt.py lines 217-241 (iswt). *)
Definition iswt_dtype (a : dtype) (ds : list dtype) : res dtype :=
  a0 <- asarray_to (Arr a) (check_dtype (Arr a)) ;;
  foldM (fun o d => let t := check_dtype (Arr d) in Ok (if dtype_eqb t o then o else upcast o t)) a0 ds.

(** _cwt.py lines 103-117: the type of the output of cwt; [cplx] is wavelet.complex_cwt. *)
Definition cwt_dtype (cplx : bool) (x : like) : res dtype :=
  let dt := check_dtype x in
  _ <- asarray_to x dt ;;
  Ok (if cplx then promote dt CSingle else dt).

(** ** Values *)

Section Values.
Variable C : CRing.
Variable trunc : C -> C. (* from floating to integer values *)
Variable truth : Cplx C -> C. (* 1 for a value that is not 0, else 0 *)
Variable fuel : nat.
Variable junk : Z -> Cplx C.

(** An array with its type. *)
Definition typed : Type := (dtype * sarr (Cplx C))%type.

(** One element assigned to an array of another type: the imaginary part is
    discarded by a real type, the fraction by an integer type, all but the truth value
    by bool. *)
Definition cast (from to : dtype) (v : Cplx C) : Cplx C :=
  if dtype_eqb to Bool && negb (dtype_eqb from Bool) then (truth v, @r0 C) else
  let v := if kind_c from && negb (kind_c to) then (fst v, @r0 C) else v in
  if kind_i to && negb (kind_i from) then (trunc (fst v), @r0 C) else v.
(** array.astype, array assignment. *)
Definition castnd (from to : dtype) (a : nd (Cplx C)) : nd (Cplx C) := mkNd (nshape a) (map (cast from to) (ndata a)).

(** *** iswtn and iswt2 *)

Inductive titem : Type := TArr (t : typed) | TDict (d : dict typed).
Definition untype_dict (d : dict typed) : dict (sarr (Cplx C)) := map (fun '(k, t) => (k, snd t)) d.
Definition untype (it : titem) : swtn_item (Cplx C) :=
  match it with TArr t => NArr (snd t) | TDict d => NDict (untype_dict d) end.

(** _swt.py lines 774-778: [dt] is the type of the approximation handed in by the
    caller, [od] the type of the current output. *)
Definition level_dtype (dt : dtype) (ds : dict typed) : dtype := fold_left (fun t '(_, v) => promote t (fst v)) ds dt.
Definition to_common (od common : dtype) (output : nd (Cplx C)) : nd (Cplx C) :=
  if dtype_eqb od common then output else castnd od common output.

(** _swt.py lines 768-825 (the loop of iswtn) with the types; SwtNd.iswtn_loop describes what
    happens to the dictionaries of the caller. *)
Fixpoint iswtn_loop_t (half : Cplx C) (axes : list Z) (ws : list (wavelet (Cplx C))) (nt : nat) (trim : bool) (dt od : dtype)
    (output : nd (Cplx C)) (cs : list titem) : res (dtype * nd (Cplx C)) :=
  match cs with
  | [] => Ok (od, output)
  | TArr _ :: _ => Err AttributeError
  | TDict d :: rest =>
      details <- (if trim then Ok d else match dget d (all_a nt) with None => Err KeyError | Some _ => Ok (dremove d (all_a nt)) end) ;;
      let common := level_dtype dt details in
      output' <- iswtn_level fuel junk half axes ws nt (2 ^ zlen rest) (to_common od common output) (untype_dict details) ;;
      iswtn_loop_t half axes ws nt trim dt common output' rest
  end.

(** _swt.py lines 680-825 (iswtn) with the types. *)
Definition iswtn_t (half : Cplx C) (coeffs : list titem) (w : per_axis (wavelet (Cplx C))) (axes : option (list Z))
    (norm : option (Cplx C)) : res (dtype * nd (Cplx C)) :=
  nt <- match rev coeffs with [] => Err IndexError | it :: _ => key_length (untype it) end ;;
  match coeffs with
  | [] => Err IndexError
  | c0 :: rest =>
      '(trim, cA) <- match c0 with TArr a => Ok (true, a) | TDict d => a <- dgetE d (all_a nt) ;; Ok (false, a) end ;;
      let cs := if trim then rest else coeffs in
      let dt := check_dtype (Arr (fst cA)) in
      let output := castnd (fst cA) dt (val (Cplx C) (snd cA)) in
      let n := ndim (snd cA) in
      let axes := match axes with None => tab n (fun i => i) | Some l => l end in
      let axes := norm_axes n axes in
      if negb (Nat.eqb (List.length axes) (distinct axes)) then Err ValueError else
      if negb (Nat.eqb nt (List.length axes)) then Err ValueError else
      ws <- objs_per_axis w (List.length axes) ;;
      iswtn_loop_t half axes (map (norm_w norm) ws) nt trim dt dt output cs
  end.

(** _swt.py lines 477-537 (the loop of iswt2) with the types; lines 491-494 use _check_dtype. *)
Fixpoint iswt2_loop_t (quarter : Cplx C) (ws : list (wavelet (Cplx C))) (dt od : dtype) (output : nd (Cplx C))
    (cs : list (typed * typed * typed)) : res (dtype * nd (Cplx C)) :=
  match cs with
  | [] => Ok (od, output)
  | (cH, cV, cD) :: rest =>
      let step := 2 ^ zlen rest in
      if negb (shape_eqb (sshape (snd cH)) (sshape (snd cV))) || negb (shape_eqb (sshape (snd cH)) (sshape (snd cD))) then Err RuntimeError else
      if negb (ndim (snd cH) =? 2) then Err IndexError else
      let ct (t : typed) := check_dtype (Arr (fst t)) in
      let common := promote (promote (promote dt (ct cH)) (ct cV)) (ct cD) in
      output <- foldM (iswt2_first fuel junk quarter ws (snd cH) (snd cV) (snd cD) step) (to_common od common output)
                  (flat_map (fun fh => map (fun fw => (fh, fw)) (tab step (fun k => k))) (tab step (fun k => k))) ;;
      iswt2_loop_t quarter ws dt common output rest
  end.

(** _swt.py lines 432-537 (iswt2) with the types, [axes] a tuple. *)
Inductive titem2 : Type := TA2 (a : typed) | TAD2 (a h v d : typed) | TD2 (h v d : typed).
Definition untype2 (it : titem2) : swt2_item (Cplx C) :=
  match it with
  | TA2 a => A2 (snd a) | TAD2 a h v d => AD2 (snd a) (snd h) (snd v) (snd d) | TD2 h v d => D2 (snd h) (snd v) (snd d)
  end.
Definition iswt2_t (half : Cplx C) (coeffs : list titem2) (w : per_axis (wavelet (Cplx C))) (norm : option (Cplx C)) (axes : list Z)
    : res (dtype * nd (Cplx C)) :=
  match coeffs with
  | [] => Err IndexError
  | TD2 _ _ _ :: _ => Err ValueError
  | c0 :: rest =>
      let trim := match c0 with TA2 _ => true | _ => false end in
      let cA := match c0 with TA2 a => a | TAD2 a _ _ _ => a | TD2 h _ _ => h end in
      ds <- mapM (fun c => match c, trim with TD2 h v d, true => Ok (cA, (h, v, d)) | TAD2 a h v d, false => Ok (a, (h, v, d))
                           | _, _ => Err ValueError end) (if trim then rest else coeffs) ;;
      if negb (ndim (snd cA) =? 2) || negb (shape_eqb axes [-2; -1]) then
        let nd_items := if trim then TArr cA :: map (fun '(_, (h, v, d)) => TDict [("da", h); ("ad", v); ("dd", d)]%string) ds
                        else map (fun '(a, (h, v, d)) => TDict [("aa", a); ("da", h); ("ad", v); ("dd", d)]%string) ds in
        iswtn_t half nd_items w (Some axes) norm
      else
        let dt := check_dtype (Arr (fst cA)) in
        ws <- objs_per_axis w 2 ;;
        iswt2_loop_t (half [*] half) (map (norm_w norm) ws) dt dt (castnd (fst cA) dt (val (Cplx C) (snd cA))) (map snd ds)
  end.

(** *** Packing *)

(** An element of a coefficient list with types. *)
Definition tnd : Type := (dtype * nd (Cplx C))%type.
Inductive pitem : Type :=
  | PNone
  | PArr (a : tnd)
  | PTup (l : list (option tnd))
  | PDict (d : dict (option tnd)).
Definition pconv (f : tnd -> nd (Cplx C)) (x : pitem) : item (Cplx C) :=
  match x with
  | PNone => INone
  | PArr a => IArr (f a)
  | PTup l => ITup (map (option_map f) l)
  | PDict d => IDict (map (fun '(k, v) => (k, option_map f v)) d)
  end.
(** The list as the packing functions store it: every detail is assigned to an
    array of the type of the approximation, _multilevel.py lines 763, 765, 793 and 1086, 1112. *)
Definition stored (cs : list pitem) : list (item (Cplx C)) :=
  match cs with
  | PArr a :: ds => IArr (snd a) :: map (pconv (fun t => castnd (fst t) (fst a) (snd t))) ds
  | _ => map (pconv snd) cs
  end.
Definition pdtype (cs : list pitem) : dtype := match cs with PArr a :: _ => fst a | _ => Double end.
(** _multilevel.py lines 674-798 (coeffs_to_array) with the types; [padding] is a
    number of the type [fst padding]. *)
Definition coeffs_to_array_t (junkl : list Z -> Cplx C) (coeffs : list pitem) (padding : option (dtype * Cplx C)) (axes : option (list Z)) :=
  coeffs_to_array (Cplx C) junkl (stored coeffs) (option_map (fun '(d, p) => cast d (pdtype coeffs) p) padding) axes.
(** _multilevel.py lines 1034-1116 (ravel_coeffs) with the types. *)
Definition ravel_coeffs_t (coeffs : list pitem) (axes : option (list Z)) :=
  ravel_coeffs (Cplx C) junk (stored coeffs) axes.

(** *** Packets *)

(** What is assigned to a node: an array, a list, another node with its data. *)
Inductive source : Type := SrcArr (t : tnd) | SrcLst (t : tnd) | SrcNode (t : tnd).
(** _wavelet_packets.py lines 296-304: the data of the node afterwards. A node has no
    attribute dtype. *)
Definition assigned (s : source) : tnd :=
  let '(d, v) := match s with SrcArr t | SrcLst t | SrcNode t => t end in
  let t := match s with SrcArr _ => check_dtype (Arr d) | SrcLst _ | SrcNode _ => check_dtype (Lst d) end in
  if dtype_eqb d t then (d, v) else (t, castnd d t v).

End Values.
