(** Model of multilevel transforms along one axis of an n-dimensional array
    (pywt/_multilevel.py lines 90-109 and 147-176) and of the fully separable
    transform (lines 1194-1491 and 1535-1562).

    Simplifications: wavelets and modes are already Wavelet objects and mode
    codes, as in Multidim.v; slices of an array are taken as copies; arrays have
    one element type. *)
From Coq Require Import QArith Qround.
From Verif Require Import Base CConv Lengths Dwt Multilevel Swt Nd NdSpec Axis Multidim MultilevelNd SwtNd PackSpec Packing.
Open Scope Z_scope.

Section Fsw.
Context {C : CRing}.
Variable fuel : nat.
Variable junk : Z -> C.

(** shape[axis], an IndexError being turned into an AxisError. *)
Definition axis_size (sh : list Z) (axis : Z) : res Z :=
  match py_index sh axis with Ok n => Ok n | _ => Err AxisError end.

(** _multilevel.py lines 99-107, the loop of wavedec. *)
Fixpoint wavedec_ax (a : sarr C) (w : wavelet C) (m : mode) (axis : Z) (n : nat) (acc : list (sarr C)) : res (list (sarr C)) :=
  match n with
  | O => Ok (a :: acc)
  | S n' =>
      '(a', d) <- py_dwt fuel junk a w m axis ;;
      wavedec_ax a' w m axis n' (d :: acc)
  end.

(** _multilevel.py lines 90-109 (wavedec). *)
Definition py_wavedec (data : sarr C) (w : wavelet C) (m : mode) (level : option Z) (axis : Z) : res (list (sarr C)) :=
  n <- axis_size (sshape data) axis ;;
  l <- check_level [(n, dec_len w)] level ;;
  wavedec_ax data w m axis (Z.to_nat l) [].

(** _multilevel.py lines 166-174: the approximation made to fit the details. *)
Definition fit_ax (a d : sarr C) (axis : Z) : res (sarr C) :=
  sa <- axis_size (sshape a) axis ;;
  sd <- axis_size (sshape d) axis ;;
  if sa =? sd + 1 then
    match nd_slice C (val C a) (map (SRange 0) (sshape d)) with Ok v => Ok (of_nd v) | _ => Err AxisError end
  else if negb (sa =? sd) then Err ValueError
  else Ok a.

(** _multilevel.py lines 159-176, the loop of waverec. *)
Fixpoint waverec_ax (a : option (sarr C)) (ds : list (option (sarr C))) (w : wavelet C) (m : mode) (axis : Z) : res (option (sarr C)) :=
  match ds with
  | [] => Ok a
  | d :: ds' =>
      a' <- match a, d with
            | Some a, Some d => v <- fit_ax a d axis ;; Ok (Some v)
            | _, _ => Ok a
            end ;;
      a'' <- py_idwt fuel junk a' d w m axis ;;
      waverec_ax a'' ds' w m axis
  end.

(** _multilevel.py lines 147-176 (waverec), coefficients given as a list. *)
Definition py_waverec (coeffs : list (option (sarr C))) (w : wavelet C) (m : mode) (axis : Z) : res (option (sarr C)) :=
  match coeffs with
  | [] => Err ValueError
  | [a] => Ok a
  | a :: ds => waverec_ax a ds w m axis
  end.

(** numpy.concatenate: where an index falls. *)
Fixpoint pick (l : list (nd C)) (k : nat) (idx : list Z) (i : Z) : C :=
  match l with
  | [] => r0
  | x :: t => let n := nthz k (nshape x) in if i <? n then ndget x (setn k i idx) else pick t k idx (i - n)
  end.
Definition same_but (k : nat) (s t : list Z) : bool :=
  if list_eq_dec Z.eq_dec (setn k 0 s) (setn k 0 t) then true else false.
Definition sumL (l : list Z) : Z := fold_right Z.add 0 l.
Definition nd_concat (axis : Z) (l : list (nd C)) : res (nd C) :=
  match l with
  | [] => Err ValueError
  | x :: _ =>
      let n := zlen (nshape x) in
      if (axis <? - n) || (n <=? axis) then Err AxisError else
      let k := py_ax n axis in
      if negb (forallb (fun y => same_but k (nshape x) (nshape y)) l) then Err ValueError else
      Ok (ndtab (setn k (sumL (map (fun y => nthz k (nshape y)) l)) (nshape x)) (fun idx => pick l k idx (nthz k idx)))
  end.

(** _multilevel.py lines 1194-1201 (_check_fswavedecn_axes). *)
Definition check_fsw_axes (sh : list Z) (axes : list Z) : res unit :=
  if negb (Nat.eqb (List.length axes) (distinct axes)) then Err AxisError else
  _ <- mapM (axis_size sh) axes ;; Ok tt.

(** _multilevel.py lines 1204-1236: the attributes of an FswavedecnResult. *)
Record fsw : Type := mkFsw {
  fs_coeffs : nd C;
  fs_slices : list (list sl);
  fs_wavelets : list (wavelet C);
  fs_modes : list mode;
  fs_axes : list Z
}.

(** _multilevel.py lines 1483-1486: consecutive slices of the given lengths. *)
Fixpoint tiles (o : Z) (l : list Z) : list sl :=
  match l with [] => [] | s :: t => SRange o (o + s) :: tiles (o + s) t end.

(** _multilevel.py lines 1475-1489, the body of the loop. *)
Definition fsw_step (st : sarr C * list (list sl)) (step : Z * (option Z * (wavelet C * mode))) : res (sarr C * list (list sl)) :=
  let '(arr, sls) := st in
  let '(ax, (lev, (w, m))) := step in
  coeffs <- py_wavedec arr w m lev ax ;;
  c_shapes <- mapM (fun c => py_index (sshape c) ax) coeffs ;;
  arr' <- nd_concat ax (map (val C) coeffs) ;;
  Ok (of_nd arr', sls ++ [tiles 0 c_shapes]).

(** _multilevel.py lines 1381-1491 (fswavedecn). [levels]: one value (None or
    an int) or a sequence of them. *)
Definition fswavedecn (data : sarr C) (w : per_axis (wavelet C)) (m : per_axis mode) (levels : per_axis (option Z)) (axes : option (list Z)) : res fsw :=
  let axes := match axes with None => tab (ndim data) (fun i => i) | Some l => l end in
  _ <- check_fsw_axes (sshape data) axes ;;
  let levels := match levels with One l => repeat l (List.length axes) | Seq l => l end in
  if negb (Nat.eqb (List.length levels) (List.length axes)) then Err ValueError else
  modes <- objs_per_axis m (List.length axes) ;;
  wavelets <- objs_per_axis w (List.length axes) ;;
  '(arr, sls) <- foldM fsw_step (data, []) (combine axes (combine levels (combine wavelets modes))) ;;
  Ok (mkFsw (val C arr) sls wavelets modes axes).

(** _multilevel.py lines 1555-1561, the body of the loop. *)
Definition fsr_step (arr : sarr C) (step : list sl * (Z * (wavelet C * mode))) : res (sarr C) :=
  let '(sls, (ax, (w, m))) := step in
  coeffs <- mapM (fun s =>
      v <- nd_slice C (val C arr) (sset (py_ax (ndim arr) ax) s (repeat SAll (List.length (sshape arr)))) ;;
      Ok (Some (of_nd v))) sls ;;
  r <- py_waverec coeffs w m ax ;;
  match r with Some a => Ok a | None => Err AttributeError end.

(** _multilevel.py lines 1535-1562 (fswaverecn). *)
Definition fswaverecn (r : fsw) : res (nd C) :=
  _ <- check_fsw_axes (nshape (fs_coeffs r)) (fs_axes r) ;;
  if negb (Nat.eqb (List.length (fs_axes r)) (List.length (fs_slices r))) then Err ValueError else
  arr <- foldM fsr_step (of_nd (fs_coeffs r)) (combine (fs_slices r) (combine (fs_axes r) (combine (fs_wavelets r) (fs_modes r)))) ;;
  Ok (val C arr).

(** ** FswavedecnResult *)
(** _multilevel.py lines 1243-1248, the setter of [coeffs]. *)
Definition set_coeffs (r : fsw) (c : nd C) : res fsw :=
  if list_eq_dec Z.eq_dec (nshape c) (nshape (fs_coeffs r))
  then Ok (mkFsw c (fs_slices r) (fs_wavelets r) (fs_modes r) (fs_axes r)) else Err ValueError.

(** _multilevel.py lines 1270-1273 (levels). *)
Definition fs_levels (r : fsw) : list Z := map (fun s => zlen s - 1) (fs_slices r).

(** An entry of an index: an int or a finite float. Other types are refused
    at line 1320. *)
Inductive num : Type := NInt (z : Z) | NFloat (q : Q).
Definition numq (n : num) : Q := match n with NInt z => inject_Z z | NFloat q => q end.
(** int(x): towards zero; only used on values >= 0. *)
Definition num_int (n : num) : Z := match n with NInt z => z | NFloat q => Qfloor q end.

(** s[lev] of a list of slices *)
Definition level_slice (s : list sl) (lev : num) : res sl :=
  match lev with
  | NFloat _ => Err TypeError
  | NInt z => let n := zlen s in
      if (z <? - n) || (n <=? z) then Err IndexError else Ok (nth (Z.to_nat (if z <? 0 then z + n else z)) s SAll)
  end.

(** _multilevel.py lines 1292-1296 (_get_coef_sl). *)
Fixpoint coef_sl (nd' : Z) (axes : list Z) (levels : list num) (sls : list (list sl)) (acc : list sl) : res (list sl) :=
  match axes, levels with
  | ax :: axes', lev :: levels' =>
      match sls with
      | [] => Err IndexError
      | s :: sls' =>
          v <- level_slice s lev ;;
          if (ax <? - nd') || (nd' <=? ax) then Err IndexError else
          coef_sl nd' axes' levels' sls' (sset (py_ax nd' ax) v acc)
      end
  | _, _ => Ok acc
  end.
Definition get_coef_sl (r : fsw) (levels : list num) : res (list sl) :=
  let sh := nshape (fs_coeffs r) in
  coef_sl (zlen sh) (fs_axes r) levels (fs_slices r) (repeat SAll (List.length sh)).

(** _multilevel.py lines 1312-1330 (_validate_index). The converted levels are
    local to the method. *)
Definition validate_index (r : fsw) (levels : list num) : res unit :=
  if negb (Nat.eqb (List.length levels) (List.length (fs_axes r))) then Err ValueError else
  if existsb (fun l => negb (Qle_bool (numq l - inject_Z (Qfloor (numq l))) 0)) levels
     || existsb (fun l => negb (Qle_bool 0 (numq l))) levels then Err ValueError else
  if existsb (fun '(l, mx) => mx <? num_int l) (combine levels (fs_levels r)) then Err ValueError else
  Ok tt.

(** _multilevel.py lines 1332-1343 (__getitem__). *)
Definition fs_get (r : fsw) (levels : list num) : res (nd C) :=
  _ <- validate_index r levels ;;
  ss <- get_coef_sl r levels ;;
  nd_slice C (fs_coeffs r) ss.

(** self._coeffs[sl] = x after the comparison of shapes. *)
Definition fs_assign (r : fsw) (ss : list sl) (x : nd C) : res fsw :=
  cur <- nd_slice C (fs_coeffs r) ss ;;
  if list_eq_dec Z.eq_dec (nshape cur) (nshape x) then
    c <- nd_set C (fs_coeffs r) ss x ;;
    Ok (mkFsw c (fs_slices r) (fs_wavelets r) (fs_modes r) (fs_axes r))
  else Err ValueError.

(** _multilevel.py lines 1345-1366 (__setitem__). *)
Definition fs_set (r : fsw) (levels : list num) (x : nd C) : res fsw :=
  _ <- validate_index r levels ;;
  ss <- get_coef_sl r levels ;;
  fs_assign r ss x.

(** _multilevel.py lines 1298-1310 (approx). *)
Definition zeros (r : fsw) : list num := repeat (NInt 0) (List.length (nshape (fs_coeffs r))).
Definition fs_approx (r : fsw) : res (nd C) :=
  ss <- get_coef_sl r (zeros r) ;; nd_slice C (fs_coeffs r) ss.
Definition fs_set_approx (r : fsw) (a : nd C) : res fsw :=
  ss <- get_coef_sl r (zeros r) ;; fs_assign r ss a.

End Fsw.
Arguments mkFsw {C}. Arguments fs_coeffs {C}. Arguments fs_slices {C}. Arguments fs_wavelets {C}.
Arguments fs_modes {C}. Arguments fs_axes {C}.

(** itertools.product of ranges *)
Fixpoint product (ls : list (list Z)) : list (list Z) :=
  match ls with [] => [[]] | l :: t => flat_map (fun i => map (cons i) (product t)) l end.
(** list.remove: the first occurrence, ValueError if there is none *)
Fixpoint remove_first (k : list Z) (l : list (list Z)) : res (list (list Z)) :=
  match l with
  | [] => Err ValueError
  | x :: t => if list_eq_dec Z.eq_dec x k then Ok t else r <- remove_first k t ;; Ok (x :: r)
  end.
(** Comparison of tuples *)
Fixpoint lex_lt (a b : list Z) : bool :=
  match a, b with
  | [], [] => false | [], _ :: _ => true | _ :: _, [] => false
  | x :: a', y :: b' => if x =? y then lex_lt a' b' else x <? y
  end.
(** sorted *)
Fixpoint tinsert (k : list Z) (l : list (list Z)) : list (list Z) :=
  match l with [] => [k] | x :: t => if lex_lt x k then x :: tinsert k t else k :: l end.
Definition tsort (l : list (list Z)) : list (list Z) := fold_right tinsert [] l.

(** _multilevel.py lines 1368-1378 (detail_keys). *)
Definition detail_keys {C : CRing} (r : fsw (C := C)) : res (list (list Z)) :=
  k <- remove_first (repeat 0 (List.length (fs_axes r))) (product (map (fun l => tab (l + 1) (fun i => i)) (fs_levels r))) ;;
  Ok (tsort k).
