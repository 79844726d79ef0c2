(** Model of pywt/_mra.py: mra (lines 20-120) on 1-D data, mra2 (150-256),
    mran (290-403), and the inverses imra (123-147), imra2 (259-287), imran
    (406-434).

    Simplifications: as in Multidim.v and SwtNd.v; mra is modelled for 1-D data
    (axis 0 or -1); the mode is given by its long name; [sq2], [isq2], [half]
    are sqrt(2), 1/sqrt(2), 1/2. The forward functions build fresh arrays, so
    they are modelled on values; the inverse functions, which modify arrays in
    place, on a heap. *)
From Coq Require Import Ascii String.
From Verif Require Import Base CConv Lengths Dwt Multilevel Swt Nd NdSpec Axis Multidim MultilevelNd SwtNd.

(** The [transform] argument: 'swt'/'swt2'/'swtn', 'dwt'/'dwt2'/'dwtn', or any
    other string. *)
Inductive transform := TSwt | TDwt | TOther.

Definition mode_eqb (a b : mode) : bool :=
  match a, b with
  | ZEROPAD, ZEROPAD | SYMMETRIC, SYMMETRIC | CONSTANT_EDGE, CONSTANT_EDGE | SMOOTH, SMOOTH | PERIODIC, PERIODIC
  | PERIODIZATION, PERIODIZATION | REFLECT, REFLECT | ANTISYMMETRIC, ANTISYMMETRIC | ANTIREFLECT, ANTIREFLECT => true
  | _, _ => false
  end.

(** l[j] = v *)
Fixpoint setl {A} (j : nat) (v : A) (l : list A) : list A :=
  match l, j with [], _ => [] | _ :: t, O => v :: t | h :: t, S j' => h :: setl j' v t end.
Definition getE {A} (l : list A) (j : nat) : res A := match nth_error l j with Some v => Ok v | None => Err IndexError end.

Section Mra.
Context {C : CRing}.
Variable fuel : nat.
Variable junk : Z -> C.
Variables half sq2 isq2 : C.

(** np.zeros_like *)
Definition zeros_like (c : list C) : list C := repeat r0 (List.length c).

(** _mra.py lines 101-119: the loop [for j in range(nc)]; the state is (tmp,
    mra_coeffs). tmp[j] is set back to an array of zeros of the same size. *)
Definition mra_step (inverse : list (list C) -> res (list C)) (N : nat) (coeffs : list (list C))
    (st : list (list C) * list (list C)) (j : nat) : res (list (list C) * list (list C)) :=
  let '(tmp, out) := st in
  c <- getE coeffs j ;;
  let tmp := setl j c tmp in
  rec <- inverse tmp ;;
  let rec := if Nat.eqb (List.length rec) N then rec else firstn N rec in
  Ok (setl j (zeros_like c) tmp, out ++ [rec]).
Definition mra_loop (inverse : list (list C) -> res (list C)) (N : nat) (coeffs : list (list C)) : res (list (list C)) :=
  '(_, out) <- foldM (mra_step inverse N coeffs) (map zeros_like coeffs, []) (seq 0 (List.length coeffs)) ;;
  Ok out.

(** _mra.py lines 20-120 (mra), 1-D data. *)
Definition mra (data : list C) (w : wavelet C) (level : option Z) (tr : transform) (m : mode) : res (list (list C)) :=
  match tr with
  | TSwt =>
      if negb (mode_eqb m PERIODIZATION) then Err ValueError else
      its <- swt fuel data w level 0 true (Some isq2) ;;
      coeffs <- mapM (fun it => match it with SArr c => Ok c | SPair _ _ => Err TypeError end) its ;;
      mra_loop (fun tmp => iswt fuel half (map SArr tmp) w (Some sq2)) (List.length data) coeffs
  | TDwt =>
      coeffs <- wavedec fuel data w m level ;;
      mra_loop (fun tmp => r <- waverec fuel (map Some tmp) w m ;;
                           match r with Some r => Ok r | None => Err AttributeError end) (List.length data) coeffs
  | TOther => Err ValueError
  end.

(** ** n-dimensional data *)
Definition ndzeros_like (c : sarr C) : sarr C := of_nd (ndzero (sshape c)).
(** _mra.py lines 378-380: rec[tuple([slice(sz) for sz in data.shape])] *)
Definition trim_to (shape : list Z) (rec : sarr C) : sarr C :=
  if shape_eqb (sshape rec) shape then rec
  else view rec (map (fun '(a, b) => Z.min a b) (combine (sshape rec) shape)).

Definition dicts (rest : list (swtn_item C)) : res (list (dict (sarr C))) :=
  mapM (fun it => match it with NDict d => Ok d | NArr _ => Err AttributeError end) rest.

(** _mra.py lines 388-401: one key of level [j]; the state is (tmp[1:], dcoeffs). *)
Definition mran_key (inverse : list (dict (sarr C)) -> res (sarr C)) (shape : list Z) (d : dict (sarr C)) (j : nat)
    (st : list (dict (sarr C)) * dict (sarr C)) (k : string) : res (list (dict (sarr C)) * dict (sarr C)) :=
  let '(tmp, out) := st in
  t <- getE tmp j ;;
  z <- dgetE t k ;;
  v <- dgetE d k ;;
  let tmp := setl j (dset t k v) tmp in
  rec <- inverse tmp ;;
  t <- getE tmp j ;;
  Ok (setl j (dset t k z) tmp, dset out k (trim_to shape rec)).
(** _mra.py lines 385-402: one level. *)
Definition mran_level (inverse : list (dict (sarr C)) -> res (sarr C)) (shape : list Z) (ds : list (dict (sarr C)))
    (st : list (dict (sarr C)) * list (dict (sarr C))) (j : nat) : res (list (dict (sarr C)) * list (dict (sarr C))) :=
  let '(tmp, out) := st in
  d <- getE ds j ;;
  '(tmp, dcoeffs) <- foldM (mran_key inverse shape d j) (tmp, []) (map fst d) ;;
  Ok (tmp, out ++ [dcoeffs]).
(** _mra.py lines 367-403. *)
Definition mran_loop (inverse : sarr C -> list (dict (sarr C)) -> res (sarr C)) (shape : list Z) (a : sarr C)
    (ds : list (dict (sarr C))) : res (sarr C * list (dict (sarr C))) :=
  let z := ndzeros_like a in
  let tmp := map (map (fun '(k, v) => (k, ndzeros_like v))) ds in
  rec <- inverse a tmp ;;
  '(_, out) <- foldM (mran_level (inverse z) shape ds) (tmp, []) (seq 0 (List.length ds)) ;;
  Ok (trim_to shape rec, out).

(** _mra.py lines 290-403 (mran). *)
Definition mran (data : sarr C) (w : per_axis (wavelet C)) (level : option Z) (axes : option (list Z)) (tr : transform)
    (m : per_axis mode) : res (sarr C * list (dict (sarr C))) :=
  '(axes, _) <- prep_axes (sshape data) axes ;;
  ws <- objs_per_axis w (List.length axes) ;;
  match tr with
  | TSwt =>
      if negb (match m with One m => mode_eqb m PERIODIZATION | Seq _ => false end) then Err ValueError else
      level <- match level with
               | Some l => Ok l
               | None => ls <- mapM swt_max_level (sshape data) ;;
                         match list_min ls with Some l => Ok l | None => Err ValueError end
               end ;;
      cs <- swtn fuel junk data (Seq ws) level 0 (Some axes) true (Some isq2) ;;
      match cs with
      | NArr a :: rest =>
          ds <- dicts rest ;;
          mran_loop (fun a ds => snd (iswtn fuel junk half (NArr a :: map NDict ds) (Seq ws) (Some axes) (Some sq2))) (sshape data) a ds
      | _ => Err TypeError
      end
  | TDwt =>
      ms <- objs_per_axis m (List.length axes) ;;
      '(a, ds) <- wavedecn fuel junk data (Seq ws) (Seq ms) level (Some axes) ;;
      mran_loop (fun a ds => r <- waverecn fuel junk (Some a) (map (map (fun '(k, v) => (k, Some v))) ds) (Seq ws) (Seq ms) (Some axes) ;;
                             match r with Some r => Ok r | None => Err AttributeError end) (sshape data) a ds
  | TOther => Err ValueError
  end.

(** _mra.py lines 243-254: entry [n] of level [j]; the state is (tmp[1:], dcoeffs). *)
Definition mra2_entry (inverse : list (list (sarr C)) -> res (sarr C)) (shape : list Z) (d : list (sarr C)) (j : nat)
    (st : list (list (sarr C)) * list (sarr C)) (n : nat) : res (list (list (sarr C)) * list (sarr C)) :=
  let '(tmp, out) := st in
  t <- getE tmp j ;;
  z <- getE t n ;;
  v <- getE d n ;;
  let tmp := setl j (setl n v t) tmp in
  rec <- inverse tmp ;;
  t <- getE tmp j ;;
  Ok (setl j (setl n z t) tmp, out ++ [trim_to shape rec]).
Definition mra2_level (inverse : list (list (sarr C)) -> res (sarr C)) (shape : list Z) (ds : list (list (sarr C)))
    (st : list (list (sarr C)) * list (list (sarr C))) (j : nat) : res (list (list (sarr C)) * list (list (sarr C))) :=
  let '(tmp, out) := st in
  d <- getE ds j ;;
  '(tmp, dcoeffs) <- foldM (mra2_entry inverse shape d j) (tmp, []) (seq 0 3) ;;
  Ok (tmp, out ++ [dcoeffs]).
(** _mra.py lines 221-256. *)
Definition mra2_loop (inverse : sarr C -> list (list (sarr C)) -> res (sarr C)) (shape : list Z) (a : sarr C)
    (ds : list (list (sarr C))) : res (sarr C * list (list (sarr C))) :=
  let z := ndzeros_like a in
  let tmp := map (map ndzeros_like) ds in
  rec <- inverse a tmp ;;
  '(_, out) <- foldM (mra2_level (inverse z) shape ds) (tmp, []) (seq 0 (List.length ds)) ;;
  Ok (trim_to shape rec, out).

Definition of3 (l : list (sarr C)) : res (sarr C * sarr C * sarr C) :=
  match l with [h; v; d] => Ok (h, v, d) | _ => Err ValueError end.
Definition to3 (t : sarr C * sarr C * sarr C) : list (sarr C) := let '(h, v, d) := t in [h; v; d].

(** _mra.py lines 150-256 (mra2): (cA, [[cH; cV; cD]; ...]). *)
Definition mra2 (data : sarr C) (w : per_axis (wavelet C)) (level : option Z) (axes : list Z) (tr : transform)
    (m : per_axis mode) : res (sarr C * list (list (sarr C))) :=
  match tr with
  | TSwt =>
      if negb (match m with One m => mode_eqb m PERIODIZATION | Seq _ => false end) then Err ValueError else
      level <- match level with
               | Some l => Ok l
               | None => ls <- mapM swt_max_level (sshape data) ;;
                         match list_min ls with Some l => Ok l | None => Err ValueError end
               end ;;
      cs <- swt2 fuel junk data w level 0 axes true (Some isq2) ;;
      match cs with
      | A2 a :: rest =>
          ds <- mapM (fun it => match it with D2 h v d => Ok [h; v; d] | _ => Err TypeError end) rest ;;
          mra2_loop (fun a ds => ts <- mapM of3 ds ;;
                       iswt2 fuel junk half (A2 a :: map (fun '(h, v, d) => D2 h v d) ts) w (Some sq2) axes) (sshape data) a ds
      | _ => Err TypeError
      end
  | TDwt =>
      '(a, ds) <- wavedec2 fuel junk data w m level axes ;;
      mra2_loop (fun a ds => ts <- mapM of3 ds ;;
                   r <- waverec2 fuel junk (Some a) (map (fun '(h, v, d) => (Some h, Some v, Some d)) ts) w m axes ;;
                   match r with Some r => Ok r | None => Err AttributeError end) (sshape data) a (map to3 ds)
  | TOther => Err ValueError
  end.

(** ** The inverse functions, on a heap of arrays
    An array object is an index into the heap. Unequal shapes (which numpy
    might broadcast) are reported as ValueError. *)
Definition heap : Type := list (nd C).

(** x + y: a new array. *)
Definition h_plus (h : heap) (x y : nat) : res (heap * nat) :=
  a <- getE h x ;; b <- getE h y ;;
  if negb (shape_eqb (nshape a) (nshape b)) then Err ValueError else
  Ok (h ++ [ndadd a b], List.length h).
(** x += y: into x's own memory. *)
Definition h_iadd (h : heap) (x y : nat) : res heap :=
  a <- getE h x ;; b <- getE h y ;;
  if negb (shape_eqb (nshape a) (nshape b)) then Err ValueError else
  Ok (setl x (ndadd a b) h).

(** _mra.py lines 123-147 (imra): reduce(lambda x, y: x + y, mra_coeffs);
    reduce of an empty list is a TypeError. *)
Definition imra (h : heap) (coeffs : list nat) : res (heap * nat) :=
  match coeffs with
  | [] => Err TypeError
  | c0 :: rest => foldM (fun '(h, acc) c => h_plus h acc c) (h, c0) rest
  end.

(** _mra.py lines 259-287 (imra2): [c0] is mra_coeffs[0], [ds] the rest, whose
    elements are indexed by 0, 1, 2. *)
Definition imra2 (h : heap) (c0 : nat) (ds : list (list nat)) : res (heap * nat) :=
  h <- foldM (fun h d => foldM (fun h n => c <- getE d n ;; h_iadd h c0 c) h (seq 0 3)) h ds ;;
  Ok (h, c0).

(** _mra.py lines 406-434 (imran). *)
Definition imran (h : heap) (c0 : nat) (ds : list (dict nat)) : res (heap * nat) :=
  h <- foldM (fun h d => foldM (fun h '(_, c) => h_iadd h c0 c) h d) h ds ;;
  Ok (h, c0).

End Mra.
