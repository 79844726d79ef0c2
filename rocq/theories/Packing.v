(** Model of the packing of coefficient lists into one array:
    pywt/_multilevel.py lines 581-887 and 1034-1191. Arrays are given by shape
    and elements; all have the element type [C], so the conversion to the dtype
    of the approximation is not modelled. *)
From Coq Require Import Ascii String.
From Verif Require Import Base Dwt Nd Swt Multidim MultilevelNd SwtNd PackSpec.
Open Scope Z_scope.

Section Packing.
Variable C : CRing.
Local Notation nd := (nd C).

(** An element of a coefficient list: None, an array, a tuple or list of
    arrays or None, a dictionary with arrays or None. *)
Inductive item : Type :=
  | INone
  | IArr (a : nd)
  | ITup (l : list (option nd))
  | IDict (d : dict (option nd)).

(** _multilevel.py lines 581-592 (_coeffs_wavedec_to_wavedecn), the element
    [coeffs[n]]. *)
Definition conv1 (x : item) : res item :=
  match x with
  | INone => Ok INone
  | IArr a => if negb (zlen (nshape a) =? 1) then Err ValueError else Ok (IDict [("d"%string, Some a)])
  | ITup _ | IDict _ => Err AttributeError (* .ndim *)
  end.

(** _multilevel.py lines 595-609 (_coeffs_wavedec2_to_wavedecn). *)
Definition conv2 (x : item) : res item :=
  match x with
  | ITup [Some da; Some ad; Some dd] => Ok (IDict [("ad"%string, Some ad); ("da"%string, Some da); ("dd"%string, Some dd)])
  | _ => Err ValueError
  end.

(** 'd' * n, _multilevel.py line 618. *)
Fixpoint all_d (n : nat) : string := match n with O => EmptyString | S n' => String "d"%char (all_d n') end.

(** _multilevel.py lines 628-671 (_prepare_coeffs_axes). The result is the
    approximation, the converted details, and the axes if there are details.
    The argument is a Python list. *)
Definition prepare (coeffs : list item) (axes : option (list Z)) : res (nd * list item * option (list Z)) :=
  match coeffs with
  | IArr a :: ds =>
      ds' <- match ds with
             | [] => Ok []
             | IDict _ :: _ => Ok ds
             | IArr _ :: _ => mapM conv1 ds
             | ITup _ :: _ => mapM conv2 ds
             | INone :: _ => Err ValueError
             end ;;
      match ds' with
      | IDict d :: _ =>
          match d with
          | [] => Err IndexError
          | (k, _) :: _ =>
              let n := String.length k in
              axes' <- match axes with
                       | Some l => Ok l
                       | None => if Z.of_nat n <? zlen (nshape a) then Err ValueError
                                 else Ok (map Z.of_nat (seq 0 (List.length (nshape a))))
                       end ;;
              if negb (Nat.eqb (List.length axes') n) then Err ValueError else Ok (a, ds', Some axes')
          end
      | _ => Ok (a, [], None)
      end
  | _ => Err ValueError
  end.

(** shape[ax] with Python's negative indices. *)
Definition py_ax (n : Z) (ax : Z) : nat := Z.to_nat (if ax <? 0 then ax + n else ax).

(** The item used as a dictionary: what looking up a string or calling .items()
    raises otherwise. *)
Definition as_dict (e : Z) (x : item) : res (dict (option nd)) :=
  match x with IDict d => Ok d | _ => Err e end.
Definition as_arr (x : option nd) : res nd := match x with Some a => Ok a | None => Err AttributeError end.
Definition not_dict (x : item) : Z := match x with IArr _ => IndexError | _ => TypeError end.

(** arr_shape[axes] += shape[axes], _multilevel.py line 618: all entries are
    read before any is written. *)
Definition add_axes (arr sh : list Z) (axes : list Z) : res (list Z) :=
  olds <- mapM (py_index arr) axes ;;
  adds <- mapM (py_index sh) axes ;;
  Ok (fold_left (fun r '(ax, v) => setn (py_ax (zlen arr) ax) v r) (combine axes (map (fun '(x, y) => x + y) (combine olds adds))) arr).

(** _multilevel.py lines 612-625 (_determine_coeff_array_shape). *)
Fixpoint array_shape (arr : list Z) (ncoeffs : Z) (ds : list item) (axes : list Z) : res (list Z * bool) :=
  match ds with
  | [] => Ok (arr, prodZ arr =? ncoeffs)
  | x :: ds' =>
      d <- as_dict (not_dict x) x ;;
      v <- dgetE d (all_d (List.length axes)) ;;
      a <- as_arr v ;;
      arr' <- add_axes arr (nshape a) axes ;;
      sizes <- mapM (fun '(_, v) => a <- as_arr v ;; Ok (prodZ (nshape a))) d ;;
      array_shape arr' (ncoeffs + fold_right Z.add 0 sizes) ds' axes
  end.

(** Slices with bounds >= 0 on an axis of [n] entries: start and length. *)
Definition sl_res (n : Z) (s : sl) : Z * Z :=
  match s with SAll => (0, n) | SRange a b => (Z.min a n, Z.max 0 (Z.min b n - Z.min a n)) end.
Fixpoint region (sh : list Z) (ss : list sl) : res (list (Z * Z)) :=
  match sh, ss with
  | [], [] => Ok []
  | [], _ :: _ => Err IndexError
  | n :: sh', [] => r <- region sh' [] ;; Ok ((0, n) :: r)
  | n :: sh', s :: ss' => r <- region sh' ss' ;; Ok (sl_res n s :: r)
  end.
Fixpoint off (r : list (Z * Z)) (idx : list Z) : list Z :=
  match r, idx with (s, _) :: r', i :: idx' => i + s :: off r' idx' | _, _ => [] end.
Fixpoint sub (r : list (Z * Z)) (idx : list Z) : list Z :=
  match r, idx with (s, _) :: r', i :: idx' => i - s :: sub r' idx' | _, _ => [] end.
Fixpoint inside (r : list (Z * Z)) (idx : list Z) : bool :=
  match r, idx with (s, l) :: r', i :: idx' => (s <=? i) && (i <? s + l) && inside r' idx' | _, _ => true end.

(** arr[index] *)
Definition nd_slice (a : nd) (ss : list sl) : res nd :=
  r <- region (nshape a) ss ;; Ok (ndtab (map snd r) (fun idx => ndget a (off r idx))).

(** numpy broadcasting of an array of shape [ds] to shape [rs] in an assignment:
    where an index is read. *)
Fixpoint bcast_idx (ds idx : list Z) : list Z :=
  match ds, idx with d :: ds', i :: idx' => (if d =? 1 then 0 else i) :: bcast_idx ds' idx' | _, _ => [] end.
Fixpoint bcast_ok (ds rs : list Z) : bool :=
  match ds, rs with
  | [], [] => true
  | d :: ds', r :: rs' => ((d =? r) || (d =? 1)) && bcast_ok ds' rs'
  | _, _ => false
  end.
Definition bcast (ds rs : list Z) : res (list Z -> list Z) :=
  let k := (List.length ds - List.length rs)%nat in
  let j := (List.length rs - List.length ds)%nat in
  let ds' := repeat 1 j ++ skipn k ds in
  if forallb (Z.eqb 1) (firstn k ds) && bcast_ok ds' rs
  then Ok (fun idx => repeat 0 k ++ skipn j (bcast_idx ds' idx))
  else Err ValueError.

(** arr[index] = d *)
Definition nd_set (a : nd) (ss : list sl) (d : nd) : res nd :=
  r <- region (nshape a) ss ;;
  f <- bcast (nshape d) (map snd r) ;;
  Ok (ndtab (nshape a) (fun idx => if inside r idx then ndget d (f (sub r idx)) else ndget a idx)).

Fixpoint sset (k : nat) (v : sl) (l : list sl) : list sl :=
  match l, k with [], _ => [] | _ :: t, O => v :: t | h :: t, S k' => h :: sset k' v t end.

(** _multilevel.py lines 782-793: the index of one detail array. *)
Fixpoint key_slices (key : string) (axes : list Z) (a_shape d_shape : list Z) (acc : list sl) : res (list sl) :=
  match key with
  | EmptyString => Ok acc
  | String c key' =>
      match axes with
      | [] => Err IndexError
      | ax :: axes' =>
          s <- (if Ascii.eqb c "a" then n <- py_index d_shape ax ;; Ok (SRange 0 n)
                else if Ascii.eqb c "d" then
                  s <- py_index a_shape ax ;; n <- py_index d_shape ax ;; Ok (SRange s (s + n))
                else Err ValueError) ;;
          _ <- py_index a_shape ax ;; (* slice_array has the length of a_shape *)
          key_slices key' axes' a_shape d_shape (sset (py_ax (zlen a_shape) ax) s acc)
      end
  end.

(** _multilevel.py lines 781-796: one dictionary. *)
Fixpoint put_dict (arr : nd) (a_shape : list Z) (axes : list Z) (d : dict (option nd)) (acc : dict (list sl))
    : res (nd * dict (list sl)) :=
  match d with
  | [] => Ok (arr, acc)
  | (key, v) :: d' =>
      x <- as_arr v ;;
      ss <- key_slices key axes a_shape (nshape x) (repeat SAll (List.length a_shape)) ;;
      arr' <- nd_set arr ss x ;;
      put_dict arr' a_shape axes d' (dset acc key ss)
  end.

(** [a_shape[n] + d_shape[n] for n in range(ndim)], line 797. *)
Fixpoint add_shape (a d : list Z) : res (list Z) :=
  match a, d with
  | [], _ => Ok []
  | x :: a', y :: d' => r <- add_shape a' d' ;; Ok (x + y :: r)
  | _ :: _, [] => Err IndexError
  end.

(** _multilevel.py lines 773-798: the loop. *)
Fixpoint put_loop (arr : nd) (a_shape : list Z) (axes : list Z) (ds : list item) (acc : list (dict (list sl)))
    : res (nd * list (dict (list sl))) :=
  match ds with
  | [] => Ok (arr, rev acc)
  | x :: ds' =>
      d <- as_dict (not_dict x) x ;;
      if existsb (fun '(_, v) => match v with None => true | Some _ => false end) d then Err ValueError else
      v <- dgetE d (all_d (List.length axes)) ;;
      top <- as_arr v ;;
      '(arr', sd) <- put_dict arr a_shape axes d [] ;;
      a_shape' <- add_shape a_shape (nshape top) ;;
      put_loop arr' a_shape' axes ds' (sd :: acc)
  end.

(** _multilevel.py lines 674-798 (coeffs_to_array). [junk] is the content of
    np.empty. The index list is the index of the approximation and one
    dictionary for every level. *)
Definition coeffs_to_array (junk : list Z -> C) (coeffs : list item) (padding : option C) (axes : option (list Z))
    : res (nd * (list sl * list (dict (list sl)))) :=
  '(a, ds, axes') <- prepare coeffs axes ;;
  match axes' with
  | None => Ok (a, (repeat SAll (List.length (nshape a)), []))
  | Some axes' =>
      '(sh, tight) <- array_shape (nshape a) (prodZ (nshape a)) ds axes' ;;
      arr <- match padding with
             | None => if negb tight then Err ValueError else Ok (ndtab sh junk)
             | Some p => Ok (ndtab sh (fun _ => p))
             end ;;
      let a_slices := map (SRange 0) (nshape a) in
      arr1 <- nd_set arr a_slices a ;;
      '(arr2, sds) <- put_loop arr1 (nshape a) axes' ds [] ;;
      Ok (arr2, (a_slices, sds))
  end.

(** The output_format argument. *)
Inductive fmt : Type := FWavedec | FWavedec2 | FWavedecn | FOther.

Definition get_slice (arr : nd) (sd : dict (list sl)) (k : string) : res nd := ss <- dgetE sd k ;; nd_slice arr ss.

(** _multilevel.py lines 866-885: one level. *)
Definition get_level_item (arr : nd) (f : fmt) (sd : dict (list sl)) : res item :=
  match f with
  | FWavedec => a <- get_slice arr sd "d" ;; Ok (IArr a)
  | FWavedec2 =>
      da <- get_slice arr sd "da" ;; ad <- get_slice arr sd "ad" ;; dd <- get_slice arr sd "dd" ;;
      Ok (ITup [Some da; Some ad; Some dd])
  | FWavedecn => l <- mapM (fun '(k, ss) => a <- nd_slice arr ss ;; Ok (k, Some a)) sd ;; Ok (IDict l)
  | FOther => Err ValueError
  end.

(** _multilevel.py lines 801-887 (array_to_coeffs); the list of slices is not
    empty. *)
Definition array_to_coeffs (arr : nd) (slices : list sl * list (dict (list sl))) (f : fmt) : res (list item) :=
  a <- nd_slice arr (fst slices) ;;
  ds <- mapM (get_level_item arr f) (snd slices) ;;
  Ok (IArr a :: ds).

(** ** Raveling *)

(** sorted() of the keys; they are distinct. *)
Fixpoint sinsert {A} (k : string) (v : A) (d : dict A) : dict A :=
  match d with
  | [] => [(k, v)]
  | (k', v') :: d' => if String.leb k k' then (k, v) :: d else (k', v') :: sinsert k v d'
  end.
Definition ssort {A} (d : dict A) : dict A := fold_right (fun '(k, v) r => sinsert k v r) [] d.

(** _multilevel.py lines 948-988 (wavedecn_size) on coefficient arrays. *)
Fixpoint coeffs_size (n : Z) (ds : list item) : res Z :=
  match ds with
  | [] => Ok n
  | x :: ds' =>
      d <- as_dict AttributeError x ;;
      n' <- foldM (fun n '(_, v) => match v with None => Err ValueError | Some a => Ok (n + prodZ (nshape a)) end) n d ;;
      coeffs_size n' ds'
  end.

(** arr[start:start + len(d)] = d; the range lies inside the array. *)
Definition put1 (arr : list C) (start : Z) (d : list C) : list C :=
  tab (zlen arr) (fun i => if (start <=? i) && (i <? start + zlen d) then gz d (i - start) else gz arr i).

(** _multilevel.py lines 1108-1115: one dictionary, its keys already sorted. *)
Fixpoint ravel_dict (arr : list C) (offset : Z) (d : dict (option nd)) (acc : dict (Z * Z)) (sh : dict (list Z))
    : res (list C * Z * dict (Z * Z) * dict (list Z)) :=
  match d with
  | [] => Ok (arr, offset, acc, sh)
  | (k, v) :: d' =>
      a <- as_arr v ;;
      let e := offset + prodZ (nshape a) in
      ravel_dict (put1 arr offset (ndata a)) e d' (dset acc k (offset, e)) (dset sh k (nshape a))
  end.

(** _multilevel.py lines 1096-1116: the loop. *)
Fixpoint ravel_loop (arr : list C) (offset : Z) (ds : list item) (acc : list (dict (Z * Z))) (sh : list (dict (list Z)))
    : res (list C * list (dict (Z * Z)) * list (dict (list Z))) :=
  match ds with
  | [] => Ok (arr, rev acc, rev sh)
  | x :: ds' =>
      d <- as_dict AttributeError x ;;
      if existsb (fun '(_, v) => match v with None => true | Some _ => false end) d then Err ValueError else
      '(arr', offset', s, t) <- ravel_dict arr offset (ssort d) [] [] ;;
      ravel_loop arr' offset' ds' (s :: acc) (t :: sh)
  end.

(** _multilevel.py lines 1034-1116 (ravel_coeffs). Slices are pairs of start and
    stop. *)
Definition ravel_coeffs (junk : Z -> C) (coeffs : list item) (axes : option (list Z))
    : res (list C * (Z * Z * list (dict (Z * Z))) * (list Z * list (dict (list Z)))) :=
  '(a, ds, axes') <- prepare coeffs axes ;;
  let a_size := prodZ (nshape a) in
  match axes' with
  | None => Ok (ndata a, ((0, a_size), []), (nshape a, []))
  | Some _ =>
      size <- coeffs_size a_size ds ;;
      let arr := put1 (tab size junk) 0 (ndata a) in
      '(arr', sls, shs) <- ravel_loop arr a_size ds [] [] ;;
      Ok (arr', ((0, a_size), sls), (nshape a, shs))
  end.

(** arr[start:stop].reshape(shape); bounds and extents >= 0. *)
Definition take1 (arr : list C) (s : Z * Z) (sh : list Z) : res nd :=
  let (st, n) := sl_res (zlen arr) (SRange (fst s) (snd s)) in
  if negb (n =? prodZ sh) then Err ValueError else Ok (mkNd sh (tab n (fun i => gz arr (st + i)))).
Definition take_key (arr : list C) (sd : dict (Z * Z)) (td : dict (list Z)) (k : string) : res nd :=
  s <- dgetE sd k ;; t <- dgetE td k ;; take1 arr s t.

(** _multilevel.py lines 1170-1190: one level. *)
Definition unravel_level (arr : list C) (f : fmt) (sd : dict (Z * Z)) (td : dict (list Z)) : res item :=
  match f with
  | FWavedec => a <- take_key arr sd td "d" ;; Ok (IArr a)
  | FWavedec2 =>
      da <- take_key arr sd td "da" ;; ad <- take_key arr sd td "ad" ;; dd <- take_key arr sd td "dd" ;;
      Ok (ITup [Some da; Some ad; Some dd])
  | FWavedecn => l <- mapM (fun '(k, s) => t <- dgetE td k ;; a <- take1 arr s t ;; Ok (k, Some a)) sd ;; Ok (IDict l)
  | FOther => Err ValueError
  end.

(** _multilevel.py lines 1119-1191 (unravel_coeffs); the lists are not empty. *)
Definition unravel_coeffs (arr : list C) (slices : Z * Z * list (dict (Z * Z))) (shapes : list Z * list (dict (list Z)))
    (f : fmt) : res (list item) :=
  if negb (Nat.eqb (List.length (snd shapes)) (List.length (snd slices))) then Err ValueError else
  a <- take1 arr (fst slices) (fst shapes) ;;
  ds <- mapM (fun '(s, t) => unravel_level arr f s t) (combine (snd slices) (snd shapes)) ;;
  Ok (IArr a :: ds).

End Packing.
Arguments INone {C}. Arguments IArr {C} a. Arguments ITup {C} l. Arguments IDict {C} d.
