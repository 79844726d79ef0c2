(** Model of the multilevel n-D transforms: pywt/_multilevel.py lines 179-578
    and 890-1031. Simplifications as in Multidim.v; scalar axes arguments are
    passed as one-element lists; warnings and prints are not results. *)
From Coq Require Import Ascii String.
From Verif Require Import Base CConv Lengths Dwt Multilevel Swt Nd NdSpec Axis Multidim.

(** shape[ax] for a Python int [ax]. *)
Definition py_index (l : list Z) (ax : Z) : res Z :=
  let n := zlen l in
  if (ax <? - n) || (n <=? ax) then Err IndexError else Ok (nthz (Z.to_nat (if ax <? 0 then ax + n else ax)) l).

(** 'a' * n *)
Fixpoint all_a (n : nat) : string := match n with O => EmptyString | S n' => String "a"%char (all_a n') end.

(** dict.pop(k): the rest of the dictionary. *)
Fixpoint dremove {A} (d : dict A) (k : string) : dict A :=
  match d with [] => [] | (k', v) :: t => if String.eqb k' k then t else (k', v) :: dremove t k end.

(** try: [shape[ax] for ax in axes] except IndexError: raise AxisError *)
Definition axes_sizes (shape : list Z) (axes : list Z) : res (list Z) :=
  match mapM (py_index shape) axes with Ok l => Ok l | _ => Err AxisError end.

(** _multilevel.py lines 340-358 (_prep_axes_wavedecn). *)
Definition prep_axes (shape : list Z) (axes : option (list Z)) : res (list Z * list Z) :=
  if zlen shape <? 1 then Err ValueError else
  let axes := match axes with None => tab (zlen shape) (fun i => i) | Some l => l end in
  if negb (Nat.eqb (List.length axes) (distinct axes)) then Err ValueError else
  s <- axes_sizes shape axes ;;
  Ok (axes, s).

Section MN.
Context {C : CRing}.
Variable fuel : nat.
Variable junk : Z -> C.

(** _multilevel.py lines 433-437: the loop of wavedecn. *)
Fixpoint wavedecn_loop (a : sarr C) (w : per_axis (wavelet C)) (m : per_axis mode) (axes : list Z) (n : nat)
    (acc : list (dict (sarr C))) : res (sarr C * list (dict (sarr C))) :=
  match n with
  | O => Ok (a, rev acc)
  | S n' =>
      coeffs <- dwtn fuel junk a w m (Some axes) ;;
      a' <- dgetE coeffs (all_a (List.length axes)) ;;
      wavedecn_loop a' w m axes n' (acc ++ [dremove coeffs (all_a (List.length axes))])
  end.

(** _multilevel.py lines 360-442 (wavedecn): [cAn, {details n}, ..., {details 1}]. *)
Definition wavedecn (data : sarr C) (w : per_axis (wavelet C)) (m : per_axis mode) (level : option Z)
    (axes : option (list Z)) : res (sarr C * list (dict (sarr C))) :=
  '(axes, sizes) <- prep_axes (sshape data) axes ;;
  wavelets <- objs_per_axis w (List.length axes) ;;
  l <- check_level (combine sizes (map dec_len wavelets)) level ;;
  wavedecn_loop data w m axes (Z.to_nat l) [].

(** a[tuple(slice(s) for s in shape)], a view into the same memory. *)
Definition view (a : sarr C) (shape : list Z) : sarr C := mkSarr (smem a) (sbase a) shape (sstrides a).

(** _multilevel.py lines 445-458 (_match_coeff_dims), arrays of equal dimension. *)
Definition match_coeff_dims (a : option (sarr C)) (d : dict (sarr C)) : res (option (sarr C)) :=
  match a, d with
  | None, _ => Ok None
  | Some a', [] => Ok a
  | Some a', (_, v) :: _ =>
      if existsb (fun '(s, t) => (s - t <? 0) || (1 <? s - t)) (combine (sshape a') (sshape v)) then Err ValueError
      else Ok (Some (view a' (sshape v)))
  end.

(** _multilevel.py lines 565-576: the loop of waverecn. *)
Fixpoint waverecn_loop (a : option (sarr C)) (ds : list (dict (sarr C))) (first : bool) (w : per_axis (wavelet C))
    (m : per_axis mode) (axes : list Z) : res (option (sarr C)) :=
  match ds with
  | [] => Ok a
  | d :: ds' =>
      match a, d with
      | None, [] => waverecn_loop a ds' false w m axes
      | _, _ =>
          a' <- (if first then Ok a else match_coeff_dims a d) ;;
          r <- idwtn fuel junk (dset (map (fun '(k, v) => (k, Some v)) d) (all_a (List.length axes)) a') w m (Some axes) ;;
          waverecn_loop r ds' false w m axes
      end
  end.

(** _multilevel.py lines 461-578 (waverecn). *)
Definition waverecn (a : option (sarr C)) (ds : list (dict (option (sarr C)))) (w : per_axis (wavelet C))
    (m : per_axis mode) (axes : option (list Z)) : res (option (sarr C)) :=
  ds <- mapM fix_coeffs ds ;;
  match ds with
  | [] => Ok a
  | _ =>
      let arrays := match a with Some a' => [a'] | None => [] end ++ flat_map (map snd) ds in
      match arrays with
      | [] => Err ValueError (* no coefficient at all *)
      | a0 :: rest =>
          if existsb (fun x => negb (ndim x =? ndim a0)) rest then Err ValueError else
          let axes := match axes with None => tab (ndim a0) (fun i => i) | Some l => l end in
          if negb (Nat.eqb (List.length axes) (distinct axes)) then Err ValueError else
          waverecn_loop a ds true w m axes
      end
  end.

(** _multilevel.py lines 242-251: the loop of wavedec2. *)
Definition triple : Type := (sarr C * sarr C * sarr C)%type.
Fixpoint wavedec2_loop (a : sarr C) (w : per_axis (wavelet C)) (m : per_axis mode) (axes : list Z) (n : nat)
    (acc : list triple) : res (sarr C * list triple) :=
  match n with
  | O => Ok (a, rev acc)
  | S n' => '(a', ds) <- dwt2 fuel junk a w m axes ;; wavedec2_loop a' w m axes n' (acc ++ [ds])
  end.

(** _multilevel.py lines 179-253 (wavedec2). *)
Definition wavedec2 (data : sarr C) (w : per_axis (wavelet C)) (m : per_axis mode) (level : option Z) (axes : list Z)
    : res (sarr C * list triple) :=
  if ndim data <? 2 then Err ValueError else
  if negb (Nat.eqb (List.length axes) 2) then Err ValueError else
  if negb (Nat.eqb (List.length axes) (distinct axes)) then Err ValueError else
  sizes <- axes_sizes (sshape data) axes ;;
  wavelets <- objs_per_axis w (List.length axes) ;;
  l <- check_level (combine sizes (map dec_len wavelets)) level ;;
  wavedec2_loop data w m axes (Z.to_nat l) [].

(** _multilevel.py lines 315-335: the loop of waverec2. [None] for [a] is the
    0-d object array np.asarray(None); indexing it by two slices fails. *)
Definition otriple : Type := (option (sarr C) * option (sarr C) * option (sarr C))%type.
Fixpoint waverec2_loop (a : option (sarr C)) (ds : list otriple) (w : per_axis (wavelet C))
    (m : per_axis mode) (axes : list Z) : res (option (sarr C)) :=
  match ds with
  | [] => Ok a
  | (d1, d2, d3) :: ds' =>
      let shapes := flat_map (fun d => match d with Some d' => [sshape d'] | None => [] end) [d1; d2; d3] in
      a' <- match shapes with
            | [] => match a with
                    | None => Err IndexError
                    | Some a0 => if ndim a0 <? 2 then Err IndexError else Ok a
                    end
            | s :: rest =>
                if existsb (fun t => negb (shape_eqb t s)) rest then Err ValueError else
                Ok (match a with
                    | None => None
                    | Some a0 =>
                        let crop := map (fun '(x, y) => if x =? y + 1 then x - 1 else x) (combine (sshape a0) s) in
                        Some (view a0 (crop ++ skipn (List.length crop) (sshape a0)))
                    end)
            end ;;
      r <- idwt2 fuel junk (a', (d1, d2, d3)) w m axes ;;
      waverec2_loop r ds' w m axes
  end.

(** _multilevel.py lines 256-337 (waverec2). *)
Definition waverec2 (a : option (sarr C)) (ds : list otriple) (w : per_axis (wavelet C)) (m : per_axis mode)
    (axes : list Z) : res (option (sarr C)) :=
  if negb (Nat.eqb (List.length axes) (distinct axes)) then Err ValueError else
  match ds with
  | [] => Ok a
  | _ => waverec2_loop a ds w m axes
  end.

End MN.

(** _multilevel.py lines 890-945 (wavedecn_shapes): [wl] are the dec_len of the
    wavelets. The values of the dictionaries are shapes. *)
Definition shapes_step (axes : list Z) (modes : list mode) (lens : list Z) (shape : list Z) : res (list Z) :=
  foldM (fun new '(axis, (len, m)) =>
     n <- py_index shape axis ;;
     s <- dwt_coeff_len n len m ;;
     Ok (setn (Z.to_nat (if axis <? 0 then axis + zlen shape else axis)) s new))
    shape (combine axes (combine lens modes)).

Fixpoint shapes_loop (axes : list Z) (modes : list mode) (lens : list Z) (shape : list Z) (n : nat)
    (acc : list (dict (list Z))) : res (list Z * list (dict (list Z))) :=
  match n with
  | O => Ok (shape, rev acc)
  | S n' =>
      s <- shapes_step axes modes lens shape ;;
      let new_shapes := map (fun k => (k, s)) (ad_keys (List.length axes)) in
      shapes_loop axes modes lens s n' (acc ++ [dremove new_shapes (all_a (List.length axes))])
  end.

Definition list_max (l : list Z) : option Z := match l with [] => None | a :: t => Some (fold_left Z.max t a) end.

Definition wavedecn_shapes (shape : list Z) (lens : per_axis Z) (m : per_axis mode) (level : option Z)
    (axes : option (list Z)) : res (list Z * list (dict (list Z))) :=
  '(axes, sizes) <- prep_axes shape axes ;;
  lens <- objs_per_axis lens (List.length axes) ;;
  modes <- objs_per_axis m (List.length axes) ;;
  match list_min sizes, list_max lens with
  | Some s, Some l =>
      lev <- check_level [(s, l)] level ;;
      shapes_loop axes modes lens shape (Z.to_nat lev) []
  | _, _ => Err ValueError (* min() of an empty sequence *)
  end.

(** _multilevel.py lines 948-988 (wavedecn_size), on shapes. *)
Definition wavedecn_size (a : list Z) (ds : list (dict (list Z))) : Z :=
  fold_left (fun n d => fold_left (fun n '(_, s) => n + prodZ s) d n) ds (prodZ a).

(** _multilevel.py lines 991-1031 (dwtn_max_level). *)
Definition dwtn_max_level (shape : list Z) (lens : per_axis Z) (axes : option (list Z)) : res Z :=
  '(axes, sizes) <- prep_axes shape axes ;;
  lens <- objs_per_axis lens (List.length axes) ;;
  match list_min (map (fun '(n, f) => dwt_max_level_c n f) (combine sizes lens)) with
  | Some l => Ok l
  | None => Err ValueError
  end.
