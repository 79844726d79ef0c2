(** Model of the n-dimensional stationary transforms of pywt/_swt.py: swt and
    iswt on n-D data (lines 112-226), swt2 (272-378), iswt2 (381-537), swtn
    (540-677), iswtn (680-825).

    Simplifications: as in Multidim.v; [norm] carries 1/sqrt(2) or sqrt(2); the
    arrays [output] and [approx], which no other object shares (np.array with
    copy=True, ndarray.copy), are values ([nd]); [half] is 1/2, so [/ 2^n] is
    multiplication by [half^n]. *)
From Coq Require Import Ascii String.
From Verif Require Import Base CConv Lengths Dwt Swt Nd NdSpec Axis Multidim MultilevelNd.

Definition AttributeError : Z := 9.

(** An element of the coefficient list of swtn: a dictionary, or the
    approximation array that trim_approx=True puts first. *)
Inductive swtn_item (C : CRing) : Type := NArr (a : sarr C) | NDict (d : dict (sarr C)).
Arguments NArr {C}. Arguments NDict {C}.

(** An element of the list of swt2: cA, (cH, cV, cD), or (cA, (cH, cV, cD)). *)
Inductive swt2_item (C : CRing) : Type :=
  | A2 (a : sarr C) | D2 (h v d : sarr C) | AD2 (a h v d : sarr C).
Arguments A2 {C}. Arguments D2 {C}. Arguments AD2 {C}.

(** slice(None) and slice(start, stop, step) with 0 <= start, 1 <= step. *)
Inductive slice : Type := SAll | SRange (start stop step : Z).
Definition slice_len (n : Z) (s : slice) : Z :=
  match s with SAll => n | SRange a b st => Z.max 0 ((Z.min b n - a + st - 1) / st) end.
Definition slice_start (s : slice) : Z := match s with SAll => 0 | SRange a _ _ => a end.
Definition slice_step (s : slice) : Z := match s with SAll => 1 | SRange _ _ st => st end.
(** Is position [i] of an axis selected, and where does it land? *)
Definition slice_hit (n i : Z) (s : slice) : bool :=
  match s with SAll => true | SRange a b st => (a <=? i) && (i <? b) && ((i - a) mod st =? 0) end.
Definition slice_pos (i : Z) (s : slice) : Z := (i - slice_start s) / slice_step s.

(** l[k] = v in a list of slices. *)
Fixpoint set_slice (k : nat) (v : slice) (l : list slice) : list slice :=
  match l, k with [], _ => [] | _ :: t, O => v :: t | h :: t, S k' => h :: set_slice k' v t end.

(** itertools.product(range(k), repeat=n). *)
Fixpoint product (k : Z) (n : nat) : list (list Z) :=
  match n with O => [[]] | S n' => flat_map (fun a => map (cons a) (product k n')) (tab k (fun i => i)) end.

Section SN.
Context {C : CRing}.
Variable fuel : nat.
Variable junk : Z -> C.

(** a[tuple(slices)], a view; more slices than dimensions: IndexError. *)
Definition sview (a : sarr C) (sl : list slice) : res (sarr C) :=
  let n := List.length (sshape a) in
  if (n <? List.length sl)%nat then Err IndexError else
  let sl := sl ++ repeat SAll (n - List.length sl) in
  Ok (mkSarr (smem a) (sbase a + dot (map slice_start sl) (sstrides a))
        (map (fun '(n, s) => slice_len n s) (combine (sshape a) sl))
        (map (fun '(st, s) => st * slice_step s) (combine (sstrides a) sl))).

(** out[tuple(slices)] = f(old value, value of x); [sl] has one slice per axis. *)
Definition assign (out : nd C) (sl : list slice) (f : C -> list Z -> C) : nd C :=
  ndtab (nshape out) (fun idx =>
    if forallb (fun '(n, (i, s)) => slice_hit n i s) (combine (nshape out) (combine idx sl))
    then f (ndget out idx) (map (fun '(i, s) => slice_pos i s) (combine idx sl))
    else ndget out idx).
Definition sel_shape (sh : list Z) (sl : list slice) : list Z := map (fun '(n, s) => slice_len n s) (combine sh sl).
(** out[tuple(slices)] += x; no axis of the arrays x below has size 1 unless it
    is not transformed, so that unequal shapes cannot be broadcast. *)
Definition add_at (out : nd C) (sl : list slice) (x : nd C) : res (nd C) :=
  if negb (shape_eqb (nshape x) (sel_shape (nshape out) sl)) then Err ValueError else
  Ok (assign out sl (fun v p => v [+] ndget x p)).

(** np.roll(x, 1, axis=ax) *)
Definition ndroll1 (ax : nat) (x : nd C) : nd C :=
  ndtab (nshape x) (fun idx => ndget x (setn ax ((nthz ax idx - 1) mod nthz ax (nshape x)) idx)).

(** ** swtn *)

(** _swt.py lines 658-665: one axis. *)
Definition swtn_step (i : Z) (coeffs : dict (sarr C)) (step : Z * wavelet C) : res (dict (sarr C)) :=
  let '(axis, w) := step in
  r <- mapM (fun '(subband, x) =>
         ax <- to_axis axis ;;
         its <- swt_axis fuel junk x w 1 i ax false ;;
         match its with
         | SPair cA cD :: _ => Ok [(append subband "a"%string, cA); (append subband "d"%string, cD)]
         | _ => Err IndexError
         end) coeffs ;;
  Ok (List.concat r).

(** _swt.py lines 655-673: the loop over levels. *)
Fixpoint swtn_loop (data : sarr C) (axes : list Z) (ws : list (wavelet C)) (i : Z) (n : nat) (trim : bool)
    (ret : list (swtn_item C)) : res (list (swtn_item C) * sarr C) :=
  match n with
  | O => Ok (ret, data)
  | S n' =>
      coeffs <- foldM (swtn_step i) [(EmptyString, data)] (combine axes ws) ;;
      data' <- dgetE coeffs (all_a (List.length axes)) ;;
      swtn_loop data' axes ws (i + 1) n' trim
        (ret ++ [NDict (if trim then dremove coeffs (all_a (List.length axes)) else coeffs)])
  end.

Definition norm_w (norm : option C) (w : wavelet C) : wavelet C :=
  match norm with Some s => rescale s w | None => w end.

(** _swt.py lines 540-677 (swtn). *)
Definition swtn (data : sarr C) (w : per_axis (wavelet C)) (level start_level : Z) (axes : option (list Z))
    (trim : bool) (norm : option C) : res (list (swtn_item C)) :=
  if ndim data <? 1 then Err ValueError else
  let axes := match axes with None => tab (ndim data) (fun i => i) | Some l => l end in
  let axes := norm_axes (ndim data) axes in
  if existsb (fun a => (a <? 0) || (ndim data <=? a)) axes then Err AxisError else
  if negb (Nat.eqb (List.length axes) (distinct axes)) then Err ValueError else
  ws <- objs_per_axis w (List.length axes) ;;
  let ws := map (norm_w norm) ws in
  '(ret, a) <- swtn_loop data axes ws start_level (Z.to_nat level) trim [] ;;
  Ok (rev (if trim then ret ++ [NArr a] else ret)).

(** ** iswtn *)

(** _swt.py lines 763-766, 791-805: the slices of one offset combination. [mult] and
    [off] turn [indices] into [even_indices] and [odd_indices]. *)
Definition slices (n : Z) (axes : list Z) (firsts sizes : list Z) (step mult : Z) (offs : list Z) : list slice :=
  fold_left (fun sl '(ax, (f, (sh, o))) =>
      set_slice (Z.to_nat (if ax <? 0 then ax + n else ax)) (SRange (f + o * step) sh (mult * step)) sl)
    (combine axes (combine firsts (combine sizes offs))) (repeat SAll (Z.to_nat n)).

(** _swt.py lines 800-821: one odd/even combination. *)
Definition iswtn_odds (axes : list Z) (ws : list (wavelet C)) (nt : nat) (details : dict (sarr C)) (approx : nd C)
    (firsts sizes : list Z) (step : Z) (output : nd C) (odds : list Z) : res (nd C) :=
  let n := zlen (nshape output) in
  let sl := slices n axes firsts sizes step 2 odds in
  ds <- mapM (fun '(k, v) => v' <- sview v sl ;; Ok (k, Some v')) details ;;
  a' <- sview (of_nd approx) sl ;;
  r <- idwtn fuel junk (dset ds (all_a nt) (Some a')) (Seq ws) (One PERIODIZATION) (Some axes) ;;
  match r with
  | None => Err TypeError
  | Some x =>
      let x := fold_left (fun x '(o, ax) => if o =? 0 then x else ndroll1 (Z.to_nat (if ax <? 0 then ax + n else ax)) x)
                 (combine odds axes) (val C x) in
      add_at output (slices n axes firsts sizes step 1 (map (fun _ => 0) odds)) x
  end.

Fixpoint rpow (h : C) (n : nat) : C := match n with O => r1 | S n' => h [*] rpow h n' end.

(** _swt.py lines 790-822: one combination of offsets. *)
Definition iswtn_first (half : C) (axes : list Z) (ws : list (wavelet C)) (nt : nat) (details : dict (sarr C))
    (sizes : list Z) (step : Z) (output : nd C) (firsts : list Z) : res (nd C) :=
  let sl := slices (zlen (nshape output)) axes firsts sizes step 1 (map (fun _ => 0) firsts) in
  let approx := output in
  let output := assign output sl (fun _ _ => r0) in
  output <- foldM (iswtn_odds axes ws nt details approx firsts sizes step) output (product 2 nt) ;;
  Ok (assign output sl (fun v _ => v [*] rpow half nt)).

(** _swt.py lines 773-822: one level. The axes lie in [-n, n), n the dimension
    of [output] and of the details, or an IndexError is raised. *)
Definition iswtn_level (half : C) (axes : list Z) (ws : list (wavelet C)) (nt : nat) (step : Z)
    (output : nd C) (details : dict (sarr C)) : res (nd C) :=
  match details with
  | [] => Err RuntimeError
  | (_, v0) :: rest =>
      if existsb (fun '(_, v) => negb (shape_eqb (sshape v) (sshape v0))) rest then Err RuntimeError else
      sizes <- mapM (py_index (sshape v0)) axes ;;
      _ <- mapM (py_index (nshape output)) axes ;;
      foldM (iswtn_first half axes ws nt details sizes step) output (product step nt)
  end.

(** _swt.py lines 768-824: the loop over levels. The dictionaries belong to the
    caller, who sees the first component afterwards. *)
Fixpoint iswtn_loop (half : C) (axes : list Z) (ws : list (wavelet C)) (nt : nat) (trim : bool) (output : nd C)
    (cs : list (swtn_item C)) : list (swtn_item C) * res (nd C) :=
  match cs with
  | [] => ([], Ok output)
  | NArr a :: rest => (cs, Err AttributeError)
  | NDict d :: rest =>
      match (if trim then Ok (d, None)
             else match dget d (all_a nt) with None => Err KeyError | Some a => Ok (dremove d (all_a nt), Some a) end) with
      | Ok (details, oa) =>
          match iswtn_level half axes ws nt (2 ^ zlen rest) output details with
          | Ok output' =>
              let d' := match oa with Some a => dset details (all_a nt) a | None => details end in
              let '(rest', r) := iswtn_loop half axes ws nt trim output' rest in
              (NDict d' :: rest', r)
          | OOB => (NDict details :: rest, OOB)
          | Fuel => (NDict details :: rest, Fuel)
          | Err e => (NDict details :: rest, Err e)
          end
      | OOB => (cs, OOB) | Fuel => (cs, Fuel) | Err e => (cs, Err e)
      end
  end.

(** max(len(key) for key in coeffs[-1]); iterating over an array gives its rows. *)
Definition key_length (it : swtn_item C) : res nat :=
  match it with
  | NDict [] => Err ValueError
  | NDict d => Ok (fold_left (fun m '(k, _) => Nat.max m (String.length k)) d O)
  | NArr a => match sshape a with
              | [] => Err TypeError
              | s :: t => if s =? 0 then Err ValueError else
                          match t with [] => Err TypeError | s2 :: _ => Ok (Z.to_nat s2) end
              end
  end.

(** _swt.py lines 680-825 (iswtn): the caller's list afterwards, and the result. *)
Definition iswtn (half : C) (coeffs : list (swtn_item C)) (w : per_axis (wavelet C)) (axes : option (list Z))
    (norm : option C) : list (swtn_item C) * res (sarr C) :=
  match (match rev coeffs with [] => Err IndexError | it :: _ => key_length it end) with
  | Ok nt =>
      match coeffs with
      | [] => (coeffs, Err IndexError)
      | c0 :: rest =>
          match (match c0 with NArr a => Ok (true, a)
                 | NDict d => a <- dgetE d (all_a nt) ;; Ok (false, a) end) with
          | Ok (trim, cA) =>
              let cs := if trim then rest else coeffs in
              let output := val C cA in
              let n := ndim cA in
              let axes := match axes with None => tab n (fun i => i) | Some l => l end in
              let axes := norm_axes n axes in
              if negb (Nat.eqb (List.length axes) (distinct axes)) then (coeffs, Err ValueError) else
              if negb (Nat.eqb nt (List.length axes)) then (coeffs, Err ValueError) else
              match objs_per_axis w (List.length axes) with
              | Ok ws =>
                  let ws := map (norm_w norm) ws in
                  let '(cs', r) := iswtn_loop half axes ws nt trim output cs in
                  ((if trim then c0 :: cs' else cs'), (o <- r ;; Ok (of_nd o)))
              | OOB => (coeffs, OOB) | Fuel => (coeffs, Fuel) | Err e => (coeffs, Err e)
              end
          | OOB => (coeffs, OOB) | Fuel => (coeffs, Fuel) | Err e => (coeffs, Err e)
          end
      end
  | OOB => (coeffs, OOB) | Fuel => (coeffs, Fuel) | Err e => (coeffs, Err e)
  end.

(** ** swt and iswt with an axis *)

(** _swt.py lines 129-153 (swt), data of any dimension. *)
Definition py_swt (data : sarr C) (w : wavelet C) (level : option Z) (start_level : Z) (axis : Z) (trim : bool)
    (norm : option C) : res (list (swt_item (sarr C))) :=
  let data := of_nd (val C data) in
  let w := norm_w norm w in
  let axis := if axis <? 0 then axis + ndim data else axis in
  if negb ((0 <=? axis) && (axis <? ndim data)) then Err AxisError else
  level <- match level with Some l => Ok l | None => swt_max_level (nthz (Z.to_nat axis) (sshape data)) end ;;
  if ndim data =? 1 then
    r <- swt_single fuel (smem data) w level start_level trim ;;
    let wrap l := of_nd (mkNd [zlen l] l) in
    Ok (map (fun it => match it with SPair a d => SPair (wrap a) (wrap d) | SArr d => SArr (wrap d) end) r)
  else
    ax <- to_axis axis ;;
    swt_axis fuel junk data w level start_level ax trim.

(** _swt.py lines 187-269 (iswt), coefficients of any dimension. A list mixing
    tuples and arrays is reported as ValueError. *)
Definition py_iswt (half : C) (coeffs : list (swt_item (sarr C))) (w : wavelet C) (norm : option C) (axis : Z)
    : res (sarr C) :=
  match coeffs with
  | [] => Err IndexError
  | c0 :: rest =>
      let cA := match c0 with SPair a _ => a | SArr a => a end in
      if 1 <? ndim cA then
        cs <- match c0 with
              | SArr a => ds <- mapM (fun it => match it with SArr d => Ok (NDict [("d"%string, d)]) | _ => Err ValueError end) rest ;;
                          Ok (NArr a :: ds)
              | SPair _ _ => mapM (fun it => match it with SPair a d => Ok (NDict [("a"%string, a); ("d"%string, d)]) | _ => Err ValueError end) coeffs
              end ;;
        snd (iswtn half cs (One w) (Some [axis]) norm)
      else if negb (axis =? 0) && negb (axis =? -1) then Err AxisError else
      if negb (ndim cA =? 1) then Err ValueError else
      let arr a := smem (of_nd (val C a)) in
      r <- iswt fuel half (map (fun it => match it with SPair a d => SPair (arr a) (arr d) | SArr d => SArr (arr d) end) coeffs) w norm ;;
      Ok (of_nd (mkNd [zlen r] r))
  end.

(** ** swt2 and iswt2 *)

(** _swt.py lines 358-378 (swt2). *)
Definition swt2 (data : sarr C) (w : per_axis (wavelet C)) (level start_level : Z) (axes : list Z) (trim : bool)
    (norm : option C) : res (list (swt2_item C)) :=
  if negb (Nat.eqb (List.length axes) 2) then Err ValueError else
  if negb (Nat.eqb (List.length axes) (distinct axes)) then Err ValueError else
  if ndim data <? Z.of_nat (distinct axes) then Err ValueError else
  coefs <- swtn data w level start_level (Some axes) trim norm ;;
  let three c := da <- dgetE c "da"%string ;; ad <- dgetE c "ad"%string ;; dd <- dgetE c "dd"%string ;; Ok (da, ad, dd) in
  if trim then
    match coefs with
    | NArr a :: rest =>
        ds <- mapM (fun c => match c with NDict c => '(h, v, d) <- three c ;; Ok (D2 h v d) | NArr _ => Err IndexError end) rest ;;
        Ok (A2 a :: ds)
    | _ => Err IndexError
    end
  else mapM (fun c => match c with NDict c => aa <- dgetE c "aa"%string ;; '(h, v, d) <- three c ;; Ok (AD2 aa h v d)
                      | NArr _ => Err IndexError end) coefs.

(** _swt.py lines 496-535: one pair of offsets of the 2-D loop of iswt2. *)
Definition iswt2_first (quarter : C) (ws : list (wavelet C)) (cH cV cD : sarr C) (step : Z) (output : nd C)
    (firsts : Z * Z) : res (nd C) :=
  let '(fh, fw) := firsts in
  let H := nthz 0 (sshape cH) in let W := nthz 1 (sshape cH) in
  let even_h := SRange fh H (2 * step) in let even_w := SRange fw W (2 * step) in
  let odd_h := SRange (fh + step) H (2 * step) in let odd_w := SRange (fw + step) W (2 * step) in
  let quad sl :=
    a <- sview (of_nd output) sl ;; h <- sview cH sl ;; v <- sview cV sl ;; d <- sview cD sl ;;
    r <- idwt2 fuel junk (Some a, (Some h, Some v, Some d)) (Seq ws) (One PERIODIZATION) [-2; -1] ;;
    match r with Some x => Ok (val C x) | None => Err TypeError end in
  x1 <- quad [even_h; even_w] ;;
  x2 <- quad [even_h; odd_w] ;;
  x3 <- quad [odd_h; even_w] ;;
  x4 <- quad [odd_h; odd_w] ;;
  let x2 := ndroll1 1 x2 in
  let x3 := ndroll1 0 x3 in
  let x4 := ndroll1 1 (ndroll1 0 x4) in
  let sl := [SRange fh H step; SRange fw W step] in
  if negb (forallb (fun x => shape_eqb (nshape x) (nshape x1)) [x2; x3; x4]) then Err ValueError else
  if negb (shape_eqb (nshape x1) (sel_shape (nshape output) sl)) then Err ValueError else
  Ok (assign output sl (fun _ p => (ndget x1 p [+] ndget x2 p [+] ndget x3 p [+] ndget x4 p) [*] quarter)).

(** _swt.py lines 477-537: the loop over levels, [cs] from the coarsest;
    details that are not 2-D are reported as IndexError. *)
Fixpoint iswt2_loop (quarter : C) (ws : list (wavelet C)) (output : nd C) (cs : list (sarr C * sarr C * sarr C)) : res (nd C) :=
  match cs with
  | [] => Ok output
  | (cH, cV, cD) :: rest =>
      let step := 2 ^ zlen rest in
      if negb (shape_eqb (sshape cH) (sshape cV)) || negb (shape_eqb (sshape cH) (sshape cD)) then Err RuntimeError else
      if negb (ndim cH =? 2) then Err IndexError else
      output <- foldM (iswt2_first quarter ws cH cV cD step) output
                  (flat_map (fun fh => map (fun fw => (fh, fw)) (tab step (fun k => k))) (tab step (fun k => k))) ;;
      iswt2_loop quarter ws output rest
  end.

(** _swt.py lines 432-537 (iswt2), [axes] a tuple. A list that mixes the formats is reported as
    ValueError. *)
Definition iswt2 (half : C) (coeffs : list (swt2_item C)) (w : per_axis (wavelet C)) (norm : option C) (axes : list Z)
    : res (sarr C) :=
  match coeffs with
  | [] => Err IndexError
  | D2 _ _ _ :: _ => Err ValueError
  | c0 :: rest =>
      let trim := match c0 with A2 _ => true | _ => false end in
      let cA := match c0 with A2 a => a | AD2 a _ _ _ => a | D2 h _ _ => h end in
      ds <- mapM (fun c => match c, trim with D2 h v d, true => Ok (cA, (h, v, d)) | AD2 a h v d, false => Ok (a, (h, v, d))
                           | _, _ => Err ValueError end) (if trim then rest else coeffs) ;;
      if negb (ndim cA =? 2) || negb (shape_eqb axes [-2; -1]) then
        let nd_items := if trim then NArr cA :: map (fun '(_, (h, v, d)) => NDict [("da", h); ("ad", v); ("dd", d)]%string) ds
                        else map (fun '(a, (h, v, d)) => NDict [("aa", a); ("da", h); ("ad", v); ("dd", d)]%string) ds in
        snd (iswtn half nd_items w (Some axes) norm)
      else
        ws <- objs_per_axis w 2 ;;
        o <- iswt2_loop (half [*] half) (map (norm_w norm) ws) (val C cA) (map snd ds) ;;
        Ok (of_nd o)
  end.

End SN.
