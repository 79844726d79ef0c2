(** Model of the transforms along one axis of n-dimensional strided arrays:
    downcoef_axis and idwt_axis of pywt/_extensions/c/wt.template.c, dwt_axis
    and idwt_axis of pywt/_extensions/_dwt.pyx, swt_axis of
    pywt/_extensions/_swt.pyx.

    Simplifications: strides and offsets are counted in elements instead of
    bytes (sizeof(TYPE) = 1); offsets are over Z; the counted [for] loops are
    folds. A row that the C code accesses in place, through a pointer into the
    array, is read before and written back after the 1-D routine; the bounds of
    such a row are those of the row, not of the whole array (stricter than C). *)
From Verif Require Import Base CConv Lengths Dwt Swt Nd.

(** A numpy array: its memory, the position of element (0,...,0), shape and
    strides (common.h, struct ArrayInfo, and the data pointer). *)
Record sarr (C : CRing) : Type := mkSarr { smem : list C; sbase : Z; sshape : list Z; sstrides : list Z }.
Arguments mkSarr {C}. Arguments smem {C}. Arguments sbase {C}. Arguments sshape {C}. Arguments sstrides {C}.

(** Strides of a C-contiguous array. (numpy may choose other strides for arrays
    without elements; they are never used.) *)
Fixpoint c_strides (sh : list Z) : list Z := match sh with [] => [] | _ :: t => prodZ t :: c_strides t end.

(** The elements of an array, in index order, and a C-contiguous array with
    given elements: [of_nd (val C a)] is np.asarray(a, order='C') and
    np.array(a). *)
Definition val (C : CRing) (a : sarr C) : nd C :=
  ndtab (sshape a) (fun idx => gz (smem a) (sbase a + dot idx (sstrides a))).
Definition of_nd {C : CRing} (a : nd C) : sarr C := mkSarr (ndata a) 0 (nshape a) (c_strides (nshape a)).

Section Axis.
Context {C : CRing}.
Variable fuel : nat.

(** wt.template.c lines 86-100 and 234-251: the offset of row [i]; the rows are
    counted over all axes but [axis], last axis fastest. *)
Definition axis_offset (axis : nat) (shape strides : list Z) (i : Z) : Z :=
  snd (fold_left (fun '(reduced_idx, offset) '(j, (s, st)) =>
         if Nat.eqb j axis then (reduced_idx, offset)
         else (reduced_idx / s, offset + (reduced_idx mod s) * st))
       (rev (combine (seq 0 (length shape)) (combine shape strides))) (i, 0)).

(** wt.template.c lines 74-77, 222-225: number of rows. *)
Definition num_loops (axis : nat) (shape : list Z) : Z :=
  fold_left (fun n '(i, s) => if Nat.eqb i axis then n else n * s) (combine (seq 0 (length shape)) shape) 1.

(** Reading / writing [n] elements at p, p+stride, ... *)
Definition read_row (m : list C) (p stride n : Z) : res (list C) :=
  mapM (fun j => rd m (p + j * stride)) (tab n (fun j => j)).
Definition write_row (m : list C) (p stride : Z) (row : list C) : res (list C) :=
  foldM (fun m '(j, v) => wr m (p + j * stride) v) m (combine (tab (zlen row) (fun j => j)) row).

Definition make_temp (a : sarr C) (axis : nat) : bool := negb (nthz axis (sstrides a) =? 1).

(** The loop over rows, common to downcoef_axis (wt.template.c lines 79-157)
    and idwt_axis (lines 227-301): copy the input rows to temporaries unless
    they are contiguous, run [kern] on the rows and the output row, copy the
    output row back if it is a temporary. [temp] is the temporary output row,
    which keeps its contents from one iteration to the next. *)
Definition axis_body (axis : nat) (inputs : list (sarr C)) (out : sarr C)
    (kern : list (list C) -> list C -> res (list C)) (st : list C * list C) (i : Z) : res (list C * list C) :=
  let '(m, temp) := st in
  rows <- mapM (fun a =>
      let p := sbase a + axis_offset axis (sshape out) (sstrides a) i in
      if make_temp a axis then read_row (smem a) p (nthz axis (sstrides a)) (nthz axis (sshape a))
      else read_row (smem a) p 1 (nthz axis (sshape a))) inputs ;;
  let p := sbase out + axis_offset axis (sshape out) (sstrides out) i in
  row0 <- (if make_temp out axis then Ok temp else read_row m p 1 (nthz axis (sshape out))) ;;
  row <- kern rows row0 ;;
  m' <- (if make_temp out axis then write_row m p (nthz axis (sstrides out)) row else write_row m p 1 row) ;;
  Ok (m', if make_temp out axis then row else temp).
Definition axis_loop (axis : nat) (inputs : list (sarr C)) (out : sarr C)
    (kern : list (list C) -> list C -> res (list C)) (temp : list C) : res (list C) :=
  r <- foldM (axis_body axis inputs out kern) (smem out, temp) (tab (num_loops axis (sshape out)) (fun i => i)) ;;
  Ok (fst r).

(** The return codes of the 1-D routines are ignored; on an error they return
    before writing. *)
Definition ignore_code (row : list C) (r : res (list C)) : res (list C) :=
  match r with Err _ => Ok row | _ => r end.

Inductive transform := DWT_TRANSFORM | SWT_TRANSFORM.

(** malloc of a row; its contents are arbitrary ([junk]). *)
Definition malloc_row (junk : Z -> C) (n : Z) (code : Z) : res (list C) :=
  if n <? max_alloc then Ok (tab n junk) else Err code.

(** Shape checks of wt.template.c lines 40-62. *)
Fixpoint check_shapes (k : nat) (axis : nat) (ok_axis : Z -> Z -> res unit) (err : Z) (a b : list Z) : res unit :=
  match a, b with
  | s :: a', t :: b' =>
      _ <- (if Nat.eqb k axis then ok_axis s t else if s =? t then Ok tt else Err err) ;;
      check_shapes (S k) axis ok_axis err a' b'
  | _, _ => Ok tt
  end.

(** wt.template.c lines 27-168 (downcoef_axis). Returns the memory of the
    output array. *)
Definition downcoef_axis (junk : Z -> C) (inp out : sarr C) (w : wavelet C) (axis : nat) (approx : bool)
    (m : mode) (swt_level : Z) (tr : transform) : res (list C) :=
  if negb (Nat.eqb (length (sshape inp)) (length (sshape out))) then Err 1 else
  if (length (sshape inp) <=? axis)%nat then Err 2 else
  _ <- check_shapes 0 axis (fun s t =>
         match tr with
         | DWT_TRANSFORM => if dwt_buffer_length s (dec_len w) m =? t then Ok tt else Err 3
         | SWT_TRANSFORM => if swt_buffer_length s =? t then Ok tt else Err 4
         end) 5 (sshape inp) (sshape out) ;;
  _ <- (if make_temp inp axis then malloc_row junk (nthz axis (sshape inp)) 6 else Ok []) ;;
  temp <- (if make_temp out axis then malloc_row junk (nthz axis (sshape out)) 6 else Ok []) ;;
  axis_loop axis [inp] out (fun rows row0 =>
    let row := hd [] rows in
    ignore_code row0
      match tr with
      | DWT_TRANSFORM => if approx then dec_a fuel row w row0 m else dec_d fuel row w row0 m
      | SWT_TRANSFORM => if approx then swt_a fuel row w row0 swt_level else swt_d fuel row w row0 swt_level
      end) temp.

(** wt.template.c lines 171-315 (idwt_axis). An absent (NULL) array is [None]. *)
Definition c_idwt_axis (junk : Z -> C) (a d : option (sarr C)) (out : sarr C) (w : wavelet C) (axis : nat) (m : mode)
    : res (list C) :=
  let inputs := match a with Some a => [a] | None => [] end ++ match d with Some d => [d] | None => [] end in
  match inputs with
  | [] => Err 3
  | first :: _ =>
      if negb (forallb (fun x => Nat.eqb (length (sshape x)) (length (sshape out))) inputs) then Err 1 else
      if (length (sshape out) <=? axis)%nat then Err 1 else
      if negb (forallb (fun x => nthz axis (sshape x) =? nthz axis (sshape first)) inputs) then Err 1 else
      _ <- mapM (fun x => check_shapes 0 axis (fun s t =>
             if idwt_buffer_length s (rec_flen w) m =? t then Ok tt else Err 1) 1 (sshape x) (sshape out)) inputs ;;
      _ <- mapM (fun x => if make_temp x axis then malloc_row junk (nthz axis (sshape x)) 2 else Ok []) inputs ;;
      temp <- (if make_temp out axis then malloc_row junk (nthz axis (sshape out)) 2 else Ok []) ;;
      axis_loop axis inputs out (fun rows row0 =>
        let z := repeat r0 (length row0) in (* memset *)
        let '(ra, rows') := match a with Some _ => (Some (hd [] rows), tl rows) | None => (None, rows) end in
        let rd_ := match d with Some _ => Some (hd [] rows') | None => None end in
        r <- match ra with
             | Some c => ignore_code z (upsampling_convolution_valid_sf fuel c (rec_lo w) z m)
             | None => Ok z
             end ;;
        match rd_ with
        | Some c => ignore_code r (upsampling_convolution_valid_sf fuel c (rec_hi w) r m)
        | None => Ok r
        end) temp
  end.

(** np.empty(shape): uninitialised C-contiguous array. *)
Definition np_empty (junk : Z -> C) (shape : list Z) : res (sarr C) :=
  if prodZ shape <? max_alloc then Ok (mkSarr (tab (prodZ shape) junk) 0 shape (c_strides shape)) else Err MemoryError.

Definition with_mem (a : sarr C) (m : list C) : sarr C := mkSarr m (sbase a) (sshape a) (sstrides a).

(** _dwt.pyx lines 85-179 (dwt_axis). [data.shape[axis]] and
    [output_shape[axis] = ...] are unchecked (boundscheck=False): an axis
    beyond the array is undefined behaviour. *)
Definition dwt_axis (junk : Z -> C) (data : sarr C) (w : wavelet C) (m : mode) (axis : nat) : res (sarr C * sarr C) :=
  if (length (sshape data) <=? axis)%nat then OOB else
  let n := nthz axis (sshape data) in
  if (n =? 1) && (match m with REFLECT | ANTIREFLECT => true | _ => false end) then Err ValueError else
  len <- dwt_coeff_len n (dec_len w) m ;;
  let output_shape := setn axis len (sshape data) in
  cA <- np_empty junk output_shape ;;
  cD <- np_empty junk output_shape ;;
  ma <- as_runtime (downcoef_axis junk data cA w axis true m 0 DWT_TRANSFORM) ;;
  md <- as_runtime (downcoef_axis junk data cD w axis false m 0 DWT_TRANSFORM) ;;
  Ok (with_mem cA ma, with_mem cD md).

(** _dwt.pyx lines 246-336 (idwt_axis). *)
Definition idwt_axis (junk : Z -> C) (a d : option (sarr C)) (w : wavelet C) (m : mode) (axis : nat)
    : res (option (sarr C)) :=
  match (match a with Some x => Some x | None => d end) with
  | None => Ok None
  | Some first =>
      if (length (sshape first) <=? axis)%nat then OOB else
      let output_shape := setn axis (idwt_buffer_length (nthz axis (sshape first)) (rec_flen w) m) (sshape first) in
      out <- np_empty junk output_shape ;;
      mo <- as_runtime (c_idwt_axis junk a d out w axis m) ;;
      Ok (Some (with_mem out mo))
  end.

(** _swt.pyx lines 161-326 (swt_axis): loop over the levels. *)
Fixpoint swt_axis_loop (junk : Z -> C) (data : sarr C) (w : wavelet C) (axis : nat) (i : Z) (n : nat) (trim : bool)
    (ret : list (swt_item (sarr C))) : res (list (swt_item (sarr C)) * sarr C) :=
  match n with
  | O => Ok (ret, data)
  | S n' =>
      cA <- np_empty junk (sshape data) ;;
      cD <- np_empty junk (sshape data) ;;
      ma <- as_runtime (downcoef_axis junk data cA w axis true PERIODIZATION i SWT_TRANSFORM) ;;
      md <- as_runtime (downcoef_axis junk data cD w axis false PERIODIZATION i SWT_TRANSFORM) ;;
      let cA := with_mem cA ma in
      let cD := with_mem cD md in
      swt_axis_loop junk cA w axis (i + 1) n' trim (ret ++ [if trim then SArr cD else SPair cA cD])
  end.

Definition swt_axis (junk : Z -> C) (data : sarr C) (w : wavelet C) (level start_level : Z) (axis : nat) (trim : bool)
    : res (list (swt_item (sarr C))) :=
  if (length (sshape data) <=? axis)%nat then OOB else
  let n := nthz axis (sshape data) in
  if negb (n mod 2 =? 0) then Err ValueError else
  if n <? 1 then Err ValueError else
  if level <? 1 then Err ValueError else
  if start_level <? 0 then Err ValueError else
  maxl <- swt_max_level_c n ;;
  if maxl <=? start_level then Err ValueError else
  if maxl <? start_level + level then Err ValueError else
  '(ret, cA) <- swt_axis_loop junk data w axis (start_level + 1) (Z.to_nat level) trim [] ;;
  Ok (rev (if trim then ret ++ [SArr cA] else ret)).

End Axis.
