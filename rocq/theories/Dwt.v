(** Model of the one-dimensional transforms: the C drivers in
    pywt/_extensions/c/wt.template.c, the Cython functions of
    pywt/_extensions/_dwt.pyx and the Python functions of pywt/_dwt.py.

    Simplifications: only 1-D arrays here (the axis versions are in Axis.v);
    sample types and the dtype conversions are replaced by one exact ring;
    modes and wavelets are already resolved objects (name parsing is in
    Names.v); numpy arrays are lists; [fuel] bounds the loops of the kernels. *)
From Verif Require Import Base CConv Lengths.

(** Exceptions raised at the Cython/Python level, as codes of [Err]. *)
Definition ValueError : Z := 1.
Definition RuntimeError : Z := 2.
Definition MemoryError : Z := 3.
Definition AxisError : Z := 4.
Definition IndexError : Z := 5.
Definition KeyError : Z := 6.
Definition TypeError : Z := 7.

(** The fields of DiscreteWavelet used by the transforms
    (pywt/_extensions/c/wavelets.h, struct DiscreteWavelet). dec_len and
    rec_len are the lengths of the low-pass filters. *)
Record wavelet (C : CRing) : Type := mkWavelet {
  dec_lo : list C; dec_hi : list C; rec_lo : list C; rec_hi : list C
}.
Arguments mkWavelet {C}. Arguments dec_lo {C}. Arguments dec_hi {C}.
Arguments rec_lo {C}. Arguments rec_hi {C}.

Definition dec_len {C} (w : wavelet C) : Z := zlen (dec_lo w).
Definition rec_flen {C} (w : wavelet C) : Z := zlen (rec_lo w).

(** [if retval < 0: raise RuntimeError] after a call of the C layer
    (e.g. _dwt.pyx lines 46-47). *)
Definition as_runtime {A} (m : res A) : res A :=
  match m with Err _ => Err RuntimeError | _ => m end.

Section Dwt.
Context {C : CRing}.
Variable fuel : nat.

(** np.zeros(n). A request beyond the address space is refused by numpy. *)
Definition max_alloc : Z := 1152921504606846976. (* 2^60 elements of 8 bytes *)
Definition np_zeros (n : Z) : res (list C) :=
  if n <? max_alloc then Ok (repeat r0 (Z.to_nat n)) else Err MemoryError.

(** wt.template.c lines 318-332 (dec_a). *)
Definition dec_a (x : list C) (w : wavelet C) (out : list C) (m : mode) : res (list C) :=
  if zlen out =? dwt_buffer_length (zlen x) (dec_len w) m
  then downsampling_convolution fuel x (dec_lo w) out 2 m
  else Err (-1).

(** wt.template.c lines 337-350 (dec_d). *)
Definition dec_d (x : list C) (w : wavelet C) (out : list C) (m : mode) : res (list C) :=
  if zlen out =? dwt_buffer_length (zlen x) (dec_len w) m
  then downsampling_convolution fuel x (dec_hi w) out 2 m
  else Err (-1).

(** wt.template.c lines 355-367 (rec_a). *)
Definition rec_a (c : list C) (w : wavelet C) (out : list C) : res (list C) :=
  if zlen out =? reconstruction_buffer_length (zlen c) (rec_flen w)
  then upsampling_convolution_full fuel c (rec_lo w) out
  else Err (-1).

(** wt.template.c lines 372-384 (rec_d). *)
Definition rec_d (c : list C) (w : wavelet C) (out : list C) : res (list C) :=
  if zlen out =? reconstruction_buffer_length (zlen c) (rec_flen w)
  then upsampling_convolution_full fuel c (rec_hi w) out
  else Err (-1).

(** wt.template.c lines 393-445 (idwt). A NULL coefficient pointer is [None]. *)
Definition c_idwt (ca cd : option (list C)) (out : list C) (w : wavelet C) (m : mode) : res (list C) :=
  input_len <-
    match ca, cd with
    | Some a, Some d => if negb (zlen a =? zlen d) then Err (-1) else Ok (zlen a)
    | Some a, None => Ok (zlen a)
    | None, Some d => Ok (zlen d)
    | None, None => Err (-1)
    end ;;
  if negb (zlen out =? idwt_buffer_length input_len (rec_flen w) m) then Err (-1) else
  out <- match ca with
         | Some a => upsampling_convolution_valid_sf fuel a (rec_lo w) out m
         | None => Ok out
         end ;;
  match cd with
  | Some d => upsampling_convolution_valid_sf fuel d (rec_hi w) out m
  | None => Ok out
  end.

(** _dwt.pyx lines 17-24 (dwt_coeff_len). *)
Definition dwt_coeff_len (data_len filter_len : Z) (m : mode) : res Z :=
  if data_len <? 1 then Err ValueError
  else if filter_len <? 1 then Err ValueError
  else Ok (dwt_buffer_length data_len filter_len m).

(** _dwt.pyx lines 26-82 (dwt_single), reached from _dwt.py lines 163-188 (dwt)
    for 1-D data. *)
Definition dwt_single (x : list C) (w : wavelet C) (m : mode) : res (list C * list C) :=
  output_len <- dwt_coeff_len (zlen x) (dec_len w) m ;;
  if output_len <? 1 then Err RuntimeError else
  if (zlen x =? 1) && (match m with REFLECT | ANTIREFLECT => true | _ => false end)
  then Err ValueError else
  cA <- np_zeros output_len ;;
  cD <- np_zeros output_len ;;
  cA <- as_runtime (dec_a x w cA m) ;;
  cD <- as_runtime (dec_d x w cD m) ;;
  Ok (cA, cD).

(** _dwt.pyx lines 182-243 (idwt_single). *)
Definition idwt_single (cA cD : list C) (w : wavelet C) (m : mode) : res (list C) :=
  if negb (zlen cA =? zlen cD) then Err ValueError else
  let rec_len := idwt_buffer_length (zlen cA) (rec_flen w) m in
  if rec_len <? 1 then Err ValueError else
  out <- np_zeros rec_len ;;
  as_runtime (c_idwt (Some cA) (Some cD) out w m).

(** _dwt.py lines 237-292 (idwt) for 1-D data: a missing array is replaced by
    zeros of the same shape. *)
Definition idwt (cA cD : option (list C)) (w : wavelet C) (m : mode) : res (list C) :=
  match cA, cD with
  | None, None => Err ValueError
  | Some a, Some d => idwt_single a d w m
  | None, Some d => idwt_single (repeat r0 (length d)) d w m
  | Some a, None => idwt_single a (repeat r0 (length a)) w m
  end.

(** _dwt.py lines 163-188 (dwt) for 1-D data. *)
Definition dwt := dwt_single.

(** _dwt.pyx lines 432-510 (downcoef): one iteration of the loop over levels,
    then the loop; [n] is the number of iterations left. *)
Fixpoint downcoef_loop (do_dec_a : bool) (x : list C) (w : wavelet C) (m : mode) (n : nat) : res (list C) :=
  match n with
  | O => Ok x
  | S n' =>
      let output_len := dwt_buffer_length (zlen x) (dec_len w) m in
      if output_len <? 1 then Err RuntimeError else
      coeffs <- np_zeros output_len ;;
      coeffs <- (if do_dec_a || (match n' with O => false | _ => true end)
                 then as_runtime (dec_a x w coeffs m)
                 else as_runtime (dec_d x w coeffs m)) ;;
      downcoef_loop do_dec_a coeffs w m n'
  end.

Definition downcoef (do_dec_a : bool) (x : list C) (w : wavelet C) (m : mode) (level : Z) : res (list C) :=
  if level <? 1 then Err ValueError else downcoef_loop do_dec_a x w m (Z.to_nat level).

(** _dwt.pyx lines 339-429 (upcoef): the loop [for i in range(level)];
    [first] is [i = 0]. *)
Fixpoint upcoef_loop (do_rec_a first : bool) (c : list C) (w : wavelet C) (n : nat) : res (list C) :=
  match n with
  | O => Ok c
  | S n' =>
      let rec_len := reconstruction_buffer_length (zlen c) (dec_len w) in
      if rec_len <? 1 then Err RuntimeError else
      out <- np_zeros rec_len ;;
      out <- (if do_rec_a || negb first
              then as_runtime (rec_a c w out)
              else as_runtime (rec_d c w out)) ;;
      upcoef_loop do_rec_a false out w n'
  end.

(** Python slice l[a:-b] with 0 <= a, 0 < b (_dwt.pyx line 427). *)
Definition slice_neg {A} (l : list A) (a b : Z) : list A :=
  firstn (Z.to_nat (zlen l - b - a)) (skipn (Z.to_nat a) l).

Definition upcoef (do_rec_a : bool) (c : list C) (w : wavelet C) (level take : Z) : res (list C) :=
  if level <? 1 then Err ValueError else
  out <- upcoef_loop do_rec_a true c w (Z.to_nat level) ;;
  let rec_len := zlen out in
  if (0 <? take) && (take <? rec_len) then
    let left_bound := (rec_len - take) / 2 in
    let right_bound := left_bound + (if (rec_len - take) mod 2 =? 0 then 0 else 1) in
    Ok (slice_neg out left_bound right_bound)
  else Ok out.

End Dwt.

(** _dwt.py line 60-80 (dwt_max_level): the Python wrapper, for an integral
    filter length. *)
Definition dwt_max_level (data_len filter_len : Z) : res Z :=
  if filter_len <? 2 then Err ValueError else Ok (dwt_max_level_c data_len filter_len).
