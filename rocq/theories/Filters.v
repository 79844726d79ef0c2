(** Model of the construction of filter banks: pywt/_extensions/c/wavelets.c
    (discrete_wavelet, blank_discrete_wavelet), the custom filter banks and
    inverse_filter_bank of pywt/_extensions/_pywt.pyx, and qmf and
    orthogonal_filter_bank of pywt/_functions.py.

    Simplifications: the float and double copies of each filter are one exact
    array; the tables are parameters here (their values are in Tables.v);
    allocation succeeds; of the descriptive fields only the flags and the
    vanishing moments are kept. *)
From Verif Require Import Base CConv Lengths Dwt Swt.

(** pywt/_extensions/c/wavelets.h lines 21-36. *)
Inductive family : Type :=
  HAAR | RBIO | DB | SYM | COIF | BIOR | DMEY | GAUS | MEXH | MORL | CGAU | SHAN | FBSP | CMOR.

(** wavelets.c lines 14-47 (is_discrete_wavelet). *)
Definition is_discrete_wavelet (name : family) : bool :=
  match name with
  | HAAR | RBIO | DB | SYM | COIF | BIOR | DMEY => true
  | GAUS | MEXH | MORL | CGAU | SHAN | FBSP | CMOR => false
  end.

Section Filters.
Context {C : CRing}.

(** The coefficient tables of wavelets_coeffs.template.h: db_, sym_, coif_,
    sqrt2_, bior_ (lines 2929-3058), dmey_ (line 2925). *)
Record tables : Type := mkTables {
  t_db : list (list C); t_sym : list (list C); t_coif : list (list C); t_sqrt2 : C;
  t_bior : list (list (list C)); t_dmey : list C
}.

(** DiscreteWavelet (wavelets.h lines 39-100), the fields kept. *)
Record dwave : Type := mkDwave {
  w_bank : wavelet C; w_orthogonal : bool; w_biorthogonal : bool; w_psi : Z; w_phi : Z
}.

(** wavelets.c lines 506-560 (blank_discrete_wavelet), the filters: zeroed
    arrays whose length is padded to be even. *)
Definition blank_filters (filters_length : Z) : wavelet C :=
  let L := if (0 <? filters_length) && negb (filters_length mod 2 =? 0)
           then filters_length + 1 else filters_length in
  let z := repeat r0 (Z.to_nat L) in
  mkWavelet z z z z.

(** [((i % 2) ? -1 : 1) * v]. *)
Definition signed (i : Z) (v : C) : C := if i mod 2 =? 0 then r1 [*] v else ([--] r1) [*] v.

(** The fill loops. wavelets.c lines 130-137 (DB; float copy 117-124), 176-183
    (SYM), 221-229 (COIF, every table value times sqrt2), 298-305 (BIOR, with
    [t0] = bior[N-1][0] read at offset [n] and [tm] = bior[N-1][M_idx+1]),
    339-346 (DMEY). [mul] is the factor of the COIF loop. *)
Definition fill_step (t0 tm : list C) (n : Z) (mul : C -> C) (w : wavelet C) (i : Z) : res (wavelet C) :=
  let D := dec_len w in
  a <- rd t0 (i + n) ;;
  rl <- wr (rec_lo w) i (mul a) ;;
  b <- rd tm (D - 1 - i) ;;
  dl <- wr (dec_lo w) i (mul b) ;;
  rh <- wr (rec_hi w) i (mul (signed i b)) ;;
  dh <- wr (dec_hi w) i (mul (signed (D - 1 - i) a)) ;;
  Ok (mkWavelet dl dh rl rh).
Definition fill (t0 tm : list C) (n : Z) (mul : C -> C) (w : wavelet C) : res (wavelet C) :=
  foldM (fill_step t0 tm n mul) w (tab (rec_flen w) (fun i => i)).

(** wavelets.c lines 76-89: the in-place reversal [for(i = 0, j = L - 1; i < j;
    i++, j--) SWAP(...)] of one array (the C loop does the four arrays in the
    same iterations; they are distinct buffers). *)
Definition swap_loop (fuel : nat) (l : list C) (L : Z) : res (list C) :=
  '(l, _, _) <- while fuel (fun '(l, i, j) => i <? j)
    (fun '(l, i, j) => a <- rd l i ;; b <- rd l j ;; l <- wr l i b ;; l <- wr l j a ;; Ok (l, i + 1, j - 1))
    (l, 0, L - 1) ;;
  Ok l.

(** wavelets.c lines 62-95: rbio from bior. *)
Definition reverse_bior (fuel : nat) (w : wavelet C) : res (wavelet C) :=
  let rec_len := dec_len w in
  rl <- swap_loop fuel (dec_lo w) rec_len ;;
  rh <- swap_loop fuel (dec_hi w) rec_len ;;
  dl <- swap_loop fuel (rec_lo w) rec_len ;;
  dh <- swap_loop fuel (rec_hi w) rec_len ;;
  Ok (mkWavelet dl dh rl rh).

Definition uint (z : Z) : Z := z mod 4294967296. (* unsigned int arithmetic *)

(** wavelets.c lines 236-268: (M_idx, M_max), None for [return NULL]. *)
Definition bior_index (N M : Z) : option (Z * Z) :=
  if N =? 1 then (if negb (M mod 2 =? 1) || (5 <? M) then None else Some (M / 2, 5))
  else if N =? 2 then
    (if negb (M mod 2 =? 0) || (M <? 2) || (8 <? M) then None else Some (M / 2 - 1, 8))
  else if N =? 3 then (if negb (M mod 2 =? 1) then None else Some (M / 2, 9))
  else if (N =? 4) || (N =? 5) then (if negb (M =? N) then None else Some (0, M))
  else if N =? 6 then (if negb (M =? 8) then None else Some (0, 8))
  else None.

(** The constant tables of the families with one table per order
    (wavelets.c lines 99-232): lookup with the bound NELEMS. *)
Definition fill_orth (ts : list (list C)) (idx F : Z) (mul : C -> C) (psi phi : Z) : res (option dwave) :=
  if zlen ts <=? idx then Ok None
  else
    t <- rd ts idx ;;
    b <- fill t t 0 mul (blank_filters F) ;;
    Ok (Some (mkDwave b true true psi phi)).

Definition id_mul (v : C) : C := v.

(** wavelets.c lines 235-309 (BIOR). *)
Definition discrete_bior (T : tables) (order : Z) : res (option dwave) :=
  let N := order / 10 in let M := order mod 10 in
  match bior_index N M with
  | None => Ok None
  | Some (M_idx, M_max) =>
      row <- rd (t_bior T) (N - 1) ;;
      t0 <- rd row 0 ;;
      tm <- rd row (M_idx + 1) ;;
      b <- fill t0 tm (M_max - M) id_mul (blank_filters (if N =? 1 then 2 * M else 2 * M + 2)) ;;
      Ok (Some (mkDwave b false true (order / 10) (order mod 10)))
  end.

(** wavelets.c lines 50-353 (discrete_wavelet). [order] is an unsigned int.
    In the HAAR case the result of discrete_wavelet(DB, 1) is used without a
    test for NULL. *)
Definition discrete_wavelet (fuel : nat) (T : tables) (name : family) (order : Z) : res (option dwave) :=
  match name with
  | HAAR =>
      r <- fill_orth (t_db T) (uint (1 - 1)) (2 * 1) id_mul 1 0 ;;
      match r with None => OOB | Some w => Ok (Some w) end
  | RBIO =>
      r <- discrete_bior T order ;;
      match r with
      | None => Ok None
      | Some w => b <- reverse_bior fuel (w_bank w) ;;
          Ok (Some (mkDwave b (w_orthogonal w) (w_biorthogonal w) (w_psi w) (w_phi w)))
      end
  | DB => fill_orth (t_db T) (uint (order - 1)) (uint (2 * order)) id_mul order 0
  | SYM => fill_orth (t_sym T) (uint (order - 2)) (uint (2 * order)) id_mul order 0
  | COIF => fill_orth (t_coif T) (uint (order - 1)) (uint (6 * order)) (fun v => v [*] t_sqrt2 T)
              (uint (2 * order)) (uint (2 * order - 1))
  | BIOR => discrete_bior T order
  | DMEY =>
      b <- fill (t_dmey T) (t_dmey T) 0 id_mul (blank_filters 62) ;;
      Ok (Some (mkDwave b true true (-1) (-1)))
  | _ => Ok None
  end.

(** _pywt.pyx lines 524-542 (filter_bank, inverse_filter_bank), in the order
    (dec_lo, dec_hi, rec_lo, rec_hi). *)
Definition filter_bank (w : wavelet C) : list (list C) := [dec_lo w; dec_hi w; rec_lo w; rec_hi w].
Definition inverse_filter_bank (w : wavelet C) : list (list C) :=
  [rev (rec_lo w); rev (rec_hi w); rev (dec_lo w); rev (dec_hi w)].

(** _pywt.pyx lines 1075-1082 (copy_object_to_float64_array). *)
Definition copy_to (src dest : list C) : res (list C) :=
  '(dest, _) <- foldM (fun '(d, i) x => d <- wr d i x ;; Ok (d, i + 1)) (dest, 0) src ;; Ok dest.

(** _pywt.pyx lines 368-426: Wavelet(name, filter_bank=filters). The filters
    are one-dimensional numeric arrays. *)
Definition custom_wavelet (filters : list (list C)) : res (wavelet C) :=
  match filters with
  | [dl; dh; rl; rh] =>
      if (0 <? zlen dl) && (zlen dl =? zlen dh) && (zlen dh =? zlen rl) && (zlen rl =? zlen rh)
      then
        let w := blank_filters (zlen dl) in
        dl <- copy_to dl (dec_lo w) ;;
        dh <- copy_to dh (dec_hi w) ;;
        rl <- copy_to rl (rec_lo w) ;;
        rh <- copy_to rh (rec_hi w) ;;
        Ok (mkWavelet dl dh rl rh)
      else Err ValueError
  | _ => Err ValueError
  end.

(** _functions.py lines 206-226 (qmf): reverse, then negate q[1::2]. *)
Fixpoint negate_odd (l : list C) : list C :=
  match l with a :: b :: t => a :: ([--] b) :: negate_odd t | _ => l end.
Definition qmf (filt : list C) : list C := negate_odd (rev filt).

(** numpy.sum. *)
Definition np_sum (l : list C) : C := fold_left radd l r0.

(** _functions.py lines 229-263 (orthogonal_filter_bank). [sqrt2] is
    np.sqrt(2), [div] the division of the scalars. *)
Definition orthogonal_filter_bank (sqrt2 : C) (div : C -> C -> C) (scaling_filter : list C) : res (wavelet C) :=
  if negb (zlen scaling_filter mod 2 =? 0) then Err ValueError
  else
    let s := np_sum scaling_filter in
    let rl := map (fun v => div (sqrt2 [*] v) s) scaling_filter in
    let dl := rev rl in
    let rh := qmf rl in
    let dh := rev rh in
    Ok (mkWavelet dl dh rl rh).

End Filters.
Arguments tables C : clear implicits.
Arguments dwave C : clear implicits.
