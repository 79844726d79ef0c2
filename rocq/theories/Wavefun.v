(** Model of the approximation of the scaling function and the wavelet
    (Wavelet.wavefun, pywt/_extensions/_pywt.pyx lines 550-655 and 1002-1019,
    1054-1059) and of the functions of pywt/_functions.py that use it
    (integrate_wavelet, central_frequency, scale2frequency, frequency2scale).

    Parameters: [sqrt2] is the number sqrt(2.) of line 597; for
    central_frequency the magnitudes abs(fft(psi)).
    Simplifications: no rounding; the doubles p and n are exact; the grid x
    consists of rationals; level is a machine int. *)
From Coq Require Import QArith.
From Verif Require Import Base CConv Lengths Dwt Swt Filters Cwt.
Open Scope Z_scope.

Definition AssertionError : Z := 10.

(** _pywt.pyx lines 1002-1011 (get_keep_length; output_length is not used). *)
Fixpoint keep_loop (lplus : Z) (i : nat) (keep_length : Z) : Z :=
  match i with O => keep_length | S i' => keep_loop lplus i' (2 * keep_length + lplus) end.
Definition get_keep_length (level filter_length : Z) : Z :=
  keep_loop (filter_length - 2) (Z.to_nat level) 1.

(** Lines 1013-1016. *)
Definition fix_output_length (output_length keep_length : Z) : Z :=
  if output_length - keep_length - 2 <? 0 then keep_length + 2 else output_length.

(** Lines 1018-1019. *)
Definition get_right_extent_length (output_length keep_length : Z) : Z := output_length - keep_length - 1.

(** Lines 1054-1059 (keep). *)
Definition keep {A} (arr : list A) (keep_length : Z) : list A :=
  let length := zlen arr in
  if keep_length <? length
  then let left_bound := (length - keep_length) / 2 in
       firstn (Z.to_nat keep_length) (skipn (Z.to_nat left_bound) arr)
  else arr.

(** np.linspace(start, stop, num): arange(num) * step + start. *)
Definition linspace (start stop : Q) (num : Z) : list Q :=
  tab num (fun i => (inject_Z i * ((stop - start) / inject_Z (num - 1)) + start)%Q).

Section Wavefun.
Context {C : CRing}.
Variable fuel : nat.
Variable sqrt2 : C.

(** pow(a, level) for level >= 0. *)
Fixpoint cpow (a : C) (n : nat) : C := match n with O => r1 | S n' => a [*] cpow a n' end.

(** One of the arrays of lines 610-615 and 632-652:
    np.concatenate(([0.], keep(upcoef(rec_a, [n], w, level, 0), keep_length),
                    np.zeros(right_extent_length))). *)
Definition wf_array (rec_a : bool) (n : C) (w : wavelet C) (level keep_length right_extent_length : Z) : res (list C) :=
  u <- upcoef fuel rec_a [n] w level 0 ;;
  (if right_extent_length <? 0 then Err ValueError else
   z <- np_zeros right_extent_length ;;
   Ok ([r0] ++ keep u keep_length ++ z)).

Inductive wavefun_result : Type :=
| WfOrth (phi psi : list C) (x : list Q)
| WfBior (phi_d psi_d phi_r psi_r : list C) (x : list Q).

(** Lines 550-655. For level < 1 the call of upcoef raises before any of the
    lengths is used, so p = 2^level needs to be right only for level >= 0. *)
Definition wavefun (W : dwave C) (level : Z) : res wavefun_result :=
  let w := w_bank W in
  let n := cpow sqrt2 (Z.to_nat level) in
  let p := 2 ^ level in
  if w_orthogonal W then
    let filter_length := dec_len w in
    let output_length := (filter_length - 1) * p + 1 in
    let keep_length := get_keep_length level filter_length in
    let output_length := fix_output_length output_length keep_length in
    let right := get_right_extent_length output_length keep_length in
    phi <- wf_array true n w level keep_length right ;;
    psi <- wf_array false n w level keep_length right ;;
    Ok (WfOrth phi psi (linspace 0 (inject_Z (output_length - 1) / inject_Z p) output_length))
  else
    let n_mul := if w_biorthogonal W && negb (w_psi W mod 4 =? 1) then [--] n else n in
    other <- custom_wavelet (inverse_filter_bank w) ;;
    let filter_length := dec_len other in
    let output_length := (filter_length - 1) * p in
    let keep_length := get_keep_length level filter_length in
    let output_length := fix_output_length output_length keep_length in
    let right := get_right_extent_length output_length keep_length in
    phi_d <- wf_array true n other level keep_length right ;;
    psi_d <- wf_array false n_mul other level keep_length right ;;
    let filter_length := dec_len w in
    let output_length := (filter_length - 1) * p in
    let keep_length := get_keep_length level filter_length in
    let output_length := fix_output_length output_length keep_length in
    let right := get_right_extent_length output_length keep_length in
    phi_r <- wf_array true n w level keep_length right ;;
    psi_r <- wf_array false n_mul w level keep_length right ;;
    Ok (WfBior phi_d psi_d phi_r psi_r (linspace 0 (inject_Z (output_length - 1) / inject_Z p) output_length)).

(** _functions.py lines 97-117 (integrate_wavelet of a discrete wavelet): the
    list of integrals and x. [inj] embeds the step into the samples. *)
Variable inj : Q -> C.
Definition integrate_wavelet (W : dwave C) (precision : Z) : res (list (list C) * list Q) :=
  f <- wavefun W precision ;;
  match f with
  | WfOrth phi psi x =>
      if zlen x <? 2 then Err IndexError else
      Ok ([integrate psi (inj (grid_step x))], x)
  | WfBior phi_d psi_d phi_r psi_r x =>
      if zlen x <? 2 then Err IndexError else
      Ok ([integrate psi_d (inj (grid_step x)); integrate psi_r (inj (grid_step x))], x)
  end.

End Wavefun.
Arguments WfOrth {C}. Arguments WfBior {C}.

(** np.argmax: the first position of a largest entry. [gt] is the strict order
    of the magnitudes. *)
Section Argmax.
Context {A : Type}.
Variable gt : A -> A -> bool.
Fixpoint argmax_from (best : A) (ibest i : Z) (l : list A) : Z :=
  match l with
  | [] => ibest
  | a :: t => if gt a best then argmax_from a i (i + 1) t else argmax_from best ibest (i + 1) t
  end.
Definition argmax (l : list A) : res Z :=
  match l with [] => Err ValueError | a :: t => Ok (argmax_from a 0 1 t) end.

(** _functions.py lines 140-157 (central_frequency): [mag] is abs(fft(psi)), of
    the length of psi; lines 178 and 201: division by the scale or the
    frequency. *)
Definition central_frequency (x : list Q) (mag : list A) : res Q :=
  let domain := grid_width x in
  if Qle_bool domain 0 then Err AssertionError else
  i <- argmax (tl mag) ;;
  let index := i + 2 in
  let index := if zlen mag <? 2 * index then zlen mag - index + 2 else index in
  Ok (1 / (domain / inject_Z (index - 1)))%Q.
Definition scale2frequency (x : list Q) (mag : list A) (scale : Q) : res Q :=
  f <- central_frequency x mag ;; Ok (f / scale)%Q.
Definition frequency2scale (x : list Q) (mag : list A) (freq : Q) : res Q :=
  f <- central_frequency x mag ;; Ok (f / freq)%Q.
End Argmax.
