(** Model of the continuous wavelet functions (pywt/_extensions/c/cwt.template.c,
    _cwt.pyx, ContinuousWavelet.wavefun of _pywt.pyx) over the real numbers of
    the standard library.

    Simplifications: no rounding (pow, sqrt, exp, cos, sin, pi are the real
    functions; the attributes are exact rationals, the setters with their cast
    to float are not modelled); the two element types are not distinguished; a
    loop over the samples is a map. *)
From Coq Require Import QArith Reals Qreals ZArith List String.
Import ListNotations.
From Verif Require Import Base CConv Dwt Filters Names Wavefun.
Open Scope R_scope.

(** cwt.template.c lines 71-105 (gaus); a number without a case leaves the zeros
    of _cwt.pyx line 28. *)
Definition gaus (number : Z) (x : R) : R :=
  match number with
  | 1%Z => -2 * x * exp (-x^2) / sqrt (sqrt (PI / 2))
  | 2%Z => -2 * (2 * x^2 - 1) * exp (-x^2) / sqrt (3 * sqrt (PI / 2))
  | 3%Z => -4 * (-2 * x^3 + 3 * x) * exp (-x^2) / sqrt (15 * sqrt (PI / 2))
  | 4%Z => 4 * (-12 * x^2 + 4 * x^4 + 3) * exp (-x^2) / sqrt (105 * sqrt (PI / 2))
  | 5%Z => 8 * (-4 * x^5 + 20 * x^3 - 15 * x) * exp (-x^2) / sqrt (105 * 9 * sqrt (PI / 2))
  | 6%Z => -8 * (8 * x^6 - 60 * x^4 + 90 * x^2 - 15) * exp (-x^2) / sqrt (105 * 9 * 11 * sqrt (PI / 2))
  | 7%Z => -16 * (-8 * x^7 + 84 * x^5 - 210 * x^3 + 105 * x) * exp (-x^2) / sqrt (105 * 9 * 11 * 13 * sqrt (PI / 2))
  | 8%Z => 16 * (16 * x^8 - 224 * x^6 + 840 * x^4 - 840 * x^2 + 105) * exp (-x^2) / sqrt (105 * 9 * 11 * 13 * 15 * sqrt (PI / 2))
  | _ => 0
  end.

(** Lines 108-115 (mexh). *)
Definition mexh (x : R) : R := (1 - x^2) * exp (-x^2 / 2) * 2 / (sqrt 3 * sqrt (sqrt PI)).

(** Lines 117-124 (morl). *)
Definition morl (x : R) : R := cos (5 * x) * exp (-x^2 / 2).

(** Lines 127-174 (cgau): real and imaginary part. *)
Definition cgau_r (number : Z) (x : R) : R :=
  match number with
  | 1%Z => (-2 * x * cos x - sin x) * exp (-x^2) / sqrt (2 * sqrt (PI / 2))
  | 2%Z => (4 * x^2 * cos x + 4 * x * sin x - 3 * cos x) * exp (-x^2) / sqrt (10 * sqrt (PI / 2))
  | 3%Z => (-8 * x^3 * cos x - 12 * x^2 * sin x + 18 * x * cos x + 7 * sin x) * exp (-x^2) / sqrt (76 * sqrt (PI / 2))
  | 4%Z => (16 * x^4 * cos x + 32 * x^3 * sin x - 72 * x^2 * cos x - 56 * x * sin x + 25 * cos x) * exp (-x^2) / sqrt (764 * sqrt (PI / 2))
  | 5%Z => (-32 * x^5 * cos x - 80 * x^4 * sin x + 240 * x^3 * cos x + 280 * x^2 * sin x - 250 * x * cos x - 81 * sin x) * exp (-x^2) / sqrt (9496 * sqrt (PI / 2))
  | 6%Z => (64 * x^6 * cos x + 192 * x^5 * sin x - 720 * x^4 * cos x - 1120 * x^3 * sin x + 1500 * x^2 * cos x + 972 * x * sin x - 331 * cos x) * exp (-x^2) / sqrt (140152 * sqrt (PI / 2))
  | 7%Z => (-128 * x^7 * cos x - 448 * x^6 * sin x + 2016 * x^5 * cos x + 3920 * x^4 * sin x - 7000 * x^3 * cos x - 6804 * x^2 * sin x + 4634 * x * cos x + 1303 * sin x) * exp (-x^2) / sqrt (2390480 * sqrt (PI / 2))
  | 8%Z => (256 * x^8 * cos x + 1024 * x^7 * sin x - 5376 * x^6 * cos x - 12544 * x^5 * sin x + 28000 * x^4 * cos x + 36288 * x^3 * sin x - 37072 * x^2 * cos x - 20848 * x * sin x + 5937 * cos x) * exp (-x^2) / sqrt (46206736 * sqrt (PI / 2))
  | _ => 0
  end.

Definition cgau_i (number : Z) (x : R) : R :=
  match number with
  | 1%Z => (2 * x * sin x - cos x) * exp (-x^2) / sqrt (2 * sqrt (PI / 2))
  | 2%Z => (-4 * x^2 * sin x + 4 * x * cos x + 3 * sin x) * exp (-x^2) / sqrt (10 * sqrt (PI / 2))
  | 3%Z => (8 * x^3 * sin x - 12 * x^2 * cos x - 18 * x * sin x + 7 * cos x) * exp (-x^2) / sqrt (76 * sqrt (PI / 2))
  | 4%Z => (-16 * x^4 * sin x + 32 * x^3 * cos x + 72 * x^2 * sin x - 56 * x * cos x - 25 * sin x) * exp (-x^2) / sqrt (764 * sqrt (PI / 2))
  | 5%Z => (32 * x^5 * sin x - 80 * x^4 * cos x - 240 * x^3 * sin x + 280 * x^2 * cos x + 250 * x * sin x - 81 * cos x) * exp (-x^2) / sqrt (9496 * sqrt (PI / 2))
  | 6%Z => (-64 * x^6 * sin x + 192 * x^5 * cos x + 720 * x^4 * sin x - 1120 * x^3 * cos x - 1500 * x^2 * sin x + 972 * x * cos x + 331 * sin x) * exp (-x^2) / sqrt (140152 * sqrt (PI / 2))
  | 7%Z => (128 * x^7 * sin x - 448 * x^6 * cos x - 2016 * x^5 * sin x + 3920 * x^4 * cos x + 7000 * x^3 * sin x - 6804 * x^2 * cos x - 4634 * x * sin x + 1303 * cos x) * exp (-x^2) / sqrt (2390480 * sqrt (PI / 2))
  | 8%Z => (-256 * x^8 * sin x + 1024 * x^7 * cos x + 5376 * x^6 * sin x - 12544 * x^5 * cos x - 28000 * x^4 * sin x + 36288 * x^3 * cos x + 37072 * x^2 * sin x - 20848 * x * cos x - 5937 * sin x) * exp (-x^2) / sqrt (46206736 * sqrt (PI / 2))
  | _ => 0
  end.

(** Lines 177-191 (shan). *)
Definition shan_r (FB FC x : R) : R :=
  let r := cos (2 * PI * FC * x) * sqrt FB in
  if Req_EM_T x 0 then r else r * (sin (x * FB * PI) / (x * FB * PI)).
Definition shan_i (FB FC x : R) : R :=
  let r := sin (2 * PI * FC * x) * sqrt FB in
  if Req_EM_T x 0 then r else r * (sin (x * FB * PI) / (x * FB * PI)).

(** Lines 193-210 (fbsp); M is an unsigned int, pow(., (TYPE)M) a power. *)
Definition fbsp_r (M : Z) (FB FC x : R) : R :=
  if Req_EM_T x 0 then cos (2 * PI * FC * x) * sqrt FB
  else cos (2 * PI * FC * x) * sqrt FB * (sin (PI * x * FB / IZR M) / (PI * x * FB / IZR M)) ^ Z.to_nat M.
Definition fbsp_i (M : Z) (FB FC x : R) : R :=
  if Req_EM_T x 0 then sin (2 * PI * FC * x) * sqrt FB
  else sin (2 * PI * FC * x) * sqrt FB * (sin (PI * x * FB / IZR M) / (PI * x * FB / IZR M)) ^ Z.to_nat M.

(** Lines 214-224 (cmor). *)
Definition cmor_r (FB FC x : R) : R := cos (2 * PI * FC * x) * exp (-x^2 / FB) / sqrt (PI * FB).
Definition cmor_i (FB FC x : R) : R := sin (2 * PI * FC * x) * exp (-x^2 / FB) / sqrt (PI * FB).

Open Scope Z_scope.

(** wavelets.c lines 355-503 (continuous_wavelet): the attributes. *)
Inductive symmetry_t : Type := Asymmetric | NearSymmetric | Symmetric | AntiSymmetric.
Record cattrs : Type := mkAttrs {
  a_family : family; a_number : Z; a_symmetry : symmetry_t; a_complex : bool;
  a_lower : Q; a_upper : Q; a_center : Q; a_band : Q; a_order : Z }.
Definition continuous_struct (f : family) (order : Z) : option cattrs :=
  let par := if order mod 2 =? 0 then Symmetric else AntiSymmetric in
  match f with
  | GAUS => if 8 <? order then None else Some (mkAttrs f order par false (-5) 5 0 0 0)
  | MEXH => Some (mkAttrs f order Symmetric false (-8) 8 0 0 0)
  | MORL => Some (mkAttrs f order Symmetric false (-8) 8 0 0 0)
  | CGAU => if 8 <? order then None else Some (mkAttrs f order par true (-5) 5 0 0 0)
  | SHAN => Some (mkAttrs f order Asymmetric true (-20) 20 1 (1 # 2) 0)
  | FBSP => Some (mkAttrs f order Asymmetric true (-20) 20 (1 # 2) 1 2)
  | CMOR => Some (mkAttrs f order Asymmetric true (-8) 8 (1 # 2) 1 0)
  | _ => None
  end.

(** _pywt.pyx lines 731-769: the frequencies and the order given in the name
    ([continuous_new], Names.v) replace those of the structure. *)
Definition continuous_attrs (name : string) : res cattrs :=
  c <- continuous_new name ;;
  match continuous_struct (c_family c) (c_number c) with
  | None => Err ValueError
  | Some a =>
      Ok (mkAttrs (a_family a) (a_number a) (a_symmetry a) (a_complex a) (a_lower a) (a_upper a)
            (match c_center c with Some q => q | None => a_center a end)
            (match c_band c with Some q => q | None => a_band a end)
            (match c_order c with Some m => m | None => a_order a end))
  end.

(** Lines 835-857: the properties return None for a frequency that is not
    positive or an order 0; the assignment of None to a C variable of _cwt.pyx
    lines 53-71 raises TypeError. *)
Definition positive (q : Q) : res Q := if Qle_bool q 0 then Err TypeError else Ok q.
Definition nonzero (m : Z) : res Z := if m =? 0 then Err TypeError else Ok m.

Inductive cpsi : Type := PsiReal (psi : list R) | PsiComplex (re im : list R).

(** _cwt.pyx lines 13-76 (cwt_psi_single). *)
Definition cwt_psi_single (data : list Q) (a : cattrs) (output_len : Z) : res cpsi :=
  if output_len <? 1 then Err RuntimeError else
  let d := map Q2R data in
  match a_family a with
  | GAUS => Ok (PsiReal (map (gaus (a_number a)) d))
  | MEXH => Ok (PsiReal (map mexh d))
  | MORL => Ok (PsiReal (map morl d))
  | CGAU => Ok (PsiComplex (map (cgau_r (a_number a)) d) (map (cgau_i (a_number a)) d))
  | SHAN =>
      fb <- positive (a_band a) ;; fc <- positive (a_center a) ;;
      Ok (PsiComplex (map (shan_r (Q2R fb) (Q2R fc)) d) (map (shan_i (Q2R fb) (Q2R fc)) d))
  | FBSP =>
      m <- nonzero (a_order a) ;; fb <- positive (a_band a) ;; fc <- positive (a_center a) ;;
      Ok (PsiComplex (map (fbsp_r m (Q2R fb) (Q2R fc)) d) (map (fbsp_i m (Q2R fb) (Q2R fc)) d))
  | CMOR =>
      fb <- positive (a_band a) ;; fc <- positive (a_center a) ;;
      Ok (PsiComplex (map (cmor_r (Q2R fb) (Q2R fc)) d) (map (cmor_i (Q2R fb) (Q2R fc)) d))
  | _ => Err TypeError
  end.

(** _pywt.pyx lines 873-979 (ContinuousWavelet.wavefun). For 0 <= level <= 62;
    2.0**level is truncated to 0 for a negative level. *)
Definition c_wavefun (a : cattrs) (level : Z) (length : option Z) : res (cpsi * list Q) :=
  let output_length := match length with None => if level <? 0 then 0 else 2 ^ level | Some n => n end in
  if output_length <? 0 then Err ValueError
  else if max_alloc <=? output_length then Err MemoryError
  else
    let x := linspace (a_lower a) (a_upper a) output_length in
    p <- cwt_psi_single x a output_length ;; Ok (p, x).
