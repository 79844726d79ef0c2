(** cwt (pywt/_cwt.py) and central_frequency (pywt/_functions.py) of a
    continuous wavelet given by its name, over the complex numbers: the samples
    are pairs of real numbers of the standard library, the parameters of Cwt.v
    (np.sqrt, np.conj, .real and the roots of unity of np.fft) are the real ones. *)
From Coq Require Import QArith Reals Qreals ZArith List String.
Import ListNotations.
From Verif Require Import Base Instances CConv Dwt Nd Swt Multidim SwtNd Filters Names Cwt Wavefun Continuous.
Open Scope R_scope.

Definition Rring : CRing := mkCRing R 0 1 Rplus Rmult Rminus Ropp RTheory.
Definition CR : CRing := Cplx Rring.

Definition c_inj (q : Q) : CR := (Q2R q, 0).
Definition c_root (q : Q) : CR := (sqrt (Q2R q), 0).
Definition c_conj (z : CR) : CR := (fst z, - snd z).
Definition c_re (z : CR) : CR := (fst z, 0).
(** exp(-2 pi i / n), exp(2 pi i / n), 1 / n of np.fft. *)
Definition c_w (n : Z) : CR := (cos (2 * PI / IZR n), - sin (2 * PI / IZR n)).
Definition c_v (n : Z) : CR := (cos (2 * PI / IZR n), sin (2 * PI / IZR n)).
Definition c_ninv (n : Z) : CR := (/ IZR n, 0).

Definition c_abs (z : CR) : R := sqrt (fst z ^ 2 + snd z ^ 2).
Definition rgt (a b : R) : bool := if Rlt_dec b a then true else false.

(** _pywt.pyx lines 961-979: psi_r + 1j * psi_i. *)
Definition to_complex (p : cpsi) : list CR :=
  match p with
  | PsiReal l => map (fun a => (a, 0)) l
  | PsiComplex l m => map (fun ab => ab) (combine l m)
  end.

(** _functions.py lines 140-159 for a continuous wavelet. *)
Definition c_central_frequency (a : cattrs) (precision : Z) : res Q :=
  '(p, x) <- c_wavefun a precision None ;;
  let psi := to_complex p in
  central_frequency rgt x (map c_abs (fft c_w psi (zlen psi))).

(** _cwt.py lines 103-195 with the name of a continuous wavelet (lines 106-107,
    _pywt.pyx lines 320-326). The central frequency of line 191 is computed
    before the loop: it raises no error once wavefun has succeeded. *)
Definition cwt_named (dcplx : bool) (data : nd CR) (scales : list Q) (name : string) (period : Q) (meth : cwt_method) (axis : Z) : res (nd CR * list Q) :=
  a <- continuous_attrs name ;;
  if existsb (fun s => Qle_bool s 0) scales then Err ValueError else
  '(p, x) <- c_wavefun a 10 None ;;
  fc <- c_central_frequency a 10 ;;
  cwt c_inj c_root c_conj c_re c_w c_v c_ninv dcplx data scales (WContinuous (a_complex a) (to_complex p) x) fc period meth axis.
