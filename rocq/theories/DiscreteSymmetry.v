(** Model of the attribute symmetry of the discrete wavelets. *)
From Verif Require Import Base Filters.
From Coq Require Import String.
Open Scope string_scope.

(** pywt/_extensions/c/wavelets.c lines 50-62 (haar is db1 with other names),
    65-93 (rbio is bior with switched filters and other names), 112 (db),
    158 (sym), 202 (coif), 278 (bior), 321 (dmey): the value of base.symmetry;
    _pywt.pyx lines 498-510 (Wavelet.symmetry): its text. The value does not
    depend on the order. *)
Definition discrete_symmetry (name : family) : string :=
  match name with
  | HAAR | DB => "asymmetric"
  | SYM | COIF => "near symmetric"
  | BIOR | RBIO | DMEY => "symmetric"
  | _ => "unknown"
  end.
