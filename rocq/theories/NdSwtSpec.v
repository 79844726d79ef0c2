(** Specification of the n-dimensional stationary transform: every level filters
    the previous approximation along each of the chosen axes in turn, without
    decimation. *)
From Coq Require Import Ascii String.
From Verif Require Import Base Spec SwtSpec Nd NdSpec CConv Dwt.

Section NdSwtSpec.
Context {C : CRing}.

(** A plan is the list of the axes with the wavelet of each. *)
Definition letter (c : ascii) (w : wavelet C) : list C := if Ascii.eqb c "a"%char then dec_lo w else dec_hi w.

(** The sub-band of [x] at level [l] named by the letters of [key]. *)
Fixpoint swt_band (l : Z) (key : string) (plan : list (nat * wavelet C)) (x : nd C) : nd C :=
  match key, plan with
  | String c k, (ax, w) :: p => swt_band l k p (wax ax l (letter c w) x)
  | _, _ => x
  end.

(** The low-pass sub-band, and the approximation after [n] levels beginning
    above level [s]. *)
Fixpoint low_band (l : Z) (plan : list (nat * wavelet C)) (x : nd C) : nd C :=
  match plan with [] => x | (ax, w) :: p => low_band l p (wax ax l (dec_lo w) x) end.
Fixpoint swtn_approx (plan : list (nat * wavelet C)) (s : Z) (n : nat) (x : nd C) : nd C :=
  match n with O => x | S n' => low_band (s + Z.of_nat n) plan (swtn_approx plan s n' x) end.

End NdSwtSpec.
