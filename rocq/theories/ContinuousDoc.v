(** The wavelet functions as documented (doc/source/ref/cwt.rst), for a wavelet
    with the given attributes: real and imaginary part. The function of the
    gaus, cgau and mexh wavelets is given as a derivative. *)
From Coq Require Import QArith Reals Qreals ZArith List.
From Verif Require Import Filters ContinuousSpec Continuous.
Open Scope R_scope.

Definition documented_psi (a : cattrs) (f : R -> R * R) : Prop :=
  let n := Z.to_nat (a_number a) in let B := Q2R (a_band a) in let C := Q2R (a_center a) in let M := Z.to_nat (a_order a) in
  match a_family a with
  | GAUS => exists g, nth_derivative n (fun x => exp (- x ^ 2)) g /\
      forall x, f x = ((-1) ^ (n / 2) * g x / sqrt (odd_factorial n * sqrt (PI / 2)), 0)
  | MEXH => exists g, nth_derivative 2 (fun x => exp (- x ^ 2 / 2)) g /\
      forall x, f x = (- (2 / (sqrt 3 * sqrt (sqrt PI))) * g x, 0)
  | MORL => forall x, f x = (exp (- x ^ 2 / 2) * cos (5 * x), 0)
  | CGAU => exists k g h, 0 < k /\
      nth_derivative n (fun x => cos x * exp (- x ^ 2)) g /\ nth_derivative n (fun x => - sin x * exp (- x ^ 2)) h /\
      forall x, f x = (g x / k, h x / k)
  | SHAN => forall x, f x = (sqrt B * sinc (PI * B * x) * cos (2 * PI * C * x), sqrt B * sinc (PI * B * x) * sin (2 * PI * C * x))
  | FBSP => forall x, f x = (sqrt B * sinc (PI * B * x / INR M) ^ M * cos (2 * PI * C * x), sqrt B * sinc (PI * B * x / INR M) ^ M * sin (2 * PI * C * x))
  | CMOR => forall x, f x = (/ sqrt (PI * B) * exp (- x ^ 2 / B) * cos (2 * PI * C * x), / sqrt (PI * B) * exp (- x ^ 2 / B) * sin (2 * PI * C * x))
  | _ => False
  end.

(** Sample [i] of the returned array(s). *)
Definition sample (p : cpsi) (i : nat) : R * R :=
  match p with PsiReal l => (nth i l 0, 0) | PsiComplex l m => (nth i l 0, nth i m 0) end.
Definition is_complex (p : cpsi) : bool := match p with PsiReal _ => false | PsiComplex _ _ => true end.
Definition samples (p : cpsi) : nat := match p with PsiReal l => length l | PsiComplex l m => Nat.max (length l) (length m) end.

(** The parameters wavefun can work with: positive frequencies. *)
Definition usable (a : cattrs) : Prop :=
  match a_family a with
  | SHAN | FBSP | CMOR => (0 < a_band a)%Q /\ (0 < a_center a)%Q
  | _ => True
  end.
