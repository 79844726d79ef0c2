(** Derivatives and integrals over the real line, for the continuous wavelets. *)
From Coq Require Import Reals ZArith.
Open Scope R_scope.

(** [g] is the n-th derivative of [f]. *)
Fixpoint nth_derivative (n : nat) (f g : R -> R) : Prop :=
  match n with
  | O => forall x, g x = f x
  | S n' => exists f', (forall x, derivable_pt_lim f x (f' x)) /\ nth_derivative n' f' g
  end.

Definition limit_plus (F : R -> R) (l : R) : Prop :=
  forall eps, 0 < eps -> exists a, forall x, a < x -> Rabs (F x - l) < eps.
Definition limit_minus (F : R -> R) (l : R) : Prop :=
  forall eps, 0 < eps -> exists a, forall x, x < a -> Rabs (F x - l) < eps.

(** The integral of [f] from minus to plus infinity is [v]: an antiderivative
    has limits that differ by [v]. *)
Definition integral_over_line (f : R -> R) (v : R) : Prop :=
  exists F l u, (forall x, derivable_pt_lim F x (f x)) /\ limit_minus F l /\ limit_plus F u /\ u - l = v.

(** Limit at a point, the value at the point not counted. *)
Definition limit_at (f : R -> R) (a l : R) : Prop :=
  forall eps, 0 < eps -> exists d, 0 < d /\ forall x, x <> a -> Rabs (x - a) < d -> Rabs (f x - l) < eps.

(** 1 * 3 * ... * (2n-1). *)
Fixpoint odd_factorial (n : nat) : R :=
  match n with O => 1 | S n' => (2 * INR n' + 1) * odd_factorial n' end.

(** sin x / x, 1 at 0. *)
Definition sinc (x : R) : R := if Req_EM_T x 0 then 1 else sin x / x.
