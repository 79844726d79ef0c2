(** What is said about demo_signal. *)
From Coq Require Import String ZArith List Reals.
Import ListNotations.
From Verif Require Import Base Names Demo.
Open Scope Z_scope.
Open Scope string_scope.

(** Signals of a fixed length, and signals sampled on the grid t. *)
Definition fixed_length (name : string) : Prop := lower name = "gabor" \/ lower name = "sineoneoverx".
Definition off_grid (name : string) : Prop := In (lower name) ["hypchirps"; "linchirps"; "chirps"; "piece-regular"; "piece-polynomial"].
(** The signals of the documentation. *)
Definition available : list string :=
  ["Blocks"; "Bumps"; "HeaviSine"; "Doppler"; "Ramp"; "HiSine"; "LoSine"; "LinChirp"; "TwoChirp"; "QuadChirp"; "MishMash"; "WernerSorrows"; "HypChirps"; "LinChirps";
   "Chirps"; "Gabor"; "sineoneoverx"; "Piece-Regular"; "Piece-Polynomial"; "Riemann"].
Definition known (name : string) : Prop := exists s, In s available /\ lower name = lower s.
(** The lengths for which a signal is defined; [N] samples on the grid. *)
Definition length_ok (name : string) (n N : Z) : Prop :=
  (lower name = "chirps" -> (8 | n) \/ 8 <= n < 16) /\
  (lower name = "riemann" -> exists s, 0 <= s /\ (2 * s - 1) * (2 * s - 1) <= 4 * n <= (2 * s + 1) * (2 * s + 1) /\ s * s <= N) /\
  (lower name = "piece-regular" \/ lower name = "piece-polynomial" -> ~ (5 | n)).

(** The sum of a list of reals, and the mean being zero. *)
Definition sum (l : list R) : R := fold_right Rplus 0%R l.
(** The height of a step at [p] seen at [t]: none before, half of it at the step. *)
Definition step (t p h : R) : R := match total_order_T t p with inleft (left _) => 0 | inleft (right _) => h / 2 | inright _ => h end.
(** The steps of Blocks. *)
Definition steps : list (R * R) :=
  [(0.1, 4); (0.13, -5); (0.15, 3); (0.23, -4); (0.25, 5); (0.4, -4.2); (0.44, 2.1); (0.65, 4.3); (0.76, -3.1); (0.78, 2.1); (0.81, -4.2)]%R.
(** Samples [k / n] of a function, 1 <= k <= N. *)
Definition sampled (f : list (option R)) (n N : Z) (g : R -> R) : Prop :=
  zlen f = N /\ forall k, 0 <= k < N -> nth (Z.to_nat k) f None = Some (g ((IZR k + 1) / IZR n)%R).
