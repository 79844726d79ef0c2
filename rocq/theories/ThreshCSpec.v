(** Specification of thresholding in the plane: what the functions are for,
    not how they are computed. *)
From Coq Require Import Reals.
Open Scope R_scope.

Definition point : Type := R * R.
(** Euclidean length and distance. *)
Definition norm (z : point) : R := sqrt (fst z ^ 2 + snd z ^ 2).
Definition distc (z u : point) : R := norm (fst z - fst u, snd z - snd u).
(** [r] points in the direction of [z] and is not longer. *)
Definition shrunk (z r : point) : Prop := exists t, 0 <= t <= 1 /\ r = (t * fst z, t * snd z).
(** The two costs that trade the distance to the data against the size of the
    result. *)
Definition l1_cost (v : R) (z u : point) : R := distc z u ^ 2 / 2 + v * norm u.
Definition l0_cost (v : R) (z u : point) : R := distc z u ^ 2 / 2 + (if Req_EM_T (norm u) 0 then 0 else v ^ 2 / 2).
(** Rotation by the angle [a]. *)
Definition turn (a : R) (z : point) : point := (cos a * fst z - sin a * snd z, sin a * fst z + cos a * snd z).
