(** Specification of the pictures of packet bases: a picture of s0 by s1 unit
    cells is cut into rectangles. *)
From Coq Require Import Ascii String QArith.
From Verif Require Import Base.
Open Scope list_scope. Open Scope Z_scope.

(** The words over an alphabet. *)
Fixpoint over (letters : list ascii) (w : string) : Prop :=
  match w with EmptyString => True | String c r => In c letters /\ over letters r end.
(** [k] is the only position of the list whose element satisfies [P]. *)
Definition only {A} (P : A -> Prop) (l : list A) : Prop := exists k, forall k', (exists x, nth_error l k' = Some x /\ P x) <-> k' = k.
(** Every word of length [L] has exactly one of the keys as a prefix: the keys
    are the leaves of a tree. *)
Definition leaves (letters : list ascii) (L : nat) (keys : list string) : Prop :=
  (forall k, In k keys -> over letters k /\ (1 <= String.length k <= L)%nat) /\
  forall w, over letters w -> String.length w = L -> only (fun k => String.prefix k w = true) keys.
(** The smallest and largest coordinate of an outline. *)
Definition lo (l : list Z) : Z := fold_right Z.min (hd 0 l) l.
Definition hi (l : list Z) : Z := fold_right Z.max (hd 0 l) l.
(** The cell in column i and row j (counted downwards) is within the outline. *)
Definition holds (i j : Z) (b : list Z * list Z) : Prop := lo (fst b) <= i < hi (fst b) /\ lo (snd b) <= - j - 1 < hi (snd b).
(** The outlines cut the picture into rectangles without gaps or overlaps. *)
Definition tiling (s0 s1 : Z) (bs : list (list Z * list Z)) : Prop :=
  (forall i j, 0 <= i < s0 -> 0 <= j < s1 -> only (holds i j) bs) /\
  (forall i j b, In b bs -> holds i j b -> 0 <= i < s0 /\ 0 <= j < s1).
(** The middle of an outline, rounded down in the size (the label of a part). *)
Definition middle (b : list Z * list Z) : Z * Z := (lo (fst b) + (hi (fst b) - lo (fst b)) / 2, hi (snd b) - (hi (snd b) - lo (snd b)) / 2).
(** A point is the exact middle. *)
Definition midpoint (b : list Z * list Z) (p : Q * Q) : Prop :=
  (2 * fst p == inject_Z (lo (fst b) + hi (fst b)))%Q /\ (2 * snd p == inject_Z (lo (snd b) + hi (snd b)))%Q.
(** The coordinates of an outline are the ends of the four sides of a
    rectangle, each side starting where the one before ends. *)
Definition rectangle (b : list Z * list Z) : Prop := exists x1 y1 x2 y2,
  b = ([x1; x2] ++ [x2; x2] ++ [x2; x1] ++ [x1; x1], [y1; y1] ++ [y1; y2] ++ [y2; y2] ++ [y2; y1]).
