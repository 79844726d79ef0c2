(** Specification of the extension of an array to all of Z^d: along the first
    axis, then along the second axis and so on. *)
From Verif Require Import Base CConv Spec Nd.

Section S.
Context {C : CRing}.
(** [f] gives the elements inside the shape [sh]. *)
Fixpoint ndext (m : mode) (sh : list Z) (f : list Z -> C) (idx : list Z) : C :=
  match sh, idx with
  | N :: sh, i :: idx => ndext m sh (fun rest => ext m (tab N (fun t => f (t :: rest))) i) idx
  | _, _ => f []
  end.
End S.

(** Position in the array of a position in the padded array. *)
Fixpoint unpad (ws : list (Z * Z)) (idx : list Z) : list Z :=
  match ws, idx with (l, _) :: ws, i :: idx => (i - l) :: unpad ws idx | _, _ => [] end.
(** Shape of the padded array (in periodization mode odd sizes are made even). *)
Fixpoint padded (m : mode) (sh : list Z) (ws : list (Z * Z)) : list Z :=
  match sh, ws with
  | N :: sh, (l, r) :: ws => (l + (match m with PERIODIZATION => N + N mod 2 | _ => N end) + r) :: padded m sh ws
  | _, _ => []
  end.
(** Widths accepted in mode [m] for an axis of [N] samples. *)
Definition pad_ok (m : mode) (fuel : nat) (N : Z) (w : Z * Z) : Prop :=
  min_len m <= N /\ 0 <= fst w /\ 0 <= snd w /\ fst w + N + snd w + 4 < Z.of_nat fuel /\
  (m = SMOOTH -> 2 <= N /\ 1 <= snd w) /\ (m = ANTISYMMETRIC -> 1 <= snd w).
