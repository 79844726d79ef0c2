(** Model of boundary_mode_subplot of pywt/_doc_utils.py: the points and lines
    it draws. Drawing itself (matplotlib) is not modelled. *)
From Coq Require Import String.
From Verif Require Import Base BaseLemmas CConv Spec Lengths Dwt Pad.
Open Scope list_scope. Open Scope Z_scope.

Section BP.
Variable fuel : nat.
Context {C : CRing}.

(** The black dots, the red dots, and the horizontal positions of the vertical
    bars (times two, because they can be half integers). *)
Record picture : Type := mkPicture { dots : list (Z * C); red : list (Z * C); bars : list Z }.

(** ax.plot(t, v) with t = lo .. hi - 1: matplotlib needs two sequences of one
    length. *)
Definition plot (lo hi : Z) (v : list C) : res (list (Z * C)) :=
  if zlen v =? Z.max 0 (hi - lo) then Ok (tab (zlen v) (fun i => (lo + i, gz v i))) else Err ValueError.
(** list(range(a, b)) *)
Definition py_range (a b : Z) : list Z := tab (b - a) (fun i => a + i).

(** _doc_utils.py lines 154-190. x[-1] of an array of odd length exists; the
    minimum of xp (the height of the bars) fails for an empty xp. *)
Definition boundary_mode_subplot (x : list C) (mode : string) (symw : bool) : res picture :=
  let x := if (String.eqb mode "periodization") && (zlen x mod 2 =? 1) then x ++ [gz x (zlen x - 1)] else x in
  let n := zlen x in
  let npad := 2 * n in
  xp <- pad fuel x npad npad mode ;;
  d <- plot 0 (n + 2 * npad) xp ;;
  r <- (if String.eqb mode "periodization" then plot npad (npad + n - 1) (firstn (List.length x - 1) x) else plot npad (npad + n) x) ;;
  let left2 := if symw then 2 * npad else 2 * npad - 1 in
  let step := if symw then n - 1 else n in
  let rng := if (String.eqb mode "smooth") || (String.eqb mode "constant") || (String.eqb mode "zero") then py_range 0 2 else py_range (-2) 4 in
  if zlen xp =? 0 then Err ValueError else
  Ok (mkPicture d r (map (fun rep => left2 + 2 * (rep * step)) rng)).
End BP.
Arguments picture : clear implicits.
