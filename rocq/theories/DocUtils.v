(** Model of the parts of pywt/_doc_utils.py that compute keys and coordinates
    (lines 13-129). Drawing itself (matplotlib) is not modelled. A dict whose
    values are all None is a dict of units; sizes are ints. *)
From Coq Require Import Ascii String QArith.
From Verif Require Import Base Dwt Multidim.
Open Scope list_scope. Open Scope Z_scope.

(** A local variable that was not assigned yet. *)
Definition UnboundLocalError : Z := 11.

(** d.pop(k) *)
Fixpoint dpop {A} (d : dict A) (k : string) : res (dict A) :=
  match d with
  | [] => Err KeyError
  | (k', v) :: d => if String.eqb k' k then Ok d else r <- dpop d k ;; Ok ((k', v) :: r)
  end.
(** 'a' * n *)
Fixpoint as_ (n : nat) : string := match n with O => EmptyString | S n => String "a"%char (as_ n) end.

(** Lines 15-23 and 28-36: the loop over lev, for the letters of one level. *)
Fixpoint keys_loop (letters : list string) (level : Z) (n : nat) (lev : Z) (approx : string) (coeffs : dict unit) : res (dict unit) :=
  match n with
  | O => Ok coeffs
  | S n =>
      let coeffs := fold_left (fun c k => dset c (approx ++ k)%string tt) letters coeffs in
      let approx := as_ (Z.to_nat (lev + 1)) in
      coeffs <- (if lev <? level - 1 then dpop coeffs approx else Ok coeffs) ;;
      keys_loop letters level n (lev + 1) approx coeffs
  end.
(** Lines 13-23. *)
Definition wavedec_keys (level : Z) : res (list string) :=
  c <- keys_loop ["a"; "d"]%string level (Z.to_nat level) 0 EmptyString [] ;; Ok (map fst c).
(** Lines 26-36. *)
Definition wavedec2_keys (level : Z) : res (list string) :=
  c <- keys_loop ["a"; "h"; "v"; "d"]%string level (Z.to_nat level) 0 EmptyString [] ;; Ok (map fst c).

(** Lines 39-65: the x and y coordinates of the lines. *)
Definition box_ (bl ur : Z * Z) : list Z * list Z :=
  let xl := fst bl in let xr := fst ur in let yb := snd bl in let yt := snd ur in
  ([xl; xr; xr; xr; xr; xl; xl; xl], [yb; yb; yb; yt; yt; yt; yt; yb]).

(** Lines 74-78: the loop over the letters of a key; the last element is the
    variable n after the loop. *)
Fixpoint offsets (s0 s1 : Z) (key : string) (i : Z) (st : Z * Z * option Z) : Z * Z * option Z :=
  match key with
  | EmptyString => st
  | String c r =>
      let '(ox, oy, _) := st in
      let ox := if Ascii.eqb c "h" || Ascii.eqb c "d" then ox + s0 / 2 ^ (i + 1) else ox in
      let oy := if Ascii.eqb c "v" || Ascii.eqb c "d" then oy + s1 / 2 ^ (i + 1) else oy in
      offsets s0 s1 r (i + 1) (ox, oy, Some i)
  end%char.
(** Lines 68-85. The variable n keeps its value from one key to the next. *)
Fixpoint wp_loop (s0 s1 : Z) (keys : list string) (n : option Z) (coords : list (list Z * list Z)) (centers : dict (Z * Z)) : res (list (list Z * list Z) * dict (Z * Z)) :=
  match keys with
  | [] => Ok (coords, centers)
  | key :: keys =>
      let '(ox, oy, n) := offsets s0 s1 key 0 (0, 0, n) in
      match n with
      | None => Err UnboundLocalError
      | Some k =>
          let sx := s0 / 2 ^ (k + 1) in let sy := s1 / 2 ^ (k + 1) in
          wp_loop s0 s1 keys n (coords ++ [box_ (ox, - oy) (ox + sx, - oy - sy)]) (dset centers key (ox + sx / 2, - oy - sy / 2))
      end
  end.
Definition wp_basis_coords (shape : Z * Z) (keys : list string) := wp_loop (fst shape) (snd shape) keys None [] [].

(** Lines 116-121: one axis. *)
Fixpoint offset1 (s : Z) (key : string) (i : Z) (o : Z) (n : option Z) : Z * option Z :=
  match key with
  | EmptyString => (o, n)
  | String c r => offset1 s r (i + 1) (if Ascii.eqb c "d" then o + s / 2 ^ (i + 1) else o) (Some i)
  end%char.
(** Lines 109-129; the keys of the dict of centers are pairs. *)
Fixpoint fsw_loop (s0 s1 : Z) (keys : list (string * string)) (n0 n1 : option Z) (acc : list (list Z * list Z) * list ((string * string) * (Q * Q))) :
  res (list (list Z * list Z) * list ((string * string) * (Q * Q))) :=
  match keys with
  | [] => Ok acc
  | (key0, key1) :: keys =>
      let '(o0, n0) := offset1 s0 key0 0 0 n0 in
      let '(o1, n1) := offset1 s1 key1 0 0 n1 in
      match n0, n1 with
      | Some k0, Some k1 =>
          let w0 := s0 / 2 ^ (k0 + 1) in let w1 := s1 / 2 ^ (k1 + 1) in
          fsw_loop s0 s1 keys n0 n1 (fst acc ++ [box_ (o0, - o1) (o0 + w0, - o1 - w1)],
            snd acc ++ [((key0, key1), (inject_Z o0 + inject_Z w0 / 2, inject_Z (- o1) - inject_Z w1 / 2)%Q)])
      | _, _ => Err UnboundLocalError
      end
  end.
(** The keys are distinct, so that every assignment to centers adds an entry. *)
Definition fswavedecn_coords (shape : Z * Z) (levels : Z) :=
  ks <- wavedec_keys levels ;; fsw_loop (fst shape) (snd shape) (list_prod ks ks) None None ([], []).
