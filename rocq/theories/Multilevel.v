(** Model of the 1-D multilevel transforms of pywt/_multilevel.py (lines
    31-176). Simplification: 1-D data only, so [axis] is the only axis; the
    warning of _check_level is not an observable result. *)
From Verif Require Import Base CConv Lengths Dwt.

(** _multilevel.py lines 31-46 (_check_level). The list of dwt_max_level per
    axis is passed by the caller as (size, dec_len) pairs; np.min of an empty
    list raises ValueError. *)
Definition list_min (l : list Z) : option Z :=
  match l with [] => None | a :: t => Some (fold_left Z.min t a) end.

Definition check_level (pairs : list (Z * Z)) (level : option Z) : res Z :=
  match list_min (map (fun '(s, d) => dwt_max_level_c s d) pairs) with
  | None => Err ValueError
  | Some max_level =>
      match level with
      | None => Ok max_level
      | Some l => if l <? 0 then Err ValueError else Ok l
      end
  end.

Section ML.
Context {C : CRing}.
Variable fuel : nat.

(** _multilevel.py lines 100-107: the loop [for i in range(level)]; [acc] is
    coeffs_list. *)
Fixpoint wavedec_loop (a : list C) (w : wavelet C) (m : mode) (n : nat) (acc : list (list C)) : res (list (list C)) :=
  match n with
  | O => Ok (rev (acc ++ [a]))
  | S n' => ad <- dwt fuel a w m ;; wavedec_loop (fst ad) w m n' (acc ++ [snd ad])
  end.

(** _multilevel.py lines 49-109 (wavedec). *)
Definition wavedec (x : list C) (w : wavelet C) (m : mode) (level : option Z) : res (list (list C)) :=
  l <- check_level [(zlen x, dec_len w)] level ;;
  wavedec_loop x w m (Z.to_nat l) [].

(** _multilevel.py lines 158-174: the loop [for d in ds]. *)
Definition waverec_step (a d : option (list C)) (w : wavelet C) (m : mode) : res (list C) :=
  a <- match a, d with
       | Some a', Some d' =>
           if zlen a' =? zlen d' + 1 then Ok (Some (firstn (length d') a'))
           else if negb (zlen a' =? zlen d') then Err ValueError else Ok a
       | _, _ => Ok a
       end ;;
  idwt fuel a d w m.

Fixpoint waverec_loop (a : option (list C)) (ds : list (option (list C))) (w : wavelet C) (m : mode) : res (option (list C)) :=
  match ds with
  | [] => Ok a
  | d :: ds' => y <- waverec_step a d w m ;; waverec_loop (Some y) ds' w m
  end.

(** _multilevel.py lines 112-176 (waverec). *)
Definition waverec (coeffs : list (option (list C))) (w : wavelet C) (m : mode) : res (option (list C)) :=
  match coeffs with
  | [] => Err ValueError
  | [a] => Ok a
  | a :: ds => waverec_loop a ds w m
  end.

End ML.
