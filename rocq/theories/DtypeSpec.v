(** What is said about the types of the results, without reference to the code. *)
From Coq Require Import Ascii String.
From Verif Require Import Base Nd NdSpec Multidim MultilevelNd SwtNd Packing Instances Dtype.

(** The four types the C library works with. *)
Definition supported (d : dtype) : Prop := In d [Single; Double; CSingle; CDouble].
Definition complex (d : dtype) : Prop := In d [CSingle; CDouble; CLong].
Definition integral (d : dtype) : Prop := In d [Bool; Int].
(** Bytes of one real number. *)
Definition width (d : dtype) : Z :=
  match d with Bool => 1 | Half => 2 | Single | CSingle => 4 | Int | Double | CDouble => 8 | LongDouble | CLong => 16 end.

(** [t] is the supported type for data of type [d]: complex if and only if [d] is,
    double precision for integers, and as close as possible to the width otherwise. *)
Definition nearest (d t : dtype) : Prop :=
  supported t /\ (complex t <-> complex d) /\ (integral d -> t = Double) /\
  (~ integral d -> width t = Z.max 4 (Z.min 8 (width d))).

(** The type of a result made of several arrays, whose types satisfy [P]: the common type, or the double precision
    type of the kind. *)
Definition joint (P : dtype -> Prop) (t : dtype) : Prop :=
  supported t /\ (complex t <-> exists d, P d /\ complex d) /\
  ((forall d, P d -> nearest d t) \/ width t = 8).

(** The types of the arrays that are not None. *)
Definition present (l : list (option dtype)) (d : dtype) : Prop := In (Some d) l.

(** All keys of length [n] over the letters a and d. *)
Inductive ad_key : nat -> string -> Prop :=
  | ad_nil : ad_key 0 ""
  | ad_a n k : ad_key n k -> ad_key (S n) (String "a" k)
  | ad_d n k : ad_key n k -> ad_key (S n) (String "d" k).

Section S.
Context {C : CRing}.

(** The values of an array of a real type are real. *)
Definition real_values (a : list (Cplx C)) : Prop := forall v, In v a -> snd v = (r0 : C).

(** The details of a level contain a complex array. *)
Definition complex_level (ds : dict (typed C)) : Prop := exists k t, In (k, t) ds /\ complex (fst t).
(** The approximation is complex, or the levels with complex details come after the
    levels without. *)
Definition no_loss (a : dtype) (levels : list (dict (typed C))) : Prop :=
  complex a \/ (forall i j di dj, (i <= j)%nat -> nth_error levels i = Some di -> nth_error levels j = Some dj ->
                 complex_level di -> complex_level dj).

(** Values of type [d] are values of type [t]. *)
Definition fits (d t : dtype) : Prop := (complex d -> complex t) /\ (integral t -> integral d) /\ (t = Bool -> d = Bool).

(** The details of the levels; with trim_approx they are the whole dictionary. *)
Definition details_of (trim : bool) (nt : nat) (cs : list (titem C)) : list (dict (typed C)) :=
  flat_map (fun it => match it with
                      | TArr _ _ => []
                      | TDict _ d => [if trim then d else filter (fun kv => negb (String.eqb (fst kv) (all_a nt))) d]
                      end) cs.
(** The same for iswt2. *)
Definition details2_of (cs : list (titem2 C)) : list (dict (typed C)) :=
  flat_map (fun it => match it with
                      | TA2 _ _ => []
                      | TAD2 _ _ h v d | TD2 _ h v d => [[("da", h); ("ad", v); ("dd", d)]%string]
                      end) cs.

(** The keys of a dictionary differ. *)
Definition dict_ok (it : titem C) : Prop := match it with TArr _ _ => True | TDict _ d => NoDup (map fst d) end.
(** The approximation handed to iswtn, and whether it stands alone. *)
Definition approx_of (nt : nat) (cs : list (titem C)) : option (bool * typed C) :=
  match cs with
  | TArr _ a :: _ => Some (true, a)
  | TDict _ d :: _ => option_map (pair false) (dget d (all_a nt))
  | [] => None
  end.
Definition approx2_of (cs : list (titem2 C)) : option (typed C) :=
  match cs with TA2 _ a :: _ | TAD2 _ a _ _ _ :: _ => Some a | _ => None end.

(** The details of a coefficient list fit the type of the approximation. *)
Definition all_fit (cs : list (pitem C)) : Prop :=
  match cs with
  | PArr _ a :: ds => forall x, In x ds -> match x with
      | PNone _ => True
      | PArr _ t => fits (fst t) (fst a)
      | PTup _ l => forall t, In (Some t) l -> fits (fst t) (fst a)
      | PDict _ d => forall k t, In (k, Some t) d -> fits (fst t) (fst a)
      end
  | _ => True
  end.
End S.
