(** Specification of the orders of WaveletPacket.get_level. *)
From Coq Require Import Ascii String Sorted.
From Verif Require Import Base.

(** The words of length [L] over two letters, in strictly increasing
    lexicographic order. *)
Fixpoint over (a d : ascii) (s : string) : Prop :=
  match s with EmptyString => True | String c t => (c = a \/ c = d) /\ over a d t end.
Definition lexicographic (L : nat) (l : list string) : Prop :=
  StronglySorted (fun s t => String.ltb s t = true) l /\
  forall s, In s l <-> String.length s = L /\ over "a" "d" s.

(** Two words differ in exactly one letter. *)
Definition one_letter (s t : string) : Prop :=
  exists u c d v, s = append u (String c v) /\ t = append u (String d v) /\ c <> d.
Fixpoint chain {A} (R : A -> A -> Prop) (l : list A) : Prop :=
  match l with a :: ((b :: _) as t) => R a b /\ chain R t | _ => True end.
