(** The order of the detail keys of the fully separable transform, without the
    comparison of the model. *)
From Coq Require Import Sorted.
From Verif Require Import Base BaseLemmas CConv Spec Lengths Dwt Nd NdSpec Axis Multidim Multilevel MultilevelNd Fsw FswSpec FswBands.
Open Scope list_scope. Open Scope Z_scope.

(** Tuples of one length in the order of Python: at the first place where they differ, [a] has the smaller number. *)
Definition tuple_before (a b : list Z) : Prop := exists p x y a' b', a = p ++ x :: a' /\ b = p ++ y :: b' /\ x < y.

Lemma lex_before a : forall b, List.length a = List.length b -> lex_lt b a = false -> a <> b -> tuple_before a b.
Proof.
  induction a as [|x a IH]; intros [|y b] L H Hne; cbn in *; try lia; [contradiction|]. destruct (Z.eqb_spec y x) as [->|Hxy].
  - destruct (IH b) as (p & u & v & a' & b' & -> & -> & Huv); [lia|exact H|congruence|]. exists (x :: p), u, v, a', b'. auto.
  - exists [], x, y, a, b. split; [reflexivity|]. split; [reflexivity|]. lia.
Qed.

Lemma sorted_before n l : NoDup l -> (forall k, In k l -> List.length k = n) -> Sorted lex_le l -> Sorted tuple_before l.
Proof.
  intros Hn Hl Hs. induction Hs as [|x l Hs IH Hh]; [constructor|]. inversion Hn as [|? ? N1 N2]; subst. constructor.
  - apply IH; [exact N2|]. intros k Hk. apply Hl. now right.
  - destruct Hh as [|y l Hxy]; constructor. apply lex_before; [|exact Hxy|intros ->; apply N1; now left].
    rewrite (Hl x), (Hl y); [reflexivity|right; now left|now left].
Qed.

Theorem detail_keys_sorted (C : CRing) plan sh (r : fsw (C := C)) : layout C plan sh r -> exists keys, detail_keys r = Ok keys /\ Sorted tuple_before keys.
Proof.
  intros H. destruct (detail_keys_spec C plan sh r H) as (keys & E & Hn & Hs & Hk). exists keys. split; [exact E|].
  apply (sorted_before (List.length plan)); [exact Hn| |exact Hs]. intros k Hi. apply Hk in Hi as [Hi _]. unfold is_key in Hi. clear -Hi. induction Hi; cbn; [reflexivity|now f_equal].
Qed.
