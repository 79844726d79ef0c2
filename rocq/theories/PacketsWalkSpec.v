(** Specification of the order in which a tree is walked. *)
From Coq Require Import Ascii String.
From Verif Require Import Base Multidim Packets.

Section S.
Context {D : Type}.
Variable parts : list string.
(** A node, then what lies below its subnodes in the order of the parts; below
    a node whose path is refused by [q] nothing is visited. *)
Inductive preorder (h : list (node D)) (q : string -> bool) : nat -> list nat -> Prop :=
  | pre_stop n x : nth_error h n = Some x -> q (npath x) = false -> preorder h q n [n]
  | pre_node n x ls : nth_error h n = Some x -> q (npath x) = true -> below_pre h q x parts ls -> preorder h q n (n :: ls)
with below_pre (h : list (node D)) (q : string -> bool) : node D -> list string -> list nat -> Prop :=
  | bp_nil x : below_pre h q x [] []
  | bp_none x p ps ls : dget (nkids x) p = None -> below_pre h q x ps ls -> below_pre h q x (p :: ps) ls
  | bp_some x p ps c l ls : dget (nkids x) p = Some c -> preorder h q c l -> below_pre h q x ps ls -> below_pre h q x (p :: ps) (l ++ ls).
(** What lies below the subnodes, then the node. *)
Inductive postorder (h : list (node D)) : nat -> list nat -> Prop :=
  | post_node n x ls : nth_error h n = Some x -> below_post h x parts ls -> postorder h n (ls ++ [n])
with below_post (h : list (node D)) : node D -> list string -> list nat -> Prop :=
  | bq_nil x : below_post h x [] []
  | bq_none x p ps ls : dget (nkids x) p = None -> below_post h x ps ls -> below_post h x (p :: ps) ls
  | bq_some x p ps c l ls : dget (nkids x) p = Some c -> postorder h c l -> below_post h x ps ls -> below_post h x (p :: ps) (l ++ ls).

(** The words of at most [k] parts, every word before / after its extensions. *)
Fixpoint words_pre (q : string -> bool) (path : string) (k : nat) : list string :=
  EmptyString :: match k with
                 | O => []
                 | S k' => if q path then flat_map (fun p => map (append p) (words_pre q (append path p) k')) parts else []
                 end.
Fixpoint words_post (k : nat) : list string :=
  match k with O => [] | S k' => flat_map (fun p => map (append p) (words_post k')) parts end ++ [EmptyString].
End S.
