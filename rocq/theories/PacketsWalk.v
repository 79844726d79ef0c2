(** walk and walk_depth of the packet nodes with a function that looks at the
    nodes (pywt/_wavelet_packets.py lines 358-409). The function is given by
    its decision whether to go on below a node, which depends on the path of
    the node; the nodes it was called with are collected in order. *)
From Coq Require Import Ascii String.
From Verif Require Import Base Dwt Multilevel Swt Multidim MultilevelNd SwtNd Packets.

Section Walk.
Context {D : Type}.
Variable K : wpclass D.

(** The argument func of walk. *)
Definition visit (q : string -> bool) (n : nat) (acc : list nat) : M (D := D) (list nat * bool) :=
  x <~ get n ;; ret (acc ++ [n], q (npath x)).
Definition walk_visits (f : nat) (q : string -> bool) (dec : bool) (n : nat) : M (list nat) := walk K f (visit q) dec n [].

(** _wavelet_packets.py lines 385-409 (walk_depth); [f] bounds the depth. *)
Fixpoint walk_depth (f : nat) (func : nat -> list nat -> M (D := D) (list nat)) (dec : bool) (n : nat) (acc : list nat) : M (list nat) :=
  match f with
  | O => lift Fuel
  | S f' =>
      x <~ get n ;;
      m <~ maxlevel K n ;;
      match m with
      | None => raise TypeError
      | Some m =>
          acc <~ (if nlevel x <? m then walk_parts K (walk_depth f' func dec) dec n (parts K) acc else ret acc) ;;
          func n acc
      end
  end.
Definition walk_depth_visits (f : nat) (dec : bool) (n : nat) : M (list nat) := walk_depth f (fun n acc => ret (acc ++ [n])) dec n [].
End Walk.
