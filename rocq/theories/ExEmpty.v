(** Packets without data, for the examples of PropsEmpty.v. *)
From Coq Require Import Ascii String.
From Verif Require Import Base BaseLemmas CConv Spec Instances Lengths Dwt Nd NdSpec Axis Multidim SwtNd Packets PacketsInv ExBanks ExNd ExPackets ExPackets2 PacketsEmpty.
Open Scope string_scope. Open Scope list_scope. Open Scope Z_scope.

Definition he1 : nheap (nd Zring) := fst (setitem K5 0 "d" pk5 [root_node K5 None (Some 2)]).
Definition he2 : nheap (nd Zring) := fst (setitem K33 0 "a" pk33 [root_node K33 None (Some 2)]).
Definition Kn : wpclass (nd Zring) := wpn 99 jk zbank2 SYMMETRIC [0; 1].
Definition hen : nheap (nd Zring) := fst (setitem Kn 0 "da" pk33 [root_node Kn None (Some 2)]).
Definition v33 : nd Zring := match snd (reconstruct K33 0 false he2) with Ok (Some v) => v | _ => pk33 end.
Lemma lost_subnode : exists (K : wpclass (nd Zring)) h h' v, K = wp2 99 jk zbank2 SYMMETRIC [0; 1] /\ setitem K 0 "a" pk33 [root_node K None (Some 2)] = (h, Ok tt) /\
  snd (reconstruct K 0 false h) = Ok (Some v) /\ decompose K 0 h = (h', Ok tt) /\ snd (reconstruct K 0 false h') = Err ValueError.
Proof.
  assert (P : forall A B (p : A * B) b, snd p = b -> p = (fst p, b)) by (intros A B [a b] c; cbn; congruence).
  exists K33, he2, (fst (decompose K33 0 he2)), v33. split; [reflexivity|]. split; [apply P; vm_compute; reflexivity|]. split; [vm_compute; reflexivity|]. split; [apply P|]; vm_compute; reflexivity.
Qed.
