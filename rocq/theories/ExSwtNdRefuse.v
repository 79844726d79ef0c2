(** Example data for what iswtn refuses. *)
From Coq Require Import List String.
From Verif Require Import Base Instances Nd Axis Multidim ExBanks ExNd ExMra.
Import ListNotations.
Open Scope string_scope. Open Scope list_scope. Open Scope Z_scope.

Definition d_aa : dict (sarr Zring) := [("ad", s2_ 2 2 [1; 0; 3; 1]); ("aa", s2_ 2 2 [1; 2; 3; 4])].
Definition d_a : dict (sarr Zring) := [("a", s2_ 2 2 [1; 2; 3; 4]); ("d", s2_ 2 2 [1; 0; 3; 1])].
Definition d_uneven : dict (sarr Zring) := [("ad", s2_ 2 2 [1; 0; 3; 1]); ("da", s2_ 1 2 [1; 2])].
