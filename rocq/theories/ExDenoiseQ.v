(** Rational data for the distance of coefficients. *)
From Coq Require Import QArith Qcanon.
From Verif Require Import Base Instances ExBanks.
Open Scope list_scope.
Open Scope Z_scope.

Definition qx : list Qcring := [qc 1 1; qc 2 1; qc 0 1; qc 5 1].
Definition qy : list Qcring := [qc 0 1; qc 0 1; qc 1 1; qc 1 1].
Definition this_of (c : Qcring) : Q := this c.
