(** A real 4x4 image and an orthonormal bank on both axes. *)
From Coq Require Import String List.
From Verif Require Import Base BaseLemmas CConv Spec Lengths Dwt DwtProofs Nd NdSpec Axis AxisProofs Multidim MultidimProofs Multilevel MultilevelProofs Facts1 MultilevelNd MultilevelNdProofs MultilevelNdFacts CyclicMain CyclicNd ParsevalNd
  CwtReal DenoiseSpec DenoiseReal ExDenoise DenoiseNdSpec DenoiseNd DenoiseNdReal.
From Coq Require Import Reals Lra.
Import ListNotations.
Open Scope list_scope. Open Scope R_scope.

Definition iplan : list (step Rring) := [(0%nat, (w35, PERIODIZATION)); (1%nat, (w35, PERIODIZATION))].
Definition img (a : R) : sarr Rring := of_nd (mkNd (C := Rring) [4; 4]%Z [1; 2; 0; 5; 3; -1; 4; 4; a; 0; 2; 2; 7; 7; 1; 9]).
Lemma img_ok a : image_ok 99 (One w35) (One PERIODIZATION) [0; 1]%Z iplan [16; 16]%Z 2 (img a).
Proof.
  split; [apply of_nd_ok; split; [repeat constructor; cbn; lia|reflexivity]|]. split; [split; vm_compute; congruence|]. split; [discriminate|]. split; [repeat split; reflexivity|].
  split; [repeat constructor; cbn; intuition lia|]. split.
  - split; [reflexivity|]. split; [reflexivity|]. split; [repeat constructor; cbn; lia|]. split; [intros [|[|[|k]]]; cbn; lia|]. split; [repeat constructor; cbn; intuition discriminate|].
    intros s [<-|[<-|[]]]; (split; [repeat split; cbn; try lia; congruence|cbn; lia]).
  - intros s [<-|[<-|[]]]; (split; [reflexivity|]; split; [exact w35_orthonormal|exists 1%Z; reflexivity]).
Qed.
Lemma img_soft junk a v : 0 < v -> exists y X X', image_denoised 99 junk (One w35) (One PERIODIZATION) [0; 1]%Z 2 v "soft" (img a) y X X'.
Proof. intros Hv. exact (denoise_image 99 junk _ _ _ _ _ 2 v "soft" (img a) (img_ok a) (fun d => soft_total v d Hv)). Qed.
