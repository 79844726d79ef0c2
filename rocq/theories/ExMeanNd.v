(** Example data for the mean of n-dimensional data. *)
From Coq Require Import String List.
From Verif Require Import Base BaseLemmas CConv Spec Instances Lengths Dwt DwtProofs Nd NdSpec Axis AxisProofs Multidim MultidimProofs Multilevel MultilevelProofs Facts1 MultilevelNd MultilevelNdProofs MultilevelNdFacts ExBanks CyclicMain CyclicNd ParsevalNd
  CwtReal DenoiseSpec DenoiseReal DenoiseNdSpec DenoiseNd DenoiseNdReal ThreshC ThreshCSpec ThreshCProofs MeanSpec Mean MeanReal MeanNd MeanNdReal ExMean.
From Coq Require Import Reals Lra.
Import ListNotations.
Open Scope list_scope.

Open Scope Z_scope.
Definition zmplan : list (step Zring) := [(0%nat, (zmean, PERIODIZATION)); (1%nat, (zmean2, PERIODIZATION))].
Definition zmx : sarr Zring := of_nd (mkNd (C := Zring) [4; 4] [1; 2; 0; 5; 3; -1; 4; 4; 3; 0; 2; 2; 7; 7; 1; 9]).
Lemma zmx_ok : sarr_ok Zring zmx.
Proof. apply of_nd_ok. split; [repeat constructor; cbn; lia|reflexivity]. Qed.
Lemma zmx_good : plan_good Zring 99 [16; 16] (sshape zmx) zmplan.
Proof.
  split; [reflexivity|]. split; [reflexivity|]. split; [repeat constructor; cbn; lia|]. split; [intros [|[|[|k]]]; cbn; lia|]. split; [repeat constructor; cbn; intuition discriminate|].
  intros s [<-|[<-|[]]]; (split; [repeat split; cbn; try lia; congruence|cbn; lia]).
Qed.
Lemma zmx_per : periodized Zring zmplan (sshape zmx) 2.
Proof. intros s [<-|[<-|[]]]; (split; [reflexivity|]; split; [exact zmean_pr || exact zmean2_pr|exists 1; reflexivity]). Qed.

Open Scope R_scope.
Definition hplan : list (step Rring) := [(0%nat, (rhaar, PERIODIZATION)); (1%nat, (rhaar, PERIODIZATION))].
Definition himg : sarr Rring := of_nd (mkNd (C := Rring) [4; 4]%Z [1; 2; 0; 5; 3; -1; 4; 4; 3; 0; 2; 2; 7; 7; 1; 9]).
Lemma himg_ok : image_ok 99 (One rhaar) (One PERIODIZATION) [0; 1]%Z hplan [16; 16]%Z 2 himg.
Proof.
  split; [apply of_nd_ok; split; [repeat constructor; cbn; lia|reflexivity]|]. split; [split; vm_compute; congruence|]. split; [discriminate|]. split; [repeat split; reflexivity|].
  split; [repeat constructor; cbn; intuition lia|]. split.
  - split; [reflexivity|]. split; [reflexivity|]. split; [repeat constructor; cbn; lia|]. split; [intros [|[|[|k]]]; cbn; lia|]. split; [repeat constructor; cbn; intuition discriminate|].
    intros s [<-|[<-|[]]]; (split; [repeat split; cbn; try lia; congruence|cbn; lia]).
  - intros s [<-|[<-|[]]]; (split; [reflexivity|]; split; [exact rhaar_orthonormal|exists 1%Z; reflexivity]).
Qed.
Lemma himg_lowpass : lowpass_plan hplan.
Proof. intros s [<-|[<-|[]]]; exact rhaar_total. Qed.
Lemma himg_hard junk : exists y X X', image_denoised 99 junk (One rhaar) (One PERIODIZATION) [0; 1]%Z 2 3 "hard" himg y X X'.
Proof. exact (denoise_image 99 junk _ _ _ _ _ 2 3 "hard" himg himg_ok (hard_total 3)). Qed.
