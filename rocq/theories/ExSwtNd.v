(** Concrete arrays for the n-dimensional stationary transform. *)
From Coq Require Import QArith Qcanon Ascii String ZArith List. Import ListNotations. Local Open Scope Z_scope.
From Verif Require Import Base BaseLemmas CConv Spec SwtSpec Instances Lengths Dwt DwtProofs Swt SwtProofs Nd NdSpec Axis AxisProofs AxisProofs2 NdLinear Multidim MultidimProofs MultilevelNd SwtNd NdSwtSpec SwtNdLevel SwtNdFwd ExBanks ExBanks2 ExNd.
From Coq Require Import Permutation.

(** A 4x2 transposed view with gaps. *)
Definition x42 : sarr Zring := mkSarr (C := Zring) [9; 1; 9; 2; 9; 3; 9; 4; 9; 5; 9; 6; 9; 7; 9; 8] 1 [4; 2] [2; 8].
Lemma x42_ok : sarr_ok Zring x42.
Proof.
  split; [repeat constructor; cbn; lia|]. split; [reflexivity|].
  intros [|i [|j [|k t]]]; cbn [valid x42 sshape sstrides sbase smem dot]; try tauto. intros H. change (zlen _) with 16. lia.
Qed.
Definition z42 (l : list Zring) : sarr Zring := of_nd (mkNd (C := Zring) [4; 2] l).

Definition plan2 : list (nat * wavelet Zring) := [(0%nat, zbank2); (1%nat, zbank2)].
Lemma plan2_ok : swt_plan_ok 99 1 [4; 2] plan2.
Proof.
  split; [discriminate|]. split; [vm_compute; reflexivity|]. split; [repeat constructor; cbn; intuition discriminate|].
  intros p [<-|[<-|[]]]; cbn [fst snd].
  - split; [cbn; lia|]. split; [vm_compute; congruence|]. split; [exists 2; reflexivity|]. split; [exact (pr_wf _ zbank2_pr)|]. repeat split; vm_compute; congruence.
  - split; [cbn; lia|]. split; [vm_compute; congruence|]. split; [exists 1; reflexivity|]. split; [exact (pr_wf _ zbank2_pr)|]. repeat split; vm_compute; congruence.
Qed.
Lemma plan2_perm_ok : swt_plan_ok 99 1 [4; 2] (rev plan2).
Proof.
  destruct plan2_ok as (_ & H2 & _ & H4). split; [discriminate|]. split; [exact H2|]. split; [repeat constructor; cbn; intuition discriminate|].
  intros p Hp. apply H4. apply in_rev. exact Hp.
Qed.
Lemma plan2_resolves : swt_resolves 2 (One zbank2) [0; -1] plan2.
Proof. split; reflexivity. Qed.

Definition jq : Z -> QS2 := fun i => qsz (1000 + i).
Definition q22 (l : list Z) : sarr QS2 := of_nd (mkNd (C := QS2) [2; 2] (map qsz l)).
Definition x22 : sarr QS2 := q22 [3; 1; 4; 1].
Lemma x22_ok : sarr_ok QS2 x22.
Proof. apply of_nd_ok. split; [repeat constructor; cbn; lia|reflexivity]. Qed.
Definition shownd (x : sarr QS2) : list Z * list (Q * Q) := (sshape x, map show (ndata (val QS2 x))).
Definition planq : list (nat * wavelet QS2) := [(0%nat, haar); (1%nat, haar)].
Lemma planq_ok : swt_plan_ok 99 1 [2; 2] planq.
Proof.
  split; [discriminate|]. split; [vm_compute; reflexivity|]. split; [repeat constructor; cbn; intuition discriminate|].
  intros p [<-|[<-|[]]]; cbn [fst snd]; (split; [cbn; lia|]; split; [vm_compute; congruence|]; split; [exists 1; reflexivity|]; split; [exact (pr_wf _ haar_pr)|]; repeat split; vm_compute; congruence).
Qed.
Lemma planq_resolves : swt_resolves 2 (One haar) [0; 1] planq.
Proof. split; reflexivity. Qed.
Lemma planq_pr : forall p, In p planq -> pr_wavelet (snd p).
Proof. intros p [<-|[<-|[]]]; exact haar_pr. Qed.
Lemma halfs_ok : halfs [+] halfs = (r1 : QS2) /\ sqrt2 [*] isqrt2 = (r1 : QS2).
Proof. split; vm_compute; f_equal; apply Qc_is_canon; reflexivity. Qed.

(** iswtn adds the dimension once to a negative axis and indexes with what comes out. *)
Lemma iswtn_axis_low : exists (data : sarr QS2) axes a, sarr_ok QS2 data /\ ndim data = 2 /\ In a axes /\ a < - ndim data /\
  (cs <- swtn 99 jq data (One haar) 1 0 (Some [1]) false None ;; r <- snd (iswtn 99 jq halfs cs (One haar) (Some axes) None) ;; Ok (shownd r)) = Ok (shownd data).
Proof.
  exists x22, [-3], (-3). split; [exact x22_ok|]. split; [reflexivity|]. split; [left; reflexivity|]. split; [reflexivity|]. vm_compute. reflexivity.
Qed.
