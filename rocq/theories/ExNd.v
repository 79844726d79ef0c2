(** Concrete n-dimensional arrays used by the examples. *)
From Verif Require Import Base BaseLemmas CConv Spec Instances Lengths Dwt DwtProofs Swt Nd NdSpec Axis AxisProofs Multidim MultidimProofs ExBanks.

Definition jk : Z -> Zring := fun i => 1000 + i.
Definition x23 : sarr Zring := of_nd (mkNd (C := Zring) [2; 3] [1; 2; 3; 4; 5; 6]).
(** A 3x2 transposed view with gaps into a larger buffer. *)
Definition xt : sarr Zring := mkSarr (C := Zring) [9; 1; 9; 2; 9; 3; 9; 4; 9; 5; 9; 6] 1 [3; 2] [2; 6].
Definition d6 : sarr Zring := of_nd (mkNd (C := Zring) [6] [1; 2; 3; 4; 5; 6]).

Lemma x23_ok : sarr_ok Zring x23.
Proof. apply of_nd_ok. split; [repeat constructor; cbn; lia|reflexivity]. Qed.
Lemma d6_ok : sarr_ok Zring d6.
Proof. apply of_nd_ok. split; [repeat constructor; cbn; lia|reflexivity]. Qed.
Lemma xt_ok : sarr_ok Zring xt.
Proof.
  split; [repeat constructor; cbn; lia|]. split; [reflexivity|].
  intros [|i [|j [|k t]]]; cbn [valid xt sshape sstrides sbase smem dot]; try tauto. intros H. change (zlen _) with 12. lia.
Qed.
Lemma xt_no_overlap : no_overlap Zring xt.
Proof. intros [|i [|j [|k t]]] [|i' [|j' [|k' t']]]; cbn [valid xt sshape sstrides sbase smem dot]; try tauto. intros. repeat f_equal; lia. Qed.

Definition st0 : step Zring := (0%nat, (zbank2, SYMMETRIC)).
Definition st1 : step Zring := (1%nat, (zbank, PERIODIZATION)).

Lemma step_ok_ex : step_ok Zring 99 st0 [3; 2] /\ step_ok Zring 99 st1 [3; 2].
Proof. repeat split; cbn; try lia; vm_compute; congruence. Qed.

Lemma plan_good_ex : plan_good Zring 99 [16; 16] [3; 2] [st0; st1].
Proof.
  split; [reflexivity|]. split; [reflexivity|]. split; [repeat constructor; cbn; lia|].
  split; [intros [|[|[|k]]]; vm_compute; congruence|].
  split; [repeat constructor; cbn; intuition discriminate|].
  intros s [<-|[<-|[]]]; (split; [apply step_ok_ex|vm_compute; congruence]).
Qed.

Lemma repeated_axes_bad : exists (data : sarr Zring) w m axes,
  sarr_ok Zring data /\ pr_wavelet w /\ min_len m <= nthz 0 (sshape data) /\
  exists D r, dwtn 99 jk data (One w) (One m) axes = Ok D /\
    idwtn 99 jk (map (fun '(k, v) => (k, Some v)) D) (One w) (One m) axes = Ok (Some r) /\
    valid (sshape data) [5] /\ ndget (val Zring r) [5] <> ndget (val Zring data) [5].
Proof.
  exists d6, zbank, PERIODIZATION, (Some [0; 0]). split; [exact d6_ok|]. split; [exact zbank_pr|].
  split; [vm_compute; congruence|]. eexists _, _. split; [vm_compute; reflexivity|]. split; [vm_compute; reflexivity|].
  split; [cbn; lia|vm_compute; congruence].
Qed.
