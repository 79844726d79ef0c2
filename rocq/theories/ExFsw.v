(** Examples and counterexamples for the fully separable transform. *)
From Coq Require Import QArith Sorted.
From Verif Require Import Base BaseLemmas CConv Spec Instances Lengths Dwt DwtProofs Multilevel MultilevelProofs Swt Nd NdSpec Axis AxisProofs Multidim MultidimProofs MultidimFacts
  MultilevelNd MultilevelNdProofs SwtNd PackSpec Packing PackBox Fsw FswSpec FswLine FswAxis FswProofs FswBands FswWave ExBanks ExNd.
Open Scope Z_scope.

Definition fp0 : fstep (C := Zring) := mkFstep 0 2 zbank2 SYMMETRIC.
Definition fp1 : fstep (C := Zring) := mkFstep 1 1 zbank PERIODIZATION.
Definition fwv : per_axis (wavelet Zring) := Seq [zbank2; zbank].
Definition fmd : per_axis mode := Seq [SYMMETRIC; PERIODIZATION].
Definition flv : per_axis (option Z) := Seq [Some 2; Some 1].
Definition fax : option (list Z) := Some [0; -1].

Lemma fs_ex_resolves : fsw_resolves Zring (sshape xt) fwv fmd flv fax [fp0; fp1].
Proof.
  split; [|split; reflexivity]. split; repeat constructor; vm_compute; congruence.
Qed.
Lemma fs_ex_levels s : In s [fp0; fp1] -> levels_ok (fs_m s) (dec_len (fs_w s)) (fs_lev s) (nthz (fs_ax s) (sshape xt)).
Proof. intros [<-|[<-|[]]] j Hj; destruct j as [|[|j]]; try (vm_compute; congruence); cbn in Hj; lia. Qed.
Lemma fs_ex_good : fsw_good Zring 99 [16; 16] (sshape xt) [fp0; fp1].
Proof.
  split; [reflexivity|]. split; [reflexivity|]. split; [vm_compute; congruence|]. split; [repeat constructor; cbn; lia|].
  split; [intros [|[|[|k]]]; vm_compute; congruence|].
  split; [repeat constructor; cbn; intuition discriminate|].
  intros s Hs. split; [destruct Hs as [<-|[<-|[]]]; cbn; lia|]. split; [destruct Hs as [<-|[<-|[]]]; repeat split; vm_compute; congruence|].
  split; [destruct Hs as [<-|[<-|[]]]; vm_compute; congruence|]. split; [apply fs_ex_levels; auto|].
  destruct Hs as [<-|[<-|[]]]; repeat split; vm_compute; congruence.
Qed.
Lemma fs_ex_pr s : In s [fp0; fp1] -> pr_wavelet (fs_w s).
Proof. intros [<-|[<-|[]]]; [exact zbank2_pr|exact zbank_pr]. Qed.
Lemma fs_ex_key : is_key [fp0; fp1] [1; 1] /\ is_key [fp0; fp1] [2; 0].
Proof. split; repeat constructor; cbn; lia. Qed.
Lemma fs_ex_bad_key : ~ is_key [fp0; fp1] [3; 0] /\ ~ is_key [fp0; fp1] [0; -1] /\ ~ is_key [fp0; fp1] [0].
Proof. repeat split; intros H; inversion H as [|? ? ? ? H1 H2]; subst; inversion H2 as [|? ? ? ? H3 H4]; subst; cbn in *; lia. Qed.

Definition fs_ex : fsw (C := Zring) := fsw_result Zring (sshape xt) fax [fp0; fp1] (val Zring xt).
Lemma fs_ex_layout : layout Zring [fp0; fp1] (sshape xt) fs_ex.
Proof.
  eapply result_layout with (B := [16; 16]) (fuel := 99%nat); [apply val_wf; exact xt_ok|reflexivity|apply fs_ex_resolves|exact fs_ex_good].
Qed.

(** Along one axis. *)
Lemma fs_ex_good1 : fsw_good Zring 99 [16; 16] (sshape xt) [fp0].
Proof.
  destruct fs_ex_good as (H1 & H2 & H3 & H4 & H5 & _ & H7). repeat (split; [assumption|]). split; [repeat constructor; intros []|].
  intros q [<-|[]]. apply H7. left. reflexivity.
Qed.

(** Axes 0 and -1 of one-dimensional data are taken for different; the result
    cannot be inverted. *)
Lemma fsw_axes_bad : exists (data : sarr Zring) w m,
  sarr_ok Zring data /\ pr_wavelet w /\ ndim data = 1 /\
  exists r, fswavedecn 99 jk data (One w) (One m) (One (Some 1)) (Some [0; -1]) = Ok r /\ fswaverecn 99 jk r = Err ValueError.
Proof.
  exists d6, zbank, SYMMETRIC. split; [exact d6_ok|]. split; [exact zbank_pr|]. split; [reflexivity|].
  eexists. split; [vm_compute; reflexivity|vm_compute; reflexivity].
Qed.

(** Integer-valued floats pass the validation and then cannot be used. *)
Lemma fsw_float_bad : exists (r : fsw (C := Zring)) q, layout Zring [fp0; fp1] (sshape xt) r /\ (q == inject_Z 1)%Q /\
  validate_index r [NFloat q; NInt 0] = Ok tt /\ fs_get r [NFloat q; NInt 0] = Err TypeError /\ (exists b, fs_get r [NInt 1; NInt 0] = Ok b).
Proof.
  exists fs_ex, 1%Q. split; [exact fs_ex_layout|]. split; [reflexivity|]. split; [vm_compute; reflexivity|]. split; [vm_compute; reflexivity|eexists; vm_compute; reflexivity].
Qed.

Lemma ex_dup : ~ NoDup [0; 1; 0].
Proof. intros H. inversion H as [|? ? H1 _]; subst. apply H1. right. left. reflexivity. Qed.
Lemma ex_valid : Nd.valid (nshape (fs_coeffs fs_ex)) [3; 1].
Proof. repeat split; vm_compute; congruence. Qed.
Definition cs65 : list (sarr Zring) := match py_wavedec 99 jk xt zbank2 SYMMETRIC (Some 2) (-2) with Ok cs => cs | _ => [] end.
Definition r65 : sarr Zring := match py_waverec 99 jk (map Some cs65) zbank2 SYMMETRIC (-2) with Ok (Some r) => r | _ => xt end.
Lemma ex65 : sarr_ok Zring xt /\ ndim xt <= 64 /\ norm_axis (ndim xt) (-2) = Z.of_nat 0 /\ pr_wavelet zbank2 /\
  level_is 3 2 (Some 2) 2 /\ (forall s, In s [fp0] -> levels_ok SYMMETRIC (dec_len zbank2) 2 (nthz 0 (sshape xt))) /\ resources 99 3 2 /\
  fsw_good Zring 99 [16; 16] (sshape xt) [fp0] /\
  exists cs, py_wavedec 99 jk xt zbank2 SYMMETRIC (Some 2) (-2) = Ok cs /\ map (@sshape Zring) cs = [[1; 2]; [1; 2]; [2; 2]] /\
    exists r, py_waverec 99 jk (map Some cs) zbank2 SYMMETRIC (-2) = Ok (Some r) /\ val Zring r = mkNd (C := Zring) [4; 2] [1; 4; 2; 5; 3; 6; 3; 6].
Proof.
  split; [exact xt_ok|]. split; [vm_compute; congruence|]. split; [reflexivity|]. split; [exact zbank2_pr|]. split; [split; [lia|reflexivity]|].
  split; [intros _ _; apply (fs_ex_levels fp0); left; reflexivity|]. split; [split; vm_compute; congruence|]. split; [exact fs_ex_good1|].
  exists cs65. split; [vm_compute; reflexivity|]. split; [vm_compute; reflexivity|]. exists r65. split; vm_compute; reflexivity.
Qed.
