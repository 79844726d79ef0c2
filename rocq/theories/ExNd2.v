(** Concrete data for the examples of the multilevel n-D transforms. *)
From Coq Require Import String.
From Verif Require Import Base BaseLemmas CConv Spec Instances Lengths Dwt DwtProofs Multilevel MultilevelProofs Swt Nd NdSpec Axis AxisProofs Multidim MultidimProofs ExBanks ExNd MultilevelNd MultilevelNdProofs MultilevelNdFacts.

Definition ew : per_axis (wavelet Zring) := Seq [zbank2; zbank].
Definition em : per_axis mode := Seq [SYMMETRIC; PERIODIZATION].
Definition x33 : sarr Zring := of_nd (mkNd (C := Zring) [3; 3] [1; 2; 3; 4; 5; 6; 7; 8; 9]).
Lemma x33_ok : sarr_ok Zring x33.
Proof. apply of_nd_ok. split; [repeat constructor; cbn; lia|reflexivity]. Qed.

Lemma ex_resolves : resolves Zring (ndim xt) ew em (default_axes (ndim xt) (Some [0; -1])) [st0; st1].
Proof. repeat split; vm_compute; reflexivity. Qed.
Lemma ex_levels : forall s, In s [st0; st1] ->
  levels_ok (st_m Zring s) (dec_len (st_w Zring s)) (Z.to_nat 2) (nthz (st_ax Zring s) (sshape xt)).
Proof. intros s [<-|[<-|[]]] j Hj; destruct j as [|[|j]]; try (vm_compute; congruence); cbn in Hj; lia. Qed.

(** wavedecn_shapes and wavedecn choose different default levels. *)
Lemma shapes_default_bad : exists sh lens m,
  dwtn_max_level sh lens None = Ok 2 /\ wavedecn_shapes sh lens m None None = wavedecn_shapes sh lens m (Some 0) None /\
  wavedecn_shapes sh lens m (Some 0) None <> wavedecn_shapes sh lens m (Some 2) None.
Proof. exists [64; 8], (Seq [16; 2]), (One SYMMETRIC). repeat split; vm_compute; congruence. Qed.

(** waverec2 crops a coarsest approximation that is one too large, waverecn
    refuses it. *)
Lemma waverec2_crop_bad : exists (a d : sarr Zring) w m, sarr_ok Zring a /\ sarr_ok Zring d /\ pr_wavelet w /\
  (exists r, waverec2 99 jk (Some a) [(Some d, Some d, Some d)] (One w) (One m) [0; 1] = Ok r) /\
  waverecn 99 jk (Some a) [[("ad", Some d); ("da", Some d); ("dd", Some d)]%string] (One w) (One m) (Some [0; 1]) = Err ValueError.
Proof.
  exists x33, x23, zbank2, SYMMETRIC. split; [exact x33_ok|]. split; [exact x23_ok|]. split; [exact zbank2_pr|].
  split; [eexists; vm_compute; reflexivity|vm_compute; reflexivity].
Qed.
