(** Concrete arrays for the n-dimensional multiresolution analysis. *)
From Coq Require Import QArith Qcanon Ascii String ZArith List. Import ListNotations. Local Open Scope Z_scope.
From Verif Require Import Base BaseLemmas CConv Spec SwtSpec Instances Lengths Dwt DwtProofs Swt SwtProofs Nd NdSpec Axis AxisProofs AxisProofs2 NdLinear Multidim MultidimProofs MultilevelNd SwtNd NdSwtSpec SwtNdLevel SwtNdFwd ExBanks ExBanks2 ExNd Mra ExSwtNd MranLoop MranTerms.

Definition show_n (r : res (sarr QS2 * list (dict (sarr QS2)))) := '(a, ds) <- r ;; Ok (shownd a, map (map (fun '(k, v) => (k, shownd v))) ds).
Definition show_2 (r : res (sarr QS2 * list (list (sarr QS2)))) := '(a, ds) <- r ;; Ok (shownd a, map (map shownd) ds).

Definition q2c (n : Z) (l : list Z) : sarr QS2 := of_nd (mkNd (C := QS2) [2; n] (map qsz l)).
Definition x23q : sarr QS2 := q2c 3 [3; 1; 4; 1; 5; 9].
Definition x221 : sarr QS2 := of_nd (mkNd (C := QS2) [2; 2; 1] (map qsz [3; 1; 4; 1])).
Lemma x23q_ok : sarr_ok QS2 x23q.
Proof. apply of_nd_ok. split; [repeat constructor; cbn; lia|reflexivity]. Qed.
Lemma x221_ok : sarr_ok QS2 x221.
Proof. apply of_nd_ok. split; [repeat constructor; cbn; lia|reflexivity]. Qed.

Lemma is_ok {A} (r : res A) : match r with Ok _ => true | _ => false end = true -> exists x, r = Ok x.
Proof. destruct r; try discriminate. eauto. Qed.
Lemma is_one {A B} (r : res (A * list B)) : match r with Ok (_, [_]) => true | _ => false end = true -> exists a d, r = Ok (a, [d]).
Proof. destruct r as [[a [|d [|? ?]]]| | |]; try discriminate. eauto. Qed.
Lemma is_nil {A B} (r : res (A * list B)) : match r with Ok (_, []) => true | _ => false end = true -> exists a, r = Ok (a, []).
Proof. destruct r as [[a [|? ?]]| | |]; try discriminate. eauto. Qed.
Lemma is_err {A} (r : res A) e : match r with Err e' => e' =? e | _ => false end = true -> r = Err e.
Proof. destruct r; try discriminate. intros H. apply Z.eqb_eq in H. congruence. Qed.

(** One level fits axis 0 (size 2); the default level looks at axis 1 as well (size 3). *)
Lemma mran_default_bad : exists (data : sarr QS2) w ax l, sarr_ok QS2 data /\ pr_wavelet w /\
  swt_max_level (nthz (Z.to_nat ax) (sshape data)) = Ok l /\ 1 <= l /\
  (exists r, mran 99 jq halfs sqrt2 isqrt2 data (One w) (Some l) (Some [ax]) TSwt (One PERIODIZATION) = Ok r) /\
  mran 99 jq halfs sqrt2 isqrt2 data (One w) None (Some [ax]) TSwt (One PERIODIZATION) = Err ValueError.
Proof.
  exists x23q, haar, 0, 1. split; [exact x23q_ok|]. split; [exact haar_pr|]. split; [reflexivity|]. split; [lia|].
  split; [apply is_ok; vm_compute; reflexivity|apply is_err; vm_compute; reflexivity].
Qed.
(** The third axis has size 1: no level at all is made. *)
Lemma mra2_default_bad : exists (data : sarr QS2) w ax1 ax2 l, sarr_ok QS2 data /\ pr_wavelet w /\
  swt_max_level (nthz (Z.to_nat ax1) (sshape data)) = Ok l /\ swt_max_level (nthz (Z.to_nat ax2) (sshape data)) = Ok l /\ 1 <= l /\
  (exists a d, mra2 99 jq halfs sqrt2 isqrt2 data (One w) (Some l) [ax1; ax2] TSwt (One PERIODIZATION) = Ok (a, [d])) /\
  exists a, mra2 99 jq halfs sqrt2 isqrt2 data (One w) None [ax1; ax2] TSwt (One PERIODIZATION) = Ok (a, []).
Proof.
  exists x221, haar, 0, 1, 1. split; [exact x221_ok|]. split; [exact haar_pr|]. split; [reflexivity|]. split; [reflexivity|]. split; [lia|].
  split; [apply is_one; vm_compute; reflexivity|apply is_nil; vm_compute; reflexivity].
Qed.
Lemma depth_ex : common_depth [4; 6] 1.
Proof.
  split; [discriminate|]. split; [lia|]. split.
  - intros s [<-|[<-|[]]]; (split; [lia|]); [exists 2|exists 3]; reflexivity.
  - exists 6. split; [right; left; auto|]. intros [q Hq]. change (2 ^ (1 + 1)) with 4 in Hq. lia.
Qed.
