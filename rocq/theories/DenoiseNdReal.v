(** Denoising of n-dimensional real data by thresholding the details. *)
From Coq Require Import String List.
From Verif Require Import Base BaseLemmas CConv Spec ExtLemmas Lengths Dwt DwtProofs Nd NdSpec Axis AxisProofs Multidim MultidimProofs MultidimFacts Multilevel MultilevelProofs Facts1 MultilevelNd MultilevelNdProofs MultilevelNdFacts
  CyclicMain CyclicNd ParsevalNd CwtReal FilterSpec FiltersProofs Denoise DenoiseSpec ThreshC ThreshCSpec ThreshCProofs DenoiseReal DenoiseNdSpec DenoiseNd DenoiseNdFlat.
From Coq Require Import Reals Lra Psatz.
Import ListNotations.
Open Scope list_scope.
Open Scope R_scope.

Notation image := (sarr Rring).
Notation details := (list (dict (sarr Rring))).
Notation elems v := (ndata (val Rring v) : list R).

(** threshold(d, v, mode) of every array of a dict. *)
Definition thr_dict (v : R) (mode : string) (d d' : dict image) : Prop :=
  Forall2 (fun p q => fst q = fst p /\ sarr_ok Rring (snd q) /\ sshape (snd q) = sshape (snd p) /\ thresholded v mode (elems (snd p)) (elems (snd q))) d d'.
(** Valid data for [N] levels with an orthonormal bank on every axis. *)
Definition image_ok (fuel : nat) (w : per_axis (wavelet Rring)) (m : per_axis mode) (axes : list Z) (plan : list (step Rring)) (B : list Z) (N : nat) (x : image) : Prop :=
  sarr_ok Rring x /\ (1 <= ndim x <= 64)%Z /\ plan <> [] /\ resolves Rring (ndim x) w m axes plan /\ NoDup axes /\ plan_good Rring fuel B (sshape x) plan /\ orthonormal_levels Rring plan (sshape x) N.
(** wavedecn, threshold(d, v, mode) of the details, waverecn. *)
Definition image_denoised (fuel : nat) (junk : Z -> Rring) (w : per_axis (wavelet Rring)) (m : per_axis mode) (axes : list Z) (N : nat) (v : R) (mode : string) (x y : image) (X X' : details) : Prop :=
  exists a, wavedecn fuel junk x w m (Some (Z.of_nat N)) (Some axes) = Ok (a, X) /\ Forall2 (thr_dict v mode) X X' /\
    waverecn fuel junk (Some a) (map (map (fun '(k, v) => (k, Some v))) X') w m (Some axes) = Ok (Some y) /\ sarr_ok Rring y /\ sshape y = sshape x.

Lemma thr_alike v mode X X' : Forall2 (thr_dict v mode) X X' -> Forall2 (alike (C := Rring)) X X'.
Proof.
  intros H. induction H as [|d e X X' H HF IH]; constructor; auto. clear - H. induction H as [|p q d e (E & O & S & T) H IH]; constructor; auto.
Qed.
Lemma thr_arrays v mode X X' : Forall2 (thr_dict v mode) X X' -> Forall2 (thresholded v mode) (arrays_of (C := Rring) X) (arrays_of (C := Rring) X').
Proof.
  intros H. unfold arrays_of. induction H as [|d e X X' H HF IH]; [constructor|]. cbn [map concat]. apply Forall2_app; auto. clear - H.
  induction H as [|p q d e (E & O & S & T) H IH]; constructor; auto.
Qed.
Lemma thr_one v mode (u : image) : sarr_ok Rring u -> (forall d, exists d', thresholded v mode d d') ->
  exists u', sarr_ok Rring u' /\ sshape u' = sshape u /\ thresholded v mode (elems u) (elems u').
Proof.
  intros Ou Ht. destruct (Ht (elems u)) as (d' & Hd). destruct (val_wf Rring u Ou) as (S & L). rewrite nshape_val in *.
  assert (W : nd_wf (mkNd (C := Rring) (sshape u) d')).
  { split; [exact S|]. cbn [ndata nshape]. rewrite <- L. pose proof (thr_length _ _ _ _ Hd) as HL. unfold zlen. change (car Rring) with R in *. rewrite <- HL. reflexivity. }
  exists (of_nd (mkNd (C := Rring) (sshape u) d')). split; [apply of_nd_ok; auto|]. split; [reflexivity|]. pose proof (val_of_nd Rring _ W) as E. change (car Rring) with R in *. rewrite E. exact Hd.
Qed.
Lemma thr_all v mode (X : details) : Forall (Forall (fun p => sarr_ok Rring (snd p))) X -> (forall d, exists d', thresholded v mode d d') -> exists X', Forall2 (thr_dict v mode) X X'.
Proof.
  intros H Ht. induction H as [|d X H HF (X' & IH)]; [exists []; constructor|].
  assert (G : exists d', thr_dict v mode d d').
  { clear - H Ht. induction H as [|(k & u) d Hu H (d' & IH)]; [exists []; constructor|]. destruct (thr_one v mode u Hu Ht) as (u' & O & S & T). exists ((k, u') :: d'). constructor; auto. }
  destruct G as (d' & Hd). exists (d' :: X'). constructor; auto.
Qed.

Section I.
Variable fuel : nat.
Variable junk : Z -> Rring.
Variable w : per_axis (wavelet Rring).
Variable m : per_axis mode.
Variable axes : list Z.
Variable plan : list (step Rring).
Variable B : list Z.
Variable N : nat.
Notation image_ok := (image_ok fuel w m axes plan B N).
Notation denoised := (image_denoised fuel junk w m axes N).
Notation dec z := (wavedecn fuel junk z w m (Some (Z.of_nat N)) (Some axes)).
Notation nddist x y := (nddist2 (C := Rring) (val Rring x) (val Rring y) : R).
Notation lists := (arrays_of (C := Rring)).

Lemma image_same x y : image_ok x -> sarr_ok Rring y -> sshape y = sshape x -> image_ok y.
Proof. intros (O & H1 & H2 & H3 & H4 & H5 & H6) Oy S. unfold DenoiseNdReal.image_ok, ndim in *. rewrite S. repeat (split; [assumption|]). assumption. Qed.
Lemma image_dist x y : image_ok x -> sarr_ok Rring y -> sshape y = sshape x ->
  exists a X b Y, dec x = Ok (a, X) /\ dec y = Ok (b, Y) /\ shapes (lists X) (lists Y) /\ 0 <= nddist a b /\ nddist x y = nddist a b + dist2s (C := Rring) (lists X) (lists Y).
Proof.
  intros (O & H1 & H2 & H3 & H4 & H5 & H6) Oy S.
  destruct (wavedecn_dist Rring fuel junk x x w m (Some axes) plan B N) as (a0 & X0 & a1 & X1 & E0 & E1 & _ & A0 & _); auto.
  destruct (wavedecn_dist Rring fuel junk x y w m (Some axes) plan B N) as (a & X & b & Y & Ea & Eb & Sb & A & D); auto.
  assert (X1 = X) by congruence. subst X1. pose proof (alike_ok Rring _ _ A0) as OX.
  destruct (wavedecn_value Rring fuel junk x w m (Some axes) plan B N) as (a' & Ea' & Oa & _); auto. assert (a' = a) by congruence. subst a'.
  assert (Hy : image_ok y) by (apply (image_same x); auto; repeat (split; [assumption|]); assumption). destruct Hy as (_ & I1 & I2 & I3 & I4 & I5 & I6).
  destruct (wavedecn_value Rring fuel junk y w m (Some axes) plan B N) as (b' & Eb' & Ob & _); auto.
  assert (b' = b) by congruence. subst b'.
  exists a, X, b, Y. split; auto. split; auto. split; [apply shape_flat; auto|]. split.
  - assert (Wa := val_wf Rring a Oa). rewrite (nddist2_flat Rring (val Rring a) (val Rring b)); [|exact Wa|exact Sb].
    apply dist2_ge0. destruct Wa as (_ & La). destruct (val_wf Rring b Ob) as (_ & Lb). rewrite !nshape_val in *. rewrite Sb in Lb. unfold zlen in *. change (car Rring) with R in *. lia.
  - rewrite <- D. rewrite (ddist2s_flat Rring X Y) by auto. reflexivity.
Qed.

Lemma denoise_image v mode x : image_ok x -> (forall d, exists d', thresholded v mode d d') -> exists y X X', denoised v mode x y X X'.
Proof.
  intros Hx Ht. pose proof Hx as (O & H1 & H2 & H3 & H4 & H5 & H6).
  destruct (wavedecn_dist Rring fuel junk x x w m (Some axes) plan B N) as (a & X & a1 & X1 & E0 & E1 & _ & A0 & _); auto.
  assert (X1 = X) by congruence. subst X1. destruct (thr_all v mode X (alike_ok Rring _ _ A0) Ht) as (X' & HX).
  destruct (wavedecn_value Rring fuel junk x w m (Some axes) plan B N) as (a' & Ea' & Oa & _); auto. assert (a' = a) by congruence. subst a'.
  destruct (waverecn_back Rring fuel junk x a a X X' w m axes plan B N) as (y & a2 & X2 & Er & Or & Sr & _); auto; [apply (thr_alike v mode); auto|].
  exists y, X, X', a. auto.
Qed.
Lemma denoised_back v mode x y X X' : image_ok x -> denoised v mode x y X X' ->
  exists a a2 X2, dec x = Ok (a, X) /\ dec y = Ok (a2, X2) /\ val Rring a2 = val Rring a /\ lists X2 = lists X' /\ nddist x y = dist2s (C := Rring) (lists X) (lists X').
Proof.
  intros Hx (a & E & F & Er & Oy & Sy). pose proof Hx as (O & H1 & H2 & H3 & H4 & H5 & H6).
  destruct (wavedecn_value Rring fuel junk x w m (Some axes) plan B N) as (a' & Ea' & Oa & _); auto. assert (a' = a) by congruence. subst a'.
  destruct (waverecn_back Rring fuel junk x a a X X' w m axes plan B N) as (y' & a2 & X2 & Er' & _ & _ & Ey & Va & Vx); auto; [apply (thr_alike v mode); auto|].
  assert (y' = y) by congruence. subst y'. exists a, a2, X2. split; auto. split; auto. split; auto. pose proof (arrays_vals Rring X2 X' Vx) as EX. split; auto.
  destruct (image_dist x y Hx Oy Sy) as (b & Y & b2 & Y2 & D1 & D2 & _ & _ & D). rewrite E in D1. rewrite Ey in D2. injection D1 as <- <-. injection D2 as <- <-.
  rewrite D, Va. rewrite (nddist2_flat Rring (val Rring a) (val Rring a)); [|apply val_wf; auto|reflexivity]. rewrite dist2_same. change (arrays_of (C := Rring) X2) with (lists X2). rewrite EX. lra.
Qed.
Lemma denoised_against v mode x y X X' z : image_ok x -> denoised v mode x y X X' -> sarr_ok Rring z -> sshape z = sshape x ->
  exists b E c, dec z = Ok (b, E) /\ shapes (lists X) (lists E) /\ 0 <= c /\ nddist x z = c + dist2s (C := Rring) (lists X) (lists E) /\ nddist y z = c + dist2s (C := Rring) (lists X') (lists E).
Proof.
  intros Hx Hd Oz Sz. destruct (denoised_back v mode x y X X' Hx Hd) as (a & a2 & X2 & E1 & E2 & Va & VX & _). destruct Hd as (_ & _ & _ & _ & Oy & Sy).
  destruct (image_dist x z Hx Oz Sz) as (b1 & Y1 & b2 & Y2 & D1 & D2 & D3 & D4 & D5).
  destruct (image_dist y z (image_same x y Hx Oy Sy) Oz ltac:(congruence)) as (c1 & W1 & c2 & W2 & F1 & F2 & _ & _ & F5).
  rewrite E1 in D1. injection D1 as <- <-. rewrite E2 in F1. injection F1 as <- <-. rewrite D2 in F2. injection F2 as <- <-.
  exists b2, Y2, (nddist a b2). split; auto. split; auto. split; auto. split; auto. rewrite F5, Va, VX. reflexivity.
Qed.

Theorem soft_image v x : image_ok x -> 0 < v -> exists y X X', denoised v "soft" x y X X' /\
  forall z, sarr_ok Rring z -> sshape z = sshape x -> exists b E, dec z = Ok (b, E) /\
    nddist x y / 2 + v * size1 (concat (lists X')) + nddist y z / 2 <= nddist x z / 2 + v * size1 (concat (lists E)).
Proof.
  intros Hx Hv. destruct (denoise_image v "soft" x Hx (fun d => soft_total v d Hv)) as (y & X & X' & Hd). exists y, X, X'. split; auto. intros z Oz Sz.
  destruct (denoised_against v "soft" x y X X' z Hx Hd Oz Sz) as (b & E & c & D1 & D2 & D3 & D4 & D5). exists b, E. split; auto.
  destruct (denoised_back v "soft" x y X X' Hx Hd) as (_ & _ & _ & _ & _ & _ & _ & D). destruct Hd as (_ & _ & F & _).
  pose proof (soft_lists v _ _ Hv (thr_arrays _ _ _ _ F) (lists E) D2) as K. rewrite D, D4, D5. change (car Rring) with R in *. revert K. clear. intros K. lra.
Qed.
Theorem hard_image v x : image_ok x -> 0 <= v -> exists y X X', denoised v "hard" x y X X' /\ nddist x y = small2 v (concat (lists X)) /\
  forall z, sarr_ok Rring z -> sshape z = sshape x -> exists b E, dec z = Ok (b, E) /\
    nddist x y + v * v * nonzeros (concat (lists X')) <= nddist x z + v * v * nonzeros (concat (lists E)).
Proof.
  intros Hx Hv. destruct (denoise_image v "hard" x Hx (hard_total v)) as (y & X & X' & Hd). exists y, X, X'. split; auto.
  destruct (denoised_back v "hard" x y X X' Hx Hd) as (_ & _ & _ & _ & _ & _ & _ & D). pose proof Hd as (_ & _ & F & _).
  destruct (hard_lists v _ _ Hv (thr_arrays _ _ _ _ F)) as (K0 & K). split; [rewrite D; exact K0|]. intros z Oz Sz.
  destruct (denoised_against v "hard" x y X X' z Hx Hd Oz Sz) as (b & E & c & D1 & D2 & D3 & D4 & D5). exists b, E. split; auto.
  specialize (K (lists E) D2). rewrite D, D4. change (car Rring) with R in *. revert K D3. clear. intros K D3. lra.
Qed.
Theorem soft_image_contraction v x1 x2 y1 y2 X1 X1' X2 X2' : image_ok x1 -> sarr_ok Rring x2 -> sshape x2 = sshape x1 -> 0 < v ->
  denoised v "soft" x1 y1 X1 X1' -> denoised v "soft" x2 y2 X2 X2' -> nddist y1 y2 <= nddist x1 x2.
Proof.
  intros Hx O2 S2 Hv D1 D2. pose proof (image_same x1 x2 Hx O2 S2) as Hx2.
  destruct (denoised_back v "soft" x1 y1 X1 X1' Hx D1) as (a1 & b1 & Y1 & E1 & G1 & Va1 & VX1 & _). destruct (denoised_back v "soft" x2 y2 X2 X2' Hx2 D2) as (a2 & b2 & Y2 & E2 & G2 & Va2 & VX2 & _).
  pose proof D1 as (_ & _ & F1 & _ & Oy1 & Sy1). pose proof D2 as (_ & _ & F2 & _ & Oy2 & Sy2).
  destruct (image_dist x1 x2 Hx O2 S2) as (? & ? & ? & ? & P1 & P2 & P3 & _ & P5).
  destruct (image_dist y1 y2 (image_same x1 y1 Hx Oy1 Sy1) Oy2 ltac:(congruence)) as (? & ? & ? & ? & Q1 & Q2 & _ & _ & Q5).
  rewrite E1 in P1. rewrite E2 in P2. rewrite G1 in Q1. rewrite G2 in Q2. injection P1 as <- <-. injection P2 as <- <-. injection Q1 as <- <-. injection Q2 as <- <-.
  pose proof (contract_lists v _ _ _ _ Hv (thr_arrays _ _ _ _ F1) (thr_arrays _ _ _ _ F2) P3) as K. rewrite P5, Q5, Va1, Va2, VX1, VX2. change (car Rring) with R in *. revert K. clear. intros K. lra.
Qed.
End I.
