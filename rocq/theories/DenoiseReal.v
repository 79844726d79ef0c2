(** Denoising of real data by thresholding the details: what it minimises. *)
From Coq Require Import String List.
From Verif Require Import Base BaseLemmas CConv Spec ExtLemmas Lengths Dwt DwtProofs Multilevel MultilevelProofs Facts1 CwtReal FilterSpec FiltersProofs CyclicMain Denoise DenoiseSpec ThreshC ThreshCSpec ThreshCProofs.
From Coq Require Import Reals Lra Psatz.
Import ListNotations.
Open Scope list_scope.
Open Scope R_scope.

Definition real_ (x : R) : cnum := (x, 0).
(** threshold(d, v, mode) is d'. *)
Definition thresholded (v : R) (mode : string) (d d' : list R) : Prop :=
  threshold_c (map real_ d) v mode (0, 0) = Ok (map (fun x => Some (real_ x)) d').

(** * Lists of real numbers *)
Lemma dist2_cons (x y : R) u v : dist2 (C := Rring) (x :: u) (y :: v) = (x - y) * (x - y) + dist2 (C := Rring) u v.
Proof.
  unfold dist2. rewrite zlen_cons. change (car Rring) with R. pose proof (zlen_nonneg u) as H0. rewrite sumZ_first by lia.
  change ((x - y) * (x - y) + sumZ (C := Rring) (0 + 1) (zlen u + 1) (fun i => (gz (C := Rring) (x :: u) i - gz (C := Rring) (y :: v) i) * (gz (C := Rring) (x :: u) i - gz (C := Rring) (y :: v) i)) =
    (x - y) * (x - y) + sumZ (C := Rring) 0 (zlen u) (fun i => (gz (C := Rring) u i - gz (C := Rring) v i) * (gz (C := Rring) u i - gz (C := Rring) v i))).
  f_equal. rewrite (sumZ_shift Rring 0 (zlen u) 1). change (car Rring) with R. replace (0 + 1)%Z with 1%Z by lia. apply (sumZ_ext Rring). intros i Hi.
  assert (G : forall (z : Rring) (l : list Rring), gz (z :: l) i = gz l (i - 1)).
  { intros z l. unfold gz. replace (0 <=? i)%Z with true by lia. replace (0 <=? i - 1)%Z with true by lia. replace (Z.to_nat i) with (S (Z.to_nat (i - 1))) by lia. reflexivity. }
  change (gz (C := Rring) (x :: u) i) with (gz (C := Rring) ((x : Rring) :: (u : list Rring)) i). pose proof (G x u) as G1. pose proof (G y v) as G2. change (car Rring) with R in *. rewrite G1, G2. reflexivity.
Qed.
Lemma dist2_nil (v : list R) : dist2 (C := Rring) [] v = 0. Proof. reflexivity. Qed.
Lemma dist2_ge0 (u : list R) : forall v, length u = length v -> 0 <= dist2 (C := Rring) u v.
Proof.
  induction u as [|x u IH]; intros [|y v] HL; try discriminate; [rewrite dist2_nil; lra|]. rewrite dist2_cons. specialize (IH v ltac:(injection HL; auto)). apply Rplus_le_le_0_compat; [apply Rle_0_sqr|exact IH].
Qed.
Lemma dist2_same (u : list R) : dist2 (C := Rring) u u = 0.
Proof. induction u as [|x u IH]; [apply dist2_nil|]. rewrite dist2_cons, IH. change (@eq R ((x - x) * (x - x) + 0) 0). ring. Qed.
Lemma size1_app a b : size1 (a ++ b) = size1 a + size1 b.
Proof. induction a as [|x a IH]; cbn [app size1]; [lra|]. rewrite IH. lra. Qed.
Lemma nonzeros_app a b : nonzeros (a ++ b) = nonzeros a + nonzeros b.
Proof. induction a as [|x a IH]; cbn [app nonzeros]; [lra|]. rewrite IH. lra. Qed.
Lemma small2_app v a b : small2 v (a ++ b) = small2 v a + small2 v b.
Proof. induction a as [|x a IH]; cbn [app small2]; [lra|]. rewrite IH. lra. Qed.

(** * One coefficient *)
Lemma norm_real x : norm (real_ x) = Rabs x.
Proof. unfold norm, real_. cbn [fst snd]. replace (x ^ 2 + 0 ^ 2) with (Rsqr x) by (unfold Rsqr; ring). apply sqrt_Rsqr_abs. Qed.
Lemma distc_real x u : distc (real_ x) (real_ u) ^ 2 = (x - u) * (x - u).
Proof.
  unfold distc. replace (fst (real_ x) - fst (real_ u), snd (real_ x) - snd (real_ u)) with (real_ (x - u)) by (unfold real_; cbn [fst snd]; f_equal; ring).
  rewrite norm_real, pow2_abs. ring.
Qed.
Lemma soft_real v x : 0 < v -> exists p, csoft1 v (0, 0) (real_ x) = Some (real_ p) /\ soft_point v (real_ x) = real_ p.
Proof.
  intros Hv. unfold csoft1. destruct (is0_spec (0, 0)) as [(_ & ->)|(E & _)]; [|tauto]. rewrite csoft1_point by auto.
  destruct (soft_point_shrunk v (real_ x) Hv) as (t & _ & ->). exists (t * x). unfold real_. cbn [fst snd]. rewrite Rmult_0_r. auto.
Qed.
Lemma soft_cost v x p u : 0 < v -> soft_point v (real_ x) = real_ p ->
  (x - p) * (x - p) / 2 + v * Rabs p + (p - u) * (p - u) / 2 <= (x - u) * (x - u) / 2 + v * Rabs u.
Proof.
  intros Hv E. pose proof (soft_point_prox v (real_ x) (real_ u) Hv) as H. rewrite E in H. unfold l1_cost in H. rewrite !distc_real, !norm_real in H.
  replace ((p - u) * (p - u)) with ((u - p) * (u - p)) by ring. lra.
Qed.
Lemma hard_real v x : exists p, chard1 v (0, 0) (real_ x) = Some (real_ p) /\ ((Rabs x < v /\ p = 0) \/ (v <= Rabs x /\ p = x)).
Proof.
  unfold chard1, cless. rewrite <- norm_cabs, norm_real. destruct (rltb_spec (Rabs x) v) as [(L & ->)|(L & ->)]; [exists 0|exists x]; auto.
Qed.
Lemma hard_cost v x p u : 0 <= v -> (Rabs x < v /\ p = 0) \/ (v <= Rabs x /\ p = x) ->
  (x - p) * (x - p) + v * v * (if Req_EM_T p 0 then 0 else 1) <= (x - u) * (x - u) + v * v * (if Req_EM_T u 0 then 0 else 1).
Proof.
  intros Hv H. pose proof (Rabs_pos x) as A0. assert (A1 : x * x = Rabs x * Rabs x) by (pose proof (pow2_abs x); lra).
  assert (A2 : 0 <= (x - u) * (x - u)) by apply Rle_0_sqr.
  destruct (Req_EM_T u 0) as [->|U]; destruct H as [(L & ->)|(L & ->)].
  - destruct (Req_EM_T 0 0); [lra|tauto].
  - destruct (Req_EM_T x 0); nra.
  - destruct (Req_EM_T 0 0); [|tauto]. nra.
  - destruct (Req_EM_T x 0); nra.
Qed.

(** * One list *)
Lemma thr_cons v mode f d d' : (forall l, threshold_c l v mode (0, 0) = Ok (map f l)) -> thresholded v mode d d' -> Forall2 (fun x y => f (real_ x) = Some (real_ y)) d d'.
Proof.
  intros E H. unfold thresholded in H. rewrite E in H. injection H as H. revert d' H.
  induction d as [|x d IH]; intros [|y d'] H; try discriminate; constructor; [|apply IH]; cbn [map] in H; congruence.
Qed.
Lemma thr_make v mode f d : (forall l, threshold_c l v mode (0, 0) = Ok (map f l)) -> (forall x, exists p, f (real_ x) = Some (real_ p)) -> exists d', thresholded v mode d d'.
Proof.
  intros E H. unfold thresholded. setoid_rewrite E. induction d as [|x d (d' & IH)]; [exists []; reflexivity|]. destruct (H x) as (p & Hp). exists (p :: d'). cbn [map]. injection IH as IH. rewrite Hp, IH. reflexivity.
Qed.
Lemma soft_is v l : threshold_c l v "soft" (0, 0) = Ok (map (csoft1 v (0, 0)) l). Proof. reflexivity. Qed.
Lemma hard_is v l : threshold_c l v "hard" (0, 0) = Ok (map (chard1 v (0, 0)) l). Proof. reflexivity. Qed.
Lemma thr_length v mode d d' : thresholded v mode d d' -> length d = length d'.
Proof.
  unfold thresholded, threshold_c. destruct (find _ _) as [(k & [f|])|]; intros H; try discriminate. injection H as H.
  apply (f_equal (@List.length _)) in H. rewrite !map_length in H. exact H.
Qed.
Lemma soft_list v d d' : 0 < v -> thresholded v "soft" d d' -> forall e, length e = length d ->
  dist2 (C := Rring) d d' / 2 + v * size1 d' + dist2 (C := Rring) d' e / 2 <= dist2 (C := Rring) d e / 2 + v * size1 e.
Proof.
  intros Hv H. apply (thr_cons v "soft" _ d d' (soft_is v)) in H. induction H as [|x p d d' E H IH]; intros [|u e] HL; try discriminate; [rewrite !dist2_nil; cbn [size1]; lra|].
  rewrite !dist2_cons. cbn [size1]. specialize (IH e ltac:(injection HL; auto)). destruct (soft_real v x Hv) as (q & E1 & E2). rewrite E in E1.
  assert (p = q) by (unfold real_ in E1; congruence). subst q. pose proof (soft_cost v x p u Hv E2). lra.
Qed.
Lemma hard_list v d d' : 0 <= v -> thresholded v "hard" d d' -> dist2 (C := Rring) d d' = small2 v d /\ forall e, length e = length d ->
  dist2 (C := Rring) d d' + v * v * nonzeros d' <= dist2 (C := Rring) d e + v * v * nonzeros e.
Proof.
  intros Hv H. apply (thr_cons v "hard" _ d d' (hard_is v)) in H. induction H as [|x p d d' E H (IH0 & IH)].
  - split; [reflexivity|]. intros [|u e] HL; try discriminate. rewrite !dist2_nil. cbn [nonzeros]. lra.
  - destruct (hard_real v x) as (q & E1 & E2). rewrite E in E1. assert (p = q) by (unfold real_ in E1; congruence). subst q. split.
    + rewrite dist2_cons, IH0. cbn [small2]. f_equal. destruct (Rlt_dec (Rabs x) v); destruct E2 as [(L & ->)|(L & ->)]; try lra; ring.
    + intros [|u e] HL; try discriminate. rewrite !dist2_cons. cbn [nonzeros]. specialize (IH e ltac:(injection HL; auto)).
      pose proof (hard_cost v x p u Hv E2). rewrite !Rmult_plus_distr_l. lra.
Qed.
Lemma soft_contract v d1 d1' d2 d2' : 0 < v -> thresholded v "soft" d1 d1' -> thresholded v "soft" d2 d2' -> length d1 = length d2 ->
  dist2 (C := Rring) d1' d2' <= dist2 (C := Rring) d1 d2.
Proof.
  intros Hv H1 H2. apply (thr_cons v "soft" _ _ _ (soft_is v)) in H1. apply (thr_cons v "soft" _ _ _ (soft_is v)) in H2. revert d2 d2' H2.
  induction H1 as [|x p d1 d1' E1 H1 IH]; intros d2 d2' H2 HL; destruct H2 as [|y q d2 d2' E2 H2]; try discriminate; [rewrite !dist2_nil; lra|].
  rewrite !dist2_cons. specialize (IH d2 d2' H2 ltac:(injection HL; auto)).
  destruct (soft_real v x Hv) as (p' & F1 & F2). rewrite E1 in F1. assert (p = p') by (unfold real_ in F1; congruence). subst p'.
  destruct (soft_real v y Hv) as (q' & G1 & G2). rewrite E2 in G1. assert (q = q') by (unfold real_ in G1; congruence). subst q'.
  pose proof (soft_point_contract v (real_ x) (real_ y) Hv) as K. rewrite F2, G2 in K.
  assert (0 <= distc (real_ p) (real_ q)) by apply norm_ge0. pose proof (distc_real p q). pose proof (distc_real x y). nra.
Qed.

(** * All levels *)
Notation rlists := (list (list R)).
Lemma dist2s_cons (u v : list R) X Y : dist2s (C := Rring) (u :: X) (v :: Y) = dist2 (C := Rring) u v + dist2s (C := Rring) X Y. Proof. reflexivity. Qed.
Definition shapes (X Y : rlists) : Prop := same_shape Rring X Y.
Lemma shapes_cons u v X Y : shapes (u :: X) (v :: Y) -> length u = length v /\ shapes X Y.
Proof. intros H. inversion H; subst. split; auto. unfold zlen in *. change (car Rring) with R in *. lia. Qed.
Lemma thr_shapes v mode X Y : Forall2 (thresholded v mode) X Y -> shapes X Y.
Proof. intros H. induction H as [|d d' X Y E H IH]; constructor; auto. unfold zlen. change (car Rring) with R. f_equal. eapply thr_length; eauto. Qed.
Lemma soft_lists v X X' : 0 < v -> Forall2 (thresholded v "soft") X X' -> forall E, shapes X E ->
  dist2s (C := Rring) X X' / 2 + v * size1 (concat X') + dist2s (C := Rring) X' E / 2 <= dist2s (C := Rring) X E / 2 + v * size1 (concat E).
Proof.
  intros Hv H. induction H as [|d d' X X' H HF IH]; intros [|e E] HS; try (inversion HS; fail); [cbn; lra|].
  destruct (shapes_cons _ _ _ _ HS) as (HL & HS'). rewrite !dist2s_cons. cbn [concat]. rewrite !size1_app. specialize (IH E HS').
  pose proof (soft_list v d d' Hv H e (eq_sym HL)). lra.
Qed.
Lemma hard_lists v X X' : 0 <= v -> Forall2 (thresholded v "hard") X X' -> dist2s (C := Rring) X X' = small2 v (concat X) /\ forall E, shapes X E ->
  dist2s (C := Rring) X X' + v * v * nonzeros (concat X') <= dist2s (C := Rring) X E + v * v * nonzeros (concat E).
Proof.
  intros Hv H. induction H as [|d d' X X' H HF (IH0 & IH)]; [split; [reflexivity|intros [|e E] HS; [cbn; lra|inversion HS]]|].
  destruct (hard_list v d d' Hv H) as (H0 & H1). split; [rewrite dist2s_cons; cbn [concat]; rewrite small2_app, H0, IH0; reflexivity|].
  intros [|e E] HS; [inversion HS|]. destruct (shapes_cons _ _ _ _ HS) as (HL & HS'). rewrite !dist2s_cons. cbn [concat]. rewrite !nonzeros_app. specialize (IH E HS').
  specialize (H1 e (eq_sym HL)). lra.
Qed.
Lemma contract_lists v X X' Y Y' : 0 < v -> Forall2 (thresholded v "soft") X X' -> Forall2 (thresholded v "soft") Y Y' -> shapes X Y ->
  dist2s (C := Rring) X' Y' <= dist2s (C := Rring) X Y.
Proof.
  intros Hv H. revert Y Y'. induction H as [|d d' X X' H HF IH]; intros Y Y' G HS; destruct G as [|e e' Y Y' G GF]; try (inversion HS; fail); [cbn; lra|].
  destruct (shapes_cons _ _ _ _ HS) as (HL & HS'). rewrite !dist2s_cons. specialize (IH Y Y' GF HS'). pose proof (soft_contract v d d' e e' Hv H G HL). lra.
Qed.
Lemma thr_lists v mode X : (forall d, exists d', thresholded v mode d d') -> exists X', Forall2 (thresholded v mode) X X'.
Proof. intros H. induction X as [|d X (X' & IH)]; [exists []; constructor|]. destruct (H d) as (d' & Hd). exists (d' :: X'). constructor; auto. Qed.
Lemma soft_total v d : 0 < v -> exists d', thresholded v "soft" d d'.
Proof. intros Hv. apply (thr_make v "soft" _ d (soft_is v)). intros x. destruct (soft_real v x Hv) as (p & E & _). exists p. exact E. Qed.
Lemma hard_total v d : exists d', thresholded v "hard" d d'.
Proof. apply (thr_make v "hard" _ d (hard_is v)). intros x. destruct (hard_real v x) as (p & E & _). exists p. exact E. Qed.

(** * Denoising *)
(** wavedec, threshold(d, v, mode) of the details, waverec. *)
Definition denoised (fuel : nat) (w : wavelet Rring) (N : nat) (v : R) (mode : string) (x y : list R) (ds ds' : rlists) : Prop :=
  exists a, wavedec (C := Rring) fuel x w PERIODIZATION (Some (Z.of_nat N)) = Ok (a :: ds) /\ Forall2 (thresholded v mode) ds ds' /\
    waverec (C := Rring) fuel (map Some (a :: ds')) w PERIODIZATION = Ok (Some y) /\ zlen y = zlen x.
(** Valid data for [N] levels. *)
Definition data_ok (fuel : nat) (w : wavelet Rring) (N : nat) (x : list R) : Prop :=
  (1 <= zlen x)%Z /\ (2 ^ Z.of_nat N | zlen x)%Z /\ resources fuel (zlen x) (dec_len w).

Lemma denoised_dist fuel w N v mode x y ds ds' : orthonormal w -> data_ok fuel w N x -> denoised fuel w N v mode x y ds ds' ->
  exists a, wavedec (C := Rring) fuel x w PERIODIZATION (Some (Z.of_nat N)) = Ok (a :: ds) /\
    wavedec (C := Rring) fuel y w PERIODIZATION (Some (Z.of_nat N)) = Ok (a :: ds') /\ zlen y = zlen x /\ shapes ds ds' /\ dist2 (C := Rring) x y = dist2s (C := Rring) ds ds'.
Proof.
  intros Ho (H1 & H2 & H3) (a & E & F & Rw & L). exists a. split; auto. pose proof (thr_shapes _ _ _ _ F) as HS.
  destruct (waverec_changed Rring fuel x w N (a :: ds) (a :: ds') Ho H1 H2 H3 E) as (y' & Rw' & L' & W & D).
  { constructor; auto. }
  change (car Rring) with R in *. assert (y' = y) by congruence. subst y'. split; auto. split; auto. split; auto.
  rewrite D. etransitivity; [apply dist2s_cons|]. rewrite dist2_same. lra.
Qed.
Lemma denoise_total fuel w N v mode x : orthonormal w -> data_ok fuel w N x -> (forall d, exists d', thresholded v mode d d') ->
  exists y ds ds', denoised fuel w N v mode x y ds ds'.
Proof.
  intros Ho (H1 & H2 & H3) Ht. destruct (wavedec_shape Rring fuel x w N (proj1 Ho) H1 H2 H3) as (a & ds & E & _).
  destruct (thr_lists v mode ds Ht) as (ds' & F). destruct (waverec_changed Rring fuel x w N (a :: ds) (a :: ds') Ho H1 H2 H3 E) as (y & Rw & L & W & D).
  { constructor; auto. apply (thr_shapes _ _ _ _ F). }
  exists y, ds, ds', a. auto.
Qed.
(** Against any other data [z]. *)
Lemma denoised_other fuel w N v mode x y ds ds' z : orthonormal w -> data_ok fuel w N x -> denoised fuel w N v mode x y ds ds' -> zlen z = zlen x ->
  exists b es, wavedec (C := Rring) fuel z w PERIODIZATION (Some (Z.of_nat N)) = Ok (b :: es) /\ shapes ds es /\
    exists c, 0 <= c /\ dist2 (C := Rring) x z = c + dist2s (C := Rring) ds es /\ dist2 (C := Rring) y z = c + dist2s (C := Rring) ds' es.
Proof.
  intros Ho Hx Hd Hz. destruct (denoised_dist fuel w N v mode x y ds ds' Ho Hx Hd) as (a & E & E' & L & HS & D). destruct Hx as (H1 & H2 & H3).
  destruct (wavedec_dist Rring fuel x z w N Ho H1 H2 Hz H3) as (X & Z & X1 & X2 & X3 & X4).
  destruct (wavedec_dist Rring fuel y z w N Ho) as (Y & Z' & Y1 & Y2 & Y3 & Y4); change (car Rring) with R in *; rewrite ?L; auto.
  assert (X = a :: ds) by congruence. assert (Y = a :: ds') by congruence. assert (Z' = Z) by congruence. subst X Y Z'.
  destruct Z as [|b es]; [inversion X3|]. destruct (shapes_cons _ _ _ _ X3) as (La & Ls). exists b, es. split; auto. split; auto.
  exists (dist2 (C := Rring) a b). split; [apply dist2_ge0; auto|]. rewrite <- X4, <- Y4. split; reflexivity.
Qed.

Theorem soft_denoising fuel w N v x : orthonormal w -> data_ok fuel w N x -> 0 < v ->
  exists y ds ds', denoised fuel w N v "soft" x y ds ds' /\
    forall z, zlen z = zlen x -> exists b es, wavedec (C := Rring) fuel z w PERIODIZATION (Some (Z.of_nat N)) = Ok (b :: es) /\
      dist2 (C := Rring) x y / 2 + v * size1 (concat ds') + dist2 (C := Rring) y z / 2 <= dist2 (C := Rring) x z / 2 + v * size1 (concat es).
Proof.
  intros Ho Hx Hv. destruct (denoise_total fuel w N v "soft" x Ho Hx (fun d => soft_total v d Hv)) as (y & ds & ds' & Hd). exists y, ds, ds'. split; auto. intros z Hz.
  destruct (denoised_other fuel w N v "soft" x y ds ds' z Ho Hx Hd Hz) as (b & es & E & S & c & C0 & C1 & C2).
  destruct (denoised_dist fuel w N v "soft" x y ds ds' Ho Hx Hd) as (a & _ & _ & _ & _ & D). destruct Hd as (a' & _ & F & _).
  exists b, es. split; auto. rewrite C1, C2, D. pose proof (soft_lists v ds ds' Hv F es S) as K. change (car Rring) with R in *. revert K. clear. intros K. lra.
Qed.
Theorem hard_denoising fuel w N v x : orthonormal w -> data_ok fuel w N x -> 0 <= v ->
  exists y ds ds', denoised fuel w N v "hard" x y ds ds' /\ dist2 (C := Rring) x y = small2 v (concat ds) /\
    forall z, zlen z = zlen x -> exists b es, wavedec (C := Rring) fuel z w PERIODIZATION (Some (Z.of_nat N)) = Ok (b :: es) /\
      dist2 (C := Rring) x y + v * v * nonzeros (concat ds') <= dist2 (C := Rring) x z + v * v * nonzeros (concat es).
Proof.
  intros Ho Hx Hv. destruct (denoise_total fuel w N v "hard" x Ho Hx (hard_total v)) as (y & ds & ds' & Hd). exists y, ds, ds'. split; auto.
  destruct (denoised_dist fuel w N v "hard" x y ds ds' Ho Hx Hd) as (a & _ & _ & _ & _ & D). pose proof Hd as (a' & _ & F & _).
  destruct (hard_lists v ds ds' Hv F) as (K0 & K). split; [rewrite D; exact K0|]. intros z Hz.
  destruct (denoised_other fuel w N v "hard" x y ds ds' z Ho Hx Hd Hz) as (b & es & E & S & c & C0 & C1 & C2).
  exists b, es. split; auto. rewrite C1, D. specialize (K es S). change (car Rring) with R in *. revert K C0. clear. intros K C0. lra.
Qed.
Theorem soft_denoising_contraction fuel w N v x1 x2 y1 y2 ds1 ds1' ds2 ds2' : orthonormal w -> data_ok fuel w N x1 -> zlen x2 = zlen x1 -> 0 < v ->
  denoised fuel w N v "soft" x1 y1 ds1 ds1' -> denoised fuel w N v "soft" x2 y2 ds2 ds2' -> dist2 (C := Rring) y1 y2 <= dist2 (C := Rring) x1 x2.
Proof.
  intros Ho Hx HL Hv D1 D2. assert (Hx2 : data_ok fuel w N x2) by (destruct Hx as (A & B & D); unfold data_ok; rewrite HL; auto).
  destruct (denoised_dist fuel w N v "soft" x1 y1 ds1 ds1' Ho Hx D1) as (a & E & E' & L & HS & _).
  destruct (denoised_dist fuel w N v "soft" x2 y2 ds2 ds2' Ho Hx2 D2) as (a2 & G & G' & L2 & _).
  pose proof D1 as (? & _ & F1 & _). pose proof D2 as (? & _ & F2 & _). destruct Hx as (H1 & H2 & H3).
  destruct (wavedec_dist Rring fuel x1 x2 w N Ho H1 H2 HL H3) as (X & Y & X1 & X2 & X3 & X4).
  destruct (wavedec_dist Rring fuel y1 y2 w N Ho) as (X' & Y' & Y1 & Y2 & Y3 & Y4); change (car Rring) with R in *; rewrite ?L, ?L2; auto.
  assert (X = a :: ds1) by congruence. assert (Y = a2 :: ds2) by congruence. assert (X' = a :: ds1') by congruence. assert (Y' = a2 :: ds2') by congruence. subst.
  rewrite <- X4, <- Y4. destruct (shapes_cons _ _ _ _ X3) as (_ & S). pose proof (contract_lists v ds1 ds1' ds2 ds2' Hv F1 F2 S) as K.
  change (dist2 (C := Rring) a a2 + dist2s (C := Rring) ds1' ds2' <= dist2 (C := Rring) a a2 + dist2s (C := Rring) ds1 ds2). lra.
Qed.
