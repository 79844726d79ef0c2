(** Rounding errors of the transforms in the maximum norm, over several levels. *)
From Coq Require Import Reals Lra Psatz.
From Verif Require Import Base BaseLemmas CConv Spec ExtLemmas Lengths Dwt DwtProofs Multilevel MultilevelProofs Instances CwtReal RawConv RawRel HomRing Rounding RoundingProofs.
Open Scope R_scope.

(** * Sums of real numbers *)
Lemma sumZ_le_R a b (f g : Z -> Rring) : (forall t, (a <= t < b)%Z -> (f t <= g t)%R) -> (sumZ a b f <= sumZ a b g)%R.
Proof.
  unfold sumZ. intros H. assert (G : forall n : nat, (Z.of_nat n <= b - a)%Z -> (sumn n f a <= sumn n g a)%R).
  { induction n as [|n IH]; intros Hn; cbn [sumn]; [apply Rle_refl|]. change (sumn n f a + f (a + Z.of_nat n)%Z <= sumn n g a + g (a + Z.of_nat n)%Z)%R.
    apply Rplus_le_compat; [apply IH; lia|apply H; lia]. }
  destruct (Z_le_gt_dec 0 (b - a)); [apply G; lia|]. replace (Z.to_nat (b - a)) with 0%nat by lia. apply Rle_refl.
Qed.
Lemma sumZ_abs_R a b (f : Z -> Rring) : Rabs (sumZ a b f) <= sumZ (C := Rring) a b (fun t => Rabs (f t)).
Proof.
  unfold sumZ. induction (Z.to_nat (b - a)) as [|n IH]; cbn [sumn]; [cbn; rewrite Rabs_R0; apply Rle_refl|].
  change (Rabs (sumn n f a + f (a + Z.of_nat n)%Z) <= sumn (C := Rring) n (fun t => Rabs (f t)) a + Rabs (f (a + Z.of_nat n)%Z)).
  eapply Rle_trans; [apply Rabs_triang|]. apply Rplus_le_compat_r. exact IH.
Qed.
Lemma sumZ_nonneg_R a b (f : Z -> Rring) : (forall t, 0 <= f t) -> 0 <= sumZ a b f.
Proof.
  intros H. unfold sumZ. induction (Z.to_nat (b - a)) as [|n IH]; cbn [sumn]; [apply Rle_refl|].
  change (0 <= sumn n f a + f (a + Z.of_nat n)%Z). apply Rplus_le_le_0_compat; auto.
Qed.
Lemma norm1_nonneg h : 0 <= norm1 h.
Proof. apply sumZ_nonneg_R. intros. apply Rabs_pos. Qed.
Lemma gz_absl (l : list Rring) i : gz (absl l) i = Rabs (gz l i).
Proof. unfold absl. apply (gz_map (C := Rring) (D := Rring) Rabs). apply Rabs_R0. Qed.
Lemma zlen_absl l : zlen (absl l) = zlen l.
Proof. apply zlen_map. Qed.
Lemma norm1_absl h : norm1 (absl h) = norm1 h.
Proof. unfold norm1. rewrite zlen_absl. apply (sumZ_ext Rring). intros t _. rewrite gz_absl. apply Rabs_Rabsolu. Qed.

Lemma dot_bound a b (f g : Z -> Rring) B : (forall t, Rabs (g t) <= B) ->
  Rabs (sumZ (C := Rring) a b (fun t => f t * g t)) <= sumZ (C := Rring) a b (fun t => Rabs (f t)) * B.
Proof.
  intros H. eapply Rle_trans; [apply sumZ_abs_R|]. change Rmult with (rmul (c := Rring)) at 2. rewrite <- (sumZ_scal_r Rring). apply sumZ_le_R.
  intros t _. rewrite Rabs_mult. change (Rabs (f t) * Rabs (g t) <= Rabs (f t) * B). apply Rmult_le_compat_l; [apply Rabs_pos|apply H].
Qed.

(** * Bounds of analysis *)
Definition bounded (x : list Rring) (B : R) : Prop := forall i, Rabs (gz x i) <= B.
Definition apart (x y : list Rring) (e : R) : Prop := forall i, Rabs (gz x i - gz y i) <= e.
Lemma bounded_nonneg x B : bounded x B -> 0 <= B.
Proof. intros H. specialize (H 0%Z). pose proof (Rabs_pos (gz x 0)). lra. Qed.
Lemma apart_nonneg x y e : apart x y e -> 0 <= e.
Proof. intros H. specialize (H 0%Z). pose proof (Rabs_pos (gz x 0 - gz y 0)). lra. Qed.
Lemma r0R : (r0 : Rring) = 0. Proof. reflexivity. Qed.

Lemma ext_bounded m x B n : copying m = true -> bounded x B -> Rabs (ext m x n) <= B.
Proof.
  intros Hm H. pose proof (bounded_nonneg x B H) as B0.
  destruct m; try discriminate; cbn [ext]; unfold pext; repeat match goal with |- context [if ?c then _ else _] => destruct c end; try apply H.
  - rewrite r0R, Rabs_R0. exact B0.
  - change (ropp (c := Rring)) with Ropp. rewrite Rabs_Ropp. apply H.
Qed.
Lemma ext_apart m x y e n : copying m = true -> zlen x = zlen y -> apart x y e -> Rabs (ext m x n - ext m y n) <= e.
Proof.
  intros Hm Hl H. pose proof (apart_nonneg x y e H) as B0.
  destruct m; try discriminate; cbn [ext]; unfold pext; rewrite Hl; repeat match goal with |- context [if ?c then _ else _] => destruct c end; try apply H.
  - rewrite r0R, Rminus_0_r, Rabs_R0. exact B0.
  - change (ropp (c := Rring)) with Ropp. specialize (H (2 * zlen y - 1 - n mod (2 * zlen y))%Z). 
    set (a := gz x _) in *. set (b := gz y _) in *. clearbody a b. change (car Rring) with R in *.
    replace (- a - - b) with (- (a - b)) by ring. rewrite Rabs_Ropp. exact H.
Qed.
Lemma gz_tab_bounded n (f : Z -> Rring) B i : 0 <= B -> (forall j, Rabs (f j) <= B) -> Rabs (gz (tab n f) i) <= B.
Proof.
  intros B0 H. destruct (Z_le_gt_dec 0 i) as [K|K]; [|rewrite gz_neg, r0R, Rabs_R0 by lia; exact B0].
  destruct (Z_lt_ge_dec i n) as [K'|K']; [rewrite gz_tab by lia; apply H|]. rewrite gz_big, r0R, Rabs_R0; [exact B0|]. rewrite zlen_tab_max. lia.
Qed.
Lemma gz_tab_apart n (f g : Z -> Rring) e i : 0 <= e -> (forall j, Rabs (f j - g j) <= e) -> Rabs (gz (tab n f) i - gz (tab n g) i) <= e.
Proof.
  intros B0 H. destruct (Z_le_gt_dec 0 i) as [K|K]; [|rewrite !gz_neg, r0R, Rminus_0_r, Rabs_R0 by lia; exact B0].
  destruct (Z_lt_ge_dec i n) as [K'|K']; [rewrite !gz_tab by lia; apply H|]. rewrite !gz_big, r0R, Rminus_0_r, Rabs_R0; [exact B0| |]; rewrite zlen_tab_max; lia.
Qed.
Lemma analysis_bounded m h x B : copying m = true -> bounded x B -> bounded (analysis m h x) (norm1 h * B).
Proof.
  intros Hm H i. pose proof (bounded_nonneg x B H) as B0. unfold analysis. apply gz_tab_bounded; [apply Rmult_le_pos; [apply norm1_nonneg|exact B0]|].
  intros j. unfold conv. apply (dot_bound 0 (zlen h) (fun t => gz h t) (fun t => ext m x (2 * j + first_pos m (zlen h) - t)%Z)).
  intros t. apply ext_bounded; assumption.
Qed.
Lemma analysis_apart m h x y e : copying m = true -> zlen x = zlen y -> apart x y e -> apart (analysis m h x) (analysis m h y) (norm1 h * e).
Proof.
  intros Hm Hl H i. pose proof (apart_nonneg x y e H) as B0. unfold analysis. rewrite Hl. apply gz_tab_apart; [apply Rmult_le_pos; [apply norm1_nonneg|exact B0]|].
  intros j. unfold conv. change Rminus with (rsub (c := Rring)). rewrite <- (sumZ_sub Rring).
  rewrite (sumZ_ext Rring 0 (zlen h) _ (fun t => gz h t * (ext m x (2 * j + first_pos m (zlen h) - t)%Z - ext m y (2 * j + first_pos m (zlen h) - t)%Z))).
  2:{ intros t _. cbn. ring. }
  apply (dot_bound 0 (zlen h) (fun t => gz h t)). intros t. apply ext_apart; assumption.
Qed.

(** * Bounds of synthesis *)
Lemma up_conv_form (g : list Rring) c n : up_conv g c n = sumZ (C := Rring) 0 (zlen g) (fun t => (if (t mod 2 =? n mod 2)%Z then gz g t else 0) * c ((n - t) / 2)%Z).
Proof.
  unfold up_conv. apply (sumZ_ext Rring). intros t _. replace (t mod 2 =? n mod 2)%Z with ((n - t) mod 2 =? 0)%Z by lia. destruct (_ =? 0)%Z; cbn; ring.
Qed.
Lemma taps_form q (g : list Rring) : taps q g = sumZ (C := Rring) 0 (zlen g) (fun t => Rabs (if (t mod 2 =? q)%Z then gz g t else 0)).
Proof. apply (sumZ_ext Rring). intros t _. destruct (_ =? q)%Z; [reflexivity|rewrite Rabs_R0; reflexivity]. Qed.
Lemma up_conv_bounded (g : list Rring) (c : Z -> Rring) (n : Z) (B : R) : (forall k, Rabs (c k) <= B) -> Rabs (up_conv g c n) <= taps (n mod 2) g * B.
Proof. intros H. rewrite up_conv_form, taps_form. apply (dot_bound 0 (zlen g) (fun t => if (t mod 2 =? n mod 2)%Z then gz g t else 0)). intros. apply H. Qed.
Lemma up_conv_apart (g : list Rring) (c c' : Z -> Rring) (n : Z) (e : R) : (forall k, Rabs (c k - c' k) <= e) -> Rabs (up_conv g c n - up_conv g c' n) <= taps (n mod 2) g * e.
Proof.
  intros H. rewrite !up_conv_form, taps_form. change Rminus with (rsub (c := Rring)). rewrite <- (sumZ_sub Rring).
  rewrite (sumZ_ext Rring 0 (zlen g) _ (fun t => (if (t mod 2 =? n mod 2)%Z then gz g t else 0) * (c ((n - t) / 2)%Z - c' ((n - t) / 2)%Z))).
  2:{ intros t _. cbn. ring. }
  apply (dot_bound 0 (zlen g) (fun t => if (t mod 2 =? n mod 2)%Z then gz g t else 0)). intros. apply H.
Qed.
Lemma taps_absl q g : taps q (absl g) = taps q g.
Proof. unfold taps. rewrite zlen_absl. apply (sumZ_ext Rring). intros t _. rewrite gz_absl, Rabs_Rabsolu. reflexivity. Qed.
Lemma taps_nonneg q g : 0 <= taps q g.
Proof. apply sumZ_nonneg_R. intros t. destruct (_ =? q)%Z; [apply Rabs_pos|lra]. Qed.

(** Position, in the convolution, of sample [i] of the reconstruction. *)
Definition pos (m : mode) (F i : Z) : Z := match m with PERIODIZATION => i + F / 2 - 1 | _ => i + F - 2 end.
Definition cper (m : mode) (c : list Rring) (k : Z) : Rring := match m with PERIODIZATION => gz c (k mod zlen c)%Z | _ => gz c k end.
Lemma gz_synthesis m (g c : list Rring) i : (0 <= i < rec_len m (zlen c) (zlen g))%Z ->
  gz (synthesis m g c) i = up_conv g (cper m c) (pos m (zlen g) i).
Proof. intros H. destruct m; cbn [synthesis rec_len pos] in *; rewrite gz_tab by lia; reflexivity. Qed.
Lemma cper_bounded m c B k : bounded c B -> Rabs (cper m c k) <= B.
Proof. intros H. destruct m; apply H. Qed.
Lemma cper_apart m c c' e k : zlen c = zlen c' -> apart c c' e -> Rabs (cper m c k - cper m c' k) <= e.
Proof. intros Hl H. destruct m; cbn [cper]; rewrite ?Hl; apply H. Qed.

Lemma synth_bounded m (g h a d : list Rring) S B i : zlen g = zlen h -> zlen a = zlen d -> (0 <= i < rec_len m (zlen a) (zlen g))%Z ->
  (forall q, taps q g + taps q h <= S) -> bounded a B -> bounded d B ->
  Rabs (gz (vadd (synthesis m g a) (synthesis m h d)) i) <= S * B.
Proof.
  intros Hg Hd Hi HS Ba Bd. pose proof (bounded_nonneg a B Ba) as B0.
  rewrite gz_vadd by (rewrite !zlen_synthesis; [congruence|rewrite <- Hd, <- Hg; lia|lia]).
  rewrite !gz_synthesis by (rewrite <- ?Hd, <- ?Hg; lia). rewrite <- Hg. set (n := pos m (zlen g) i).
  pose proof (up_conv_bounded g (cper m a) n B (fun k => cper_bounded m a B k Ba)) as P1.
  pose proof (up_conv_bounded h (cper m d) n B (fun k => cper_bounded m d B k Bd)) as P2.
  change (Rabs (up_conv g (cper m a) n + up_conv h (cper m d) n) <= S * B). eapply Rle_trans; [apply Rabs_triang|].
  eapply Rle_trans; [apply Rplus_le_compat; [exact P1|exact P2]|]. rewrite <- Rmult_plus_distr_r. apply Rmult_le_compat_r; [exact B0|apply HS].
Qed.
Lemma synth_apart m (g h a d a' d' : list Rring) S e i : zlen g = zlen h -> zlen a = zlen d -> zlen a = zlen a' -> zlen d = zlen d' -> (0 <= i < rec_len m (zlen a) (zlen g))%Z ->
  (forall q, taps q g + taps q h <= S) -> apart a a' e -> apart d d' e ->
  Rabs (gz (vadd (synthesis m g a) (synthesis m h d)) i - gz (vadd (synthesis m g a') (synthesis m h d')) i) <= S * e.
Proof.
  intros Hg Hd Ha' Hd' Hi HS Ba Bd. pose proof (apart_nonneg a a' e Ba) as B0.
  rewrite !gz_vadd by (rewrite !zlen_synthesis; rewrite <- ?Hd', <- ?Hd, <- ?Ha', <- ?Hg; [reflexivity|lia|lia]).
  rewrite !gz_synthesis by (rewrite <- ?Hd', <- ?Hd, <- ?Ha', <- ?Hg; lia). rewrite <- Hg. set (n := pos m (zlen g) i).
  pose proof (up_conv_apart g (cper m a) (cper m a') n e (fun k => cper_apart m a a' e k Ha' Ba)) as P1.
  pose proof (up_conv_apart h (cper m d) (cper m d') n e (fun k => cper_apart m d d' e k Hd' Bd)) as P2.
  change (Rabs (up_conv g (cper m a) n + up_conv h (cper m d) n - (up_conv g (cper m a') n + up_conv h (cper m d') n)) <= S * e).
  set (p := up_conv g (cper m a) n) in *. set (p' := up_conv g (cper m a') n) in *. set (q := up_conv h (cper m d) n) in *. set (q' := up_conv h (cper m d') n) in *.
  clearbody p p' q q'. change (car Rring) with R in *. replace (p + q - (p' + q')) with ((p - p') + (q - q')) by ring. eapply Rle_trans; [apply Rabs_triang|].
  eapply Rle_trans; [apply Rplus_le_compat; [exact P1|exact P2]|]. rewrite <- Rmult_plus_distr_r. apply Rmult_le_compat_r; [exact B0|apply HS].
Qed.

Lemma Forall2_len {X Y} {P : X -> Y -> Prop} {l l'} : Forall2 P l l' -> length l = length l'.
Proof. induction 1; cbn; congruence. Qed.
Lemma Forall2_mono {X Y} (P Q : X -> Y -> Prop) l l' : (forall a b, P a b -> Q a b) -> Forall2 P l l' -> Forall2 Q l l'.
Proof. intros H. induction 1; constructor; auto. Qed.

(** * Steps of the transforms *)
Section Near.
Variable fl : flarith.
Notation u := (fu fl).
Notation eta := (feta fl).
Variable pf fuel : nat.
Variables (w : owavelet fl) (b : wavelet Rring).
Hypothesis Hb : wf_bank b.
Hypothesis Hw : rounded_bank fl pf w b.
Let F := dec_len b.
(** Growth of the error in one step, and underflow of one step. *)
Definition growth : R := (1 + u) ^ (Z.to_nat F + pf).
Definition under : R := INR (Z.to_nat F) * growth * eta.
Notation G := growth.
Notation Un := under.
Lemma G1 : 1 <= G. Proof. apply pow1_ge, fu_nonneg. Qed.
Lemma Un0 : 0 <= Un.
Proof. unfold under. pose proof G1. pose proof (feta_nonneg fl). pose proof (pos_INR (Z.to_nat F)). apply Rmult_le_pos; [apply Rmult_le_pos; lra|assumption]. Qed.

Lemma near_mono e e' B B' v r : e <= e' -> B <= B' -> near fl e B v r -> near fl e' B' v r.
Proof. intros ? ? []. split; lra. Qed.
Lemma nears_mono e e' B B' v r : e <= e' -> B <= B' -> Forall2 (near fl e B) v r -> Forall2 (near fl e' B') v r.
Proof. intros ? ?. induction 1; constructor; auto. eapply near_mono; eauto. Qed.
Lemma rounded_0 (v : list fl) : Forall2 (rounded fl 0) v (map val v).
Proof. induction v; cbn; constructor; auto. unfold rounded. cbn. unfold Rminus. rewrite !Rplus_opp_r, Rabs_R0, Rmult_0_l. apply Rle_refl. Qed.
Lemma near_apart e B v (r : list Rring) : 0 <= e -> Forall2 (near fl e B) v r -> apart (map val v) r e.
Proof.
  intros E H i. unfold gz. destruct (0 <=? i)%Z; [|rewrite r0R, Rminus_0_r, Rabs_R0; exact E]. generalize (Z.to_nat i).
  induction H as [|a c v r [H1 H2] _ IH]; intros [|n]; cbn; try (rewrite Rminus_0_r, Rabs_R0; exact E); [exact H1|apply IH].
Qed.
Lemma near_bounded e B v (r : list Rring) : 0 <= B -> Forall2 (near fl e B) v r -> bounded r B.
Proof.
  intros E H i. unfold gz. destruct (0 <=? i)%Z; [|rewrite r0R, Rabs_R0; exact E]. generalize (Z.to_nat i).
  induction H as [|a c v r [H1 H2] _ IH]; intros [|n]; cbn; try (rewrite Rabs_R0; exact E); [exact H2|apply IH].
Qed.
Lemma near_bounded_val e B v (r : list Rring) : 0 <= e -> 0 <= B -> Forall2 (near fl e B) v r -> bounded (map val v) (e + B).
Proof.
  intros E E' H i. pose proof (near_apart e B v r E H i) as P. pose proof (near_bounded e B v r E' H i) as Q.
  set (p := gz (C := Rring) _ i) in *. set (q := gz (C := Rring) r i) in *. clearbody p q. change (car Rring) with R in *. unfold Rabs in *. repeat destruct (Rcase_abs _); lra.
Qed.
Lemma near_intro e B (v : list fl) (r : list Rring) : zlen v = zlen r ->
  (forall k, (0 <= k < zlen r)%Z -> Rabs (gz (C := Rring) (map val v) k - gz r k) <= e) ->
  (forall k, (0 <= k < zlen r)%Z -> Rabs (gz r k) <= B) -> Forall2 (near fl e B) v r.
Proof.
  revert r. induction v as [|a v IH]; intros [|c r] Hl H1 H2; unfold zlen in Hl; cbn [length] in Hl; try lia; constructor.
  - split; [apply (H1 0%Z)|apply (H2 0%Z)]; unfold zlen; cbn [length]; lia.
  - assert (S1 : forall (l : list Rring) x k, (0 <= k)%Z -> gz (C := Rring) (x :: l) (k + 1) = gz l k).
    { intros l x k Hk. unfold gz. replace (0 <=? k + 1)%Z with true by lia. replace (0 <=? k)%Z with true by lia. replace (Z.to_nat (k + 1)) with (S (Z.to_nat k)) by lia. reflexivity. }
    apply IH; [unfold zlen; lia| |]; intros k Hk.
    + specialize (H1 (k + 1)%Z). cbn [map] in H1. rewrite !S1 in H1 by lia. apply H1. unfold zlen in *. cbn [length]. lia.
    + specialize (H2 (k + 1)%Z). rewrite !S1 in H2 by lia. apply H2. unfold zlen in *. cbn [length]. lia.
Qed.

Variable K : R.
Hypothesis K0 : 0 <= K.
(** Error after one step from data with error [e] and size [B]. *)
Definition step (e B : R) : R := G * K * e + (G - 1) * K * B + Un.

Lemma fbnd_le a : 0 <= a -> forall c, a <= c -> fbnd fl pf 0 F a <= (G - 1) * c + Un.
Proof.
  intros A c Hc. unfold fbnd, bnd. replace (Z.to_nat F + (pf + 0))%nat with (Z.to_nat F + pf)%nat by lia. fold growth.
  pose proof G1. apply Rplus_le_compat; [apply Rmult_le_compat_l; lra|apply Rle_refl].
Qed.

Lemma absl_bounded x B : bounded x B -> bounded (absl x) B.
Proof. intros H i. rewrite gz_absl, Rabs_Rabsolu. apply H. Qed.
Lemma gz_nonneg_analysis m h x k : copying m = true -> 0 <= gz (analysis (abs_mode m) (absl h) (absl x)) k.
Proof.
  intros Hm. assert (T : forall n (f : Z -> Rring) i, (forall j, 0 <= f j) -> 0 <= gz (tab n f) i).
  { intros n f i H. destruct (Z_le_gt_dec 0 i) as [P|P]; [|rewrite gz_neg, r0R by lia; lra].
    destruct (Z_lt_ge_dec i n) as [P'|P']; [rewrite gz_tab by lia; apply H|]. rewrite gz_big, r0R; [lra|]. rewrite zlen_tab_max. lia. }
  assert (Q : forall i, 0 <= gz (absl x) i) by (intros; rewrite gz_absl; apply Rabs_pos).
  unfold analysis. apply T. intros j. apply sumZ_nonneg_R. intros t. apply Rmult_le_pos; [rewrite gz_absl; apply Rabs_pos|].
  destruct m; try discriminate; cbn [abs_mode ext]; unfold pext; repeat match goal with |- context [if ?c then _ else _] => destruct c end; try apply Q; cbn; lra.
Qed.

Lemma analysis_near m (h : list Rring) e B x (X : list Rring) v : copying m = true -> norm1 h <= K -> zlen h = F -> 0 <= e -> 0 <= B -> (1 <= zlen X)%Z ->
  Forall2 (near fl e B) x X ->
  within fl pf 0 F v (analysis m h (map val x)) (analysis (abs_mode m) (absl h) (absl (map val x))) ->
  Forall2 (near fl (step e B) (K * B)) v (analysis m h X).
Proof.
  intros Hm HK HF E HB HX Hx (V1 & V2). pose proof G1 as G1. pose proof (norm1_nonneg h) as N0. destruct Hb as (_ & _ & _ & _ & HF2). fold F in HF2.
  assert (Lx : zlen (map val x : list Rring) = zlen X) by (rewrite zlen_map; exact (F2_zlen _ _ _ Hx)).
  assert (La : zlen (analysis m h (map val x : list Rring)) = zlen (analysis m h X)) 
    by (rewrite (zlen_analysis Rring m h X) by lia; rewrite zlen_analysis; [f_equal; exact Lx|rewrite Lx; exact HX|lia]).
  apply near_intro.
  - rewrite V1. exact La.
  - intros k Hk. rewrite La in V2. specialize (V2 k Hk).
    pose proof (analysis_apart m h _ _ e Hm Lx (near_apart e B x X E Hx) k) as A1.
    pose proof (analysis_bounded (abs_mode m) (absl h) _ (e + B) ltac:(destruct m; auto) (absl_bounded _ _ (near_bounded_val e B x X E HB Hx)) k) as A2.
    rewrite norm1_absl in A2. pose proof (gz_nonneg_analysis m h (map val x) k Hm) as P. rewrite Rabs_pos_eq in A2 by exact P.
    assert (A3 : gz (analysis (abs_mode m) (absl h) (absl (map val x))) k <= K * (e + B)).
    { eapply Rle_trans; [exact A2|]. apply Rmult_le_compat_r; lra. }
    pose proof (fbnd_le _ P _ A3) as A4. assert (A5 : norm1 h * e <= K * e) by (apply Rmult_le_compat_r; lra).
    set (p := gz (C := Rring) (map val v) k) in *. set (q := gz (analysis m h (map val x)) k) in *. set (r := gz (analysis m h X) k) in *.
    clearbody p q r. change (car Rring) with R in *. unfold step.
    assert (T : Rabs (p - r) <= Rabs (p - q) + Rabs (q - r)) by (unfold Rabs; repeat destruct (Rcase_abs _); lra). lra.
  - intros k Hk. eapply Rle_trans; [apply (analysis_bounded m h X B Hm (near_bounded e B x X HB Hx))|]. apply Rmult_le_compat_r; lra.
Qed.

Theorem dwt_near m e B x (X : list Rring) : copying m = true -> norm1 (dec_lo b) <= K -> norm1 (dec_hi b) <= K -> 0 <= e -> 0 <= B ->
  Forall2 (near fl e B) x X -> (min_len m <= zlen X)%Z -> resources fuel (zlen X) F ->
  exists cA cD, o_dwt_single fuel x w m = Ok (cA, cD) /\
    Forall2 (near fl (step e B) (K * B)) cA (analysis m (dec_lo b) X) /\
    Forall2 (near fl (step e B) (K * B)) cD (analysis m (dec_hi b) X).
Proof.
  intros Hm K1 K2 E HB Hx Hl Hr. assert (Lx : zlen (map val x : list Rring) = zlen X) by (rewrite zlen_map; exact (F2_zlen _ _ _ Hx)).
  destruct (dwt_rounded fl pf 0 fuel w b Hb Hw x (map val x) m Hm (rounded_0 x)) as (cA & cD & D1 & D2 & D3).
  { rewrite Lx. exact Hl. } { rewrite Lx. exact Hr. }
  pose proof (min_len_1 m). pose proof Hb as (Hh & _).
  exists cA, cD. split; [exact D1|]. split; [apply (analysis_near m (dec_lo b) e B x X cA)|apply (analysis_near m (dec_hi b) e B x X cD)]; auto; lia.
Qed.

Theorem idwt_near m e B a d (A D : list Rring) : (forall q, taps q (rec_lo b) + taps q (rec_hi b) <= K) -> 0 <= e -> 0 <= B ->
  Forall2 (near fl e B) a A -> Forall2 (near fl e B) d D -> zlen A = zlen D -> (1 <= zlen A)%Z -> (1 <= rec_len m (zlen A) F)%Z ->
  resources fuel (zlen A) F ->
  exists y, o_idwt_single fuel a d w m = Ok y /\
    Forall2 (near fl (step e B) (K * B)) y (vadd (synthesis m (rec_lo b) A) (synthesis m (rec_hi b) D)).
Proof.
  intros HK E HB Ha Hd Hl H1 Hrl Hr. pose proof G1 as G1.
  assert (La : zlen (map val a : list Rring) = zlen A) by (rewrite zlen_map; exact (F2_zlen _ _ _ Ha)).
  assert (Ld : zlen (map val d : list Rring) = zlen D) by (rewrite zlen_map; exact (F2_zlen _ _ _ Hd)).
  destruct (idwt_rounded fl pf 0 fuel w b Hb Hw a d (map val a) (map val d) m (rounded_0 a) (rounded_0 d)) as (y & Y1 & Y2 & Y3);
    try (rewrite ?La, ?Ld; assumption).
  exists y. split; [exact Y1|]. destruct Hb as (_ & B1 & B2 & _ & _). fold F in B1, B2.
  assert (Lv : zlen (vadd (synthesis m (rec_lo b) (map val a : list Rring)) (synthesis m (rec_hi b) (map val d : list Rring))) = rec_len m (zlen A) F).
  { rewrite zlen_vadd; rewrite !zlen_synthesis; rewrite ?La, ?Ld, ?B1, ?B2, <- ?Hl; try lia; reflexivity. }
  assert (Lv' : zlen (vadd (synthesis m (rec_lo b) A) (synthesis m (rec_hi b) D)) = rec_len m (zlen A) F).
  { rewrite zlen_vadd; rewrite !zlen_synthesis; rewrite ?B1, ?B2, <- ?Hl; try lia; reflexivity. }
  rewrite Lv in Y2, Y3. apply near_intro; rewrite Lv'; [exact Y2| |].
  - intros k Hk. specialize (Y3 k Hk).
    pose proof (synth_apart m (rec_lo b) (rec_hi b) (map val a) (map val d) A D K e k) as S1.
    specialize (S1 ltac:(congruence) ltac:(rewrite La, Ld; exact Hl) La Ld ltac:(rewrite La, B1; exact Hk) HK (near_apart e B a A E Ha) (near_apart e B d D E Hd)).
    pose proof (synth_bounded m (absl (rec_lo b)) (absl (rec_hi b)) (absl (map val a)) (absl (map val d)) K (e + B) k) as S2.
    rewrite !zlen_absl in S2. specialize (S2 ltac:(congruence) ltac:(rewrite La, Ld; exact Hl) ltac:(rewrite La, B1; exact Hk)
      ltac:(intros q; rewrite !taps_absl; apply HK) (absl_bounded _ _ (near_bounded_val e B a A E HB Ha)) (absl_bounded _ _ (near_bounded_val e B d D E HB Hd))).
    set (t := gz (vadd (synthesis m (absl (rec_lo b)) (absl (map val a))) (synthesis m (absl (rec_hi b)) (absl (map val d)))) k) in *.
    assert (P : 0 <= Rabs t) by apply Rabs_pos.
    assert (Y4 : fbnd fl pf 0 F t <= fbnd fl pf 0 F (Rabs t)).
    { unfold fbnd, bnd. apply Rplus_le_compat_r. apply Rmult_le_compat_l; [pose proof (pow1_ge u (fu_nonneg fl) (Z.to_nat F + (pf + 0))); lra|apply Rle_abs]. }
    pose proof (fbnd_le _ P _ S2) as A4.
    set (p := gz (C := Rring) (map val y) k) in *. set (q := gz (vadd (synthesis m (rec_lo b) (map val a)) (synthesis m (rec_hi b) (map val d))) k) in *.
    set (r := gz (vadd (synthesis m (rec_lo b) A) (synthesis m (rec_hi b) D)) k) in *.
    assert (Y5 : Rabs (p - q) <= (growth - 1) * (K * (e + B)) + under) by (eapply Rle_trans; [exact Y3|]; eapply Rle_trans; [exact Y4|exact A4]).
    assert (Y6 : Rabs (q - r) <= K * e) by exact S1. clear Y3 Y4 A4 S1 S2.
    clearbody p q r t. change (car Rring) with R in *. unfold step.
    assert (T : Rabs (p - r) <= Rabs (p - q) + Rabs (q - r)) by (unfold Rabs; repeat destruct (Rcase_abs _); lra). lra.
  - intros k Hk. apply synth_bounded; rewrite ?B1, ?B2; auto; [eapply near_bounded; eauto|eapply near_bounded; eauto].
Qed.

(** * Several levels *)
Lemma geo_S r n : geo r (S n) = 1 + r * geo r n.
Proof. induction n as [|n IH]; [cbn; ring|]. transitivity (geo r (S n) + r ^ S n); [reflexivity|]. transitivity (1 + r * geo r n + r ^ S n); [f_equal; exact IH|]. cbn [geo pow]. ring. Qed.
(** Error after [n] steps from data with error [e] and size [B]. *)
Definition err (e B : R) (n : nat) : R := (G ^ n - 1) * K ^ n * B + (G * K) ^ n * e + Un * geo (G * K) n.
Lemma err_0 e B : err e B 0 = e.
Proof. unfold err. cbn. ring. Qed.
Lemma err_front e B n : err (step e B) (K * B) n = err e B (S n).
Proof. unfold err, step. cbn [geo pow]. rewrite !Rpow_mult_distr. ring. Qed.
Lemma err_back e B n : err e B (S n) = step (err e B n) (K ^ n * B).
Proof. unfold err, step. rewrite geo_S. cbn [pow]. ring. Qed.
Lemma err_comp e B n k : err (err e B n) (K ^ n * B) k = err e B (n + k).
Proof.
  induction k as [|k IH]; [rewrite err_0, Nat.add_0_r; reflexivity|]. rewrite err_back, IH, Nat.add_succ_r, err_back. f_equal.
  rewrite pow_add. ring.
Qed.
Lemma step_nonneg e B : 0 <= e -> 0 <= B -> 0 <= step e B.
Proof.
  intros. unfold step. pose proof G1. pose proof Un0. assert (0 <= G * K * e) by (apply Rmult_le_pos; [apply Rmult_le_pos; lra|assumption]).
  assert (0 <= (G - 1) * K * B) by (apply Rmult_le_pos; [apply Rmult_le_pos; lra|assumption]). lra.
Qed.
Lemma pow_K n : 0 <= K ^ n.
Proof. apply pow_le, K0. Qed.
Lemma err_nonneg e B n : 0 <= e -> 0 <= B -> 0 <= err e B n.
Proof.
  intros E HB. induction n as [|n IH]; [rewrite err_0; exact E|]. rewrite err_back. apply step_nonneg; [exact IH|]. apply Rmult_le_pos; [apply pow_K|exact HB].
Qed.

Theorem wavedec_near m : copying m = true -> norm1 (dec_lo b) <= K -> norm1 (dec_hi b) <= K ->
  forall n x (X : list Rring) e B acc, 0 <= e -> 0 <= B -> Forall2 (near fl e B) x X -> (1 <= zlen X)%Z ->
  levels_ok m F n (zlen X) -> resources fuel (zlen X) F ->
  exists a ds, o_wavedec_loop fuel x w m n acc = Ok (rev (acc ++ ds ++ [a])) /\ length ds = n /\
    Forall2 (near fl (err e B n) (K ^ n * B)) a (approx m (dec_lo b) n X) /\
    forall j, (j < n)%nat -> Forall2 (near fl (err e B (S j)) (K ^ S j * B)) (nth j ds []) (analysis m (dec_hi b) (approx m (dec_lo b) j X)).
Proof.
  intros Hm K1 K2. destruct Hb as (H1 & H2 & H3 & H4 & H5). fold F in H1, H2, H3, H4, H5.
  induction n as [|n IH]; intros x X e B acc E HB Hx HX Hl Hr.
  - exists x, []. cbn [o_wavedec_loop app]. split; [reflexivity|]. split; [reflexivity|]. split; [|intros j Hj; lia].
    rewrite err_0. cbn [pow approx]. rewrite Rmult_1_l. exact Hx.
  - assert (L : (min_len m <= zlen X)%Z) by (apply (Hl O); lia).
    destruct (dwt_near m e B x X Hm K1 K2 E HB Hx L Hr) as (cA & cD & D1 & D2 & D3).
    assert (La : zlen (analysis m (dec_lo b) X) = coeff_len m (zlen X) F) by (apply zlen_analysis; [exact HX|unfold F, dec_len in H5; lia]).
    pose proof (coeff_len_bounds m (zlen X) F HX H5) as Cb.
    destruct (IH cA (analysis m (dec_lo b) X) (step e B) (K * B) (acc ++ [cD])) as (a & ds & A1 & A2 & A3 & A4).
    + apply step_nonneg; assumption.
    + apply Rmult_le_pos; assumption.
    + exact D2.
    + rewrite La. lia.
    + rewrite La. intros j Hj. rewrite approx_len_S. apply Hl. lia.
    + rewrite La. destruct Hr as [R1 R2]. split; lia.
    + exists a, (cD :: ds). cbn [o_wavedec_loop]. rewrite D1. cbn [bind fst snd]. rewrite A1.
      split; [do 2 f_equal; rewrite <- app_assoc; reflexivity|]. split; [cbn; congruence|].
      rewrite err_front, approx_S in A3. rewrite <- Rmult_assoc, (Rmult_comm (K ^ n) K) in A3. split; [exact A3|].
      intros [|j] Hj; cbn [nth].
      * rewrite <- err_front, err_0. cbn [pow approx]. rewrite Rmult_1_r. exact D3.
      * specialize (A4 j ltac:(lia)). rewrite err_front, approx_S in A4. rewrite <- Rmult_assoc, (Rmult_comm (K ^ S j) K) in A4. exact A4.
Qed.

Lemma real_idwt_ok m (A D Y : list Rring) : resources fuel (zlen D) F -> idwt_single fuel A D b m = Ok Y ->
  zlen A = zlen D /\ (1 <= zlen A)%Z /\ (1 <= rec_len m (zlen A) F)%Z.
Proof.
  intros Hr. unfold idwt_single. destruct (Z.eqb_spec (zlen A) (zlen D)) as [E|E]; cbn [negb]; [|discriminate].
  destruct Hb as (H1 & H2 & H3 & H4 & H5). fold F in H1, H2, H3, H4, H5. unfold rec_flen. rewrite H2.
  destruct (_ <? 1)%Z eqn:T; [discriminate|]. unfold np_zeros. destruct (_ <? max_alloc)%Z eqn:T2; [|discriminate]. intros _. split; [exact E|].
  destruct Hr as [Hr1 Hr2]. clearbody F. pose proof (zlen_nonneg A) as HA. rewrite <- E in Hr2. set (n := zlen A) in *. clearbody n. clear -T T2 H4 H5 Hr2 HA.
  unfold idwt_buffer_length in *. destruct m; cbn [rec_len]; unfold max_alloc, two64 in *; lia.
Qed.

Lemma firstn_near e B n : forall a A, Forall2 (near fl e B) a A -> Forall2 (near fl e B) (firstn n a) (firstn n A).
Proof. induction n; intros a A H; cbn; [constructor|]. destruct H; constructor; auto. Qed.

Hypothesis K1 : 1 <= K.
Lemma step_ge e B : 0 <= e -> 0 <= B -> e <= step e B.
Proof.
  intros E HB. unfold step. pose proof G1. pose proof Un0. assert (1 * 1 <= G * K) by (apply Rmult_le_compat; lra).
  assert (1 * e <= G * K * e) by (apply Rmult_le_compat_r; lra). assert (0 <= (G - 1) * K * B) by (apply Rmult_le_pos; [apply Rmult_le_pos; lra|assumption]). lra.
Qed.
Lemma KB_ge B : 0 <= B -> B <= K * B.
Proof. intros. assert (1 * B <= K * B) by (apply Rmult_le_compat_r; lra). lra. Qed.
Lemma err_mono e B j n : 0 <= e -> 0 <= B -> (j <= n)%nat -> err e B j <= err e B n /\ K ^ j * B <= K ^ n * B.
Proof.
  intros E HB H. induction H as [|n H IH]; [split; apply Rle_refl|]. destruct IH as [I1 I2].
  assert (P : 0 <= K ^ n * B) by (apply Rmult_le_pos; [apply pow_K|exact HB]). split.
  - rewrite (err_back e B n). eapply Rle_trans; [exact I1|]. apply step_ge; [apply err_nonneg; assumption|exact P].
  - eapply Rle_trans; [exact I2|]. cbn [pow]. rewrite Rmult_assoc. apply KB_ge, P.
Qed.

Theorem waverec_near m : (forall q, taps q (rec_lo b) + taps q (rec_hi b) <= K) ->
  forall ds (Ds : list (list Rring)) a (A : list Rring) e B Y, 0 <= e -> 0 <= B -> Forall2 (near fl e B) a A -> Forall2 (Forall2 (near fl e B)) ds Ds ->
  Forall (fun D => resources fuel (zlen D) F) Ds -> o_waverec_loop (O := ops_of Rring) fuel A Ds (raw_wavelet b) m = Ok Y ->
  exists y, o_waverec_loop fuel a ds w m = Ok y /\ Forall2 (near fl (err e B (length Ds)) (K ^ length Ds * B)) y Y.
Proof.
  intros HK ds Ds a A e B Y E HB Ha Hd. revert Ds a A e B Y E HB Ha Hd.
  induction ds as [|d ds IH]; intros Ds a A e B Y E HB Ha Hd Hr HY; inversion Hd as [|d' D ds' Ds' Hd1 Hd2 EQ1 EQ2]; subst.
  - cbn in HY. injection HY as <-. exists a. split; [reflexivity|]. cbn [length pow]. rewrite err_0, Rmult_1_l. exact Ha.
  - inversion Hr as [|D' Ds'' Hr1 Hr2]; subst.
    cbn [o_waverec_loop] in HY |- *. unfold o_waverec_step in *.
    assert (Ea : zlen (A : list (ops_of Rring)) = zlen a) by exact (eq_sym (F2_zlen _ _ _ Ha)).
    assert (Ed : zlen (D : list (ops_of Rring)) = zlen d) by exact (eq_sym (F2_zlen _ _ _ Hd1)).
    assert (Ed' : length (D : list (ops_of Rring)) = length d) by exact (eq_sym (Forall2_len Hd1)).
    rewrite Ea, Ed, Ed' in HY. clear Ea Ed Ed'.
    assert (S : forall a' (A' : list Rring), Forall2 (near fl e B) a' A' ->
      (y <- o_idwt_single (O := ops_of Rring) fuel A' D (raw_wavelet b) m ;; o_waverec_loop (O := ops_of Rring) fuel y Ds' (raw_wavelet b) m) = Ok Y ->
      exists y, (y <- o_idwt_single fuel a' d w m ;; o_waverec_loop fuel y ds w m) = Ok y /\ Forall2 (near fl (err e B (length (D :: Ds'))) (K ^ length (D :: Ds') * B)) y Y).
    { intros a' A' Ha' HY'. rewrite o_idwt_ring in HY'. destruct (idwt_single fuel A' D b m) as [y1| | |] eqn:E1; try discriminate. cbn [bind] in HY'.
      destruct (real_idwt_ok m A' D y1 Hr1 E1) as (L1 & L2 & L3). rewrite <- L1 in Hr1.
      rewrite (idwt_single_spec Rring fuel A' D b m Hb L1 L2 L3 Hr1) in E1. injection E1 as E1.
      destruct (idwt_near m e B a' d A' D HK E HB Ha' Hd1 L1 L2 L3 Hr1) as (y & Y1 & Y2). rewrite E1 in Y2.
      rewrite Y1. cbn [bind].
      destruct (IH Ds' y y1 (step e B) (K * B) Y) as (y' & Z1 & Z2).
      - apply step_nonneg; assumption.
      - apply Rmult_le_pos; assumption.
      - exact Y2.
      - eapply Forall2_mono; [|exact Hd2]. intros p q. apply nears_mono; [apply step_ge; assumption|apply KB_ge, HB].
      - exact Hr2.
      - exact HY'.
      - exists y'. split; [exact Z1|]. eapply nears_mono; [| |exact Z2]; [rewrite err_front; apply Rle_refl|]. change (K ^ length Ds' * (K * B) <= K * K ^ length Ds' * B). apply Req_le. ring. }
    destruct (zlen a =? zlen d + 1)%Z; cbn [bind] in HY |- *; [apply (S _ _ (firstn_near e B _ _ _ Ha) HY)|].
    destruct (negb _); cbn [bind] in HY |- *; [discriminate|]. apply (S _ _ Ha HY).
Qed.
End Near.
