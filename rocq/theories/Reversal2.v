(** Padding backwards, the built-in filters of linear phase, and the samples a
    coefficient depends on. *)
From Verif Require Import Base BaseLemmas CConv Spec ExtLemmas Instances Lengths Dwt DwtProofs PR Linear Multilevel MultilevelProofs Facts1 Pad PadProofs PolySpec PolyData ReversalSpec Reversal.
Open Scope Z_scope.

Section R2.
Variable C : CRing.
Add Ring rev2ring : (rth C).
Implicit Types (x y h g c : list C) (w : wavelet C).

(** ** Padding *)
Lemma window_rev m x l r : min_len m <= zlen x -> (m = PERIODIZATION -> zlen x mod 2 = 0) -> 0 <= l -> 0 <= r ->
  window m (rev x) r (zlen x + l) = rev (window m x l (zlen x + r)).
Proof.
  intros Hm He Hl Hr. pose proof (zlen_nonneg x) as Hx. apply list_ext; unfold window; [rewrite zlen_rev, !zlen_tab by lia; lia|].
  intros i. rewrite zlen_tab by lia. intros Hi. rewrite gz_rev_all, zlen_tab by lia. rewrite !gz_tab by lia. rewrite ext_rev by auto. f_equal. lia.
Qed.
Theorem pad_rev fuel x l r m p : min_len m <= zlen x -> (m = PERIODIZATION -> zlen x mod 2 = 0) -> (m = SMOOTH -> 2 <= zlen x) ->
  1 <= l -> 1 <= r -> l + zlen x + r + 4 < Z.of_nat fuel -> pad fuel x l r (mode_name m) = Ok p -> pad fuel (rev x) r l (mode_name m) = Ok (rev p).
Proof.
  intros Hm He Hs Hl Hr Hf E. assert (PE : padded_end m (zlen x) = zlen x) by (destruct m; try reflexivity; cbn [padded_end]; rewrite He by reflexivity; lia).
  rewrite pad_spec in E by (auto; lia). injection E as <-.
  rewrite pad_spec by (rewrite ?zlen_rev; auto; lia). rewrite zlen_rev, PE. f_equal. apply window_rev; auto; lia.
Qed.

(** ** Locality *)
Lemma sample_step F j k t : 2 <= F -> 0 <= t < F -> first_sample F (S j) k <= first_sample F j (2 * k + 1 - t) /\ last_sample j (2 * k + 1 - t) <= last_sample (S j) k.
Proof.
  unfold first_sample, last_sample. intros HF Ht. rewrite Nat2Z.inj_succ, Z.pow_succ_r by lia. pose proof (Z.pow_pos_nonneg 2 (Z.of_nat j) ltac:(lia) ltac:(lia)). split; nia.
Qed.
Lemma inside_window F N j k : inside F N j k <-> 0 <= first_sample F j k /\ last_sample j k < N.
Proof. unfold inside, first_sample, last_sample. lia. Qed.

Lemma analysis_at m h x k : m <> PERIODIZATION -> 0 <= k < coeff_len m (zlen x) (zlen h) -> gz (analysis m h x) k = conv h (ext m x) (2 * k + 1).
Proof. intros Hm Hk. unfold analysis. rewrite gz_tab by exact Hk. replace (first_pos m (zlen h)) with 1 by (destruct m; reflexivity || congruence). reflexivity. Qed.

(** One more level with another filter of the same length. *)
Lemma local_step m m' h g x y j k s : m <> PERIODIZATION -> m' <> PERIODIZATION -> 2 <= zlen h -> zlen g = zlen h -> 1 <= zlen x -> 1 <= zlen y ->
  inside (zlen h) (zlen x) (S j) k -> inside (zlen h) (zlen y) (S j) (k + s) ->
  (forall i, inside (zlen h) (zlen x) j i -> inside (zlen h) (zlen y) j (i + 2 * s) ->
     first_sample (zlen h) (S j) k <= first_sample (zlen h) j i -> last_sample j i <= last_sample (S j) k ->
     gz (approx m h j x) i = gz (approx m' h j y) (i + 2 * s)) ->
  gz (analysis m g (approx m h j x)) k = gz (analysis m' g (approx m' h j y)) (k + s).
Proof.
  intros Hm Hm' Hh Hg Hx Hy I I' H. pose proof (inside_range m _ _ _ _ Hh I) as B. pose proof (inside_range m' _ _ _ _ Hh I') as B'. cbn [approx_len] in B, B'.
  rewrite !analysis_at by (rewrite ?zlen_approx by lia; rewrite ?Hg; auto). unfold conv. apply sumZ_ext. rewrite Hg. intros t Ht. f_equal.
  pose proof (inside_step _ _ _ _ t Hh Ht I) as J. pose proof (inside_step _ _ _ _ t Hh Ht I') as J'.
  rewrite !ext_in by (rewrite zlen_approx by lia; apply inside_range; assumption).
  destruct (sample_step (zlen h) j k t Hh Ht). replace (2 * (k + s) + 1 - t) with (2 * k + 1 - t + 2 * s) in * by lia. apply H; auto.
Qed.
Lemma approx_local m m' h x y : m <> PERIODIZATION -> m' <> PERIODIZATION -> 2 <= zlen h -> 1 <= zlen x -> 1 <= zlen y -> forall j k s,
  inside (zlen h) (zlen x) j k -> inside (zlen h) (zlen y) j (k + s) ->
  (forall i, first_sample (zlen h) j k <= i <= last_sample j k -> gz y (i + 2 ^ Z.of_nat j * s) = gz x i) ->
  gz (approx m h j x) k = gz (approx m' h j y) (k + s).
Proof.
  intros Hm Hm' Hh Hx Hy. induction j as [|j IH]; intros k s I I' H.
  - cbn [approx]. specialize (H k). unfold first_sample, last_sample in H. cbn [Z.of_nat] in H. rewrite Z.pow_0_r in H. replace (k + s) with (k + 1 * s) by lia. symmetry. apply H. lia.
  - cbn [approx]. apply local_step; auto. intros i J J' A B. apply IH; auto. intros u Hu.
    specialize (H u ltac:(lia)). rewrite Nat2Z.inj_succ, Z.pow_succ_r in H by lia. rewrite <- H. f_equal. lia.
Qed.
Lemma nth_details_seq w m x n j : (j < n)%nat ->
  nth j (map (fun i => analysis m (dec_hi w) (approx m (dec_lo w) i x)) (seq 0 n)) [] = analysis m (dec_hi w) (approx m (dec_lo w) j x).
Proof.
  intros H. rewrite (nth_indep _ _ (analysis m (dec_hi w) (approx m (dec_lo w) 0 x))) by (rewrite map_length, seq_length; exact H).
  rewrite (map_nth (fun i => analysis m (dec_hi w) (approx m (dec_lo w) i x))). rewrite seq_nth by exact H. reflexivity.
Qed.
Theorem wavedec_local fuel x y w m m' level level' cA ds cA' ds' : wf_bank w -> m <> PERIODIZATION -> m' <> PERIODIZATION -> 1 <= zlen x -> 1 <= zlen y -> 0 <= level -> 0 <= level' ->
  levels_ok m (dec_len w) (Z.to_nat level) (zlen x) -> levels_ok m' (dec_len w) (Z.to_nat level') (zlen y) ->
  resources fuel (zlen x) (dec_len w) -> resources fuel (zlen y) (dec_len w) ->
  wavedec fuel x w m (Some level) = Ok (cA :: rev ds) -> wavedec fuel y w m' (Some level') = Ok (cA' :: rev ds') ->
  (level = level' -> forall k s, inside (dec_len w) (zlen x) (Z.to_nat level) k -> inside (dec_len w) (zlen y) (Z.to_nat level) (k + s) ->
     (forall i, first_sample (dec_len w) (Z.to_nat level) k <= i <= last_sample (Z.to_nat level) k -> gz y (i + 2 ^ level * s) = gz x i) ->
     gz cA' (k + s) = gz cA k) /\
  (forall j, (j < Z.to_nat level)%nat -> (j < Z.to_nat level')%nat -> forall k s, inside (dec_len w) (zlen x) (S j) k -> inside (dec_len w) (zlen y) (S j) (k + s) ->
     (forall i, first_sample (dec_len w) (S j) k <= i <= last_sample (S j) k -> gz y (i + 2 ^ Z.of_nat (S j) * s) = gz x i) ->
     gz (nth j ds' []) (k + s) = gz (nth j ds []) k).
Proof.
  intros Hw Hm Hm' Hx Hy Hl Hl' Hlev Hlev' Hr Hr' E E'. pose proof Hw as (H1 & H2 & H3 & H4 & H5).
  destruct (wavedec_structure C fuel x w m level Hw Hx Hl Hlev Hr) as (a & d & F1 & F2 & F3 & F4 & F5). rewrite E in F1. injection F1 as <- Ed.
  destruct (wavedec_structure C fuel y w m' level' Hw Hy Hl' Hlev' Hr') as (a' & d' & F1' & F2' & F3' & F4' & F5'). rewrite E' in F1'. injection F1' as <- Ed'.
  apply (f_equal (@rev (list C))) in Ed, Ed'. rewrite !rev_involutive in Ed, Ed'. subst d d'. split.
  - intros <- k s I I' H. rewrite F3, F3'. symmetry. apply approx_local; auto. intros i Hi. rewrite Z2Nat.id by lia. apply H. exact Hi.
  - intros j Hj Hj' k s I I' H. destruct (F5 j Hj) as (-> & _). destruct (F5' j Hj') as (-> & _). symmetry. apply local_step; auto.
    intros i J J' A B. apply approx_local; auto. intros u Hu. specialize (H u ltac:(unfold dec_len in *; lia)). rewrite Nat2Z.inj_succ, Z.pow_succ_r in H by lia. rewrite <- H. f_equal. lia.
Qed.

(** In zero mode nothing needs to be inside. *)
Lemma approx_local_zero h x y : 2 <= zlen h -> 1 <= zlen x -> zlen y = zlen x -> forall j k,
  (forall i, first_sample (zlen h) j k <= i <= last_sample j k -> gz y i = gz x i) -> gz (approx ZEROPAD h j y) k = gz (approx ZEROPAD h j x) k.
Proof.
  intros Hh Hx L. induction j as [|j IH]; intros k H.
  - cbn [approx]. apply H. unfold first_sample, last_sample. cbn [Z.of_nat]. rewrite Z.pow_0_r. lia.
  - assert (LE : zlen (approx ZEROPAD h (S j) y) = zlen (approx ZEROPAD h (S j) x)) by (rewrite !zlen_approx by lia; rewrite L; reflexivity).
    destruct (Z.lt_ge_cases k 0); [rewrite !gz_out by lia; reflexivity|]. destruct (Z.lt_ge_cases k (zlen (approx ZEROPAD h (S j) x))) as [Hk|]; [|rewrite !gz_out by lia; reflexivity].
    rewrite zlen_approx in Hk by lia. cbn [approx_len] in Hk. cbn [approx]. rewrite !analysis_at by (try discriminate; rewrite ?zlen_approx, ?L by lia; lia).
    unfold conv. apply sumZ_ext. intros t Ht. f_equal. unfold ext. rewrite !zlen_approx, L by lia. destruct (_ && _); [|reflexivity]. apply IH.
    intros i Hi. apply H. destruct (sample_step (zlen h) j k t Hh Ht). lia.
Qed.
Lemma detail_local_zero h g x y j k : 2 <= zlen h -> zlen g = zlen h -> 1 <= zlen x -> zlen y = zlen x ->
  (forall i, first_sample (zlen h) (S j) k <= i <= last_sample (S j) k -> gz y i = gz x i) ->
  gz (analysis ZEROPAD g (approx ZEROPAD h j y)) k = gz (analysis ZEROPAD g (approx ZEROPAD h j x)) k.
Proof.
  intros Hh Hg Hx L H. assert (LA : forall z, 1 <= zlen z -> zlen (analysis ZEROPAD g (approx ZEROPAD h j z)) = approx_len ZEROPAD (zlen h) (S j) (zlen z)).
  { intros z Hz. pose proof (zlen_approx C ZEROPAD h j z Hz Hh) as E. pose proof (zlen_approx C ZEROPAD h (S j) z Hz Hh) as E'. cbn [approx] in E'. rewrite <- E'.
    unfold analysis. rewrite Hg. rewrite !zlen_tab; auto; pose proof (zlen_nonneg (approx ZEROPAD h j z)); cbn [coeff_len]; lia. }
  assert (LE : zlen (analysis ZEROPAD g (approx ZEROPAD h j y)) = zlen (analysis ZEROPAD g (approx ZEROPAD h j x))) by (rewrite !LA by lia; rewrite L; reflexivity).
  destruct (Z.lt_ge_cases k 0); [rewrite !gz_out by lia; reflexivity|]. destruct (Z.lt_ge_cases k (zlen (analysis ZEROPAD g (approx ZEROPAD h j x)))) as [Hk|]; [|rewrite !gz_out by lia; reflexivity].
  rewrite LA in Hk by lia. cbn [approx_len] in Hk. rewrite !analysis_at by (try discriminate; rewrite ?zlen_approx, ?L, ?Hg by lia; lia).
  unfold conv. apply sumZ_ext. rewrite Hg. intros t Ht. f_equal. unfold ext. rewrite !zlen_approx, L by lia. destruct (_ && _); [|reflexivity]. apply approx_local_zero; auto.
  intros i Hi. apply H. destruct (sample_step (zlen h) j k t Hh Ht). lia.
Qed.
Theorem wavedec_local_zero fuel x y w level : wf_bank w -> 1 <= zlen x -> zlen y = zlen x -> 0 <= level -> resources fuel (zlen x) (dec_len w) ->
  exists cA ds cA' ds', wavedec fuel x w ZEROPAD (Some level) = Ok (cA :: rev ds) /\ wavedec fuel y w ZEROPAD (Some level) = Ok (cA' :: rev ds') /\
    (forall k, (forall i, first_sample (dec_len w) (Z.to_nat level) k <= i <= last_sample (Z.to_nat level) k -> gz y i = gz x i) -> gz cA' k = gz cA k) /\
    forall j k, (j < Z.to_nat level)%nat -> (forall i, first_sample (dec_len w) (S j) k <= i <= last_sample (S j) k -> gz y i = gz x i) ->
      gz (nth j ds' []) k = gz (nth j ds []) k.
Proof.
  intros Hw Hx L Hl Hr. pose proof Hw as (H1 & H2 & H3 & H4 & H5).
  assert (Hlev : levels_ok ZEROPAD (dec_len w) (Z.to_nat level) (zlen x)) by (apply levels_ok_intro; auto).
  destruct (wavedec_structure C fuel x w ZEROPAD level Hw Hx Hl Hlev Hr) as (a & d & F1 & F2 & F3 & F4 & F5).
  destruct (wavedec_structure C fuel y w ZEROPAD level Hw ltac:(lia) Hl ltac:(rewrite L; exact Hlev) ltac:(rewrite L; exact Hr)) as (a' & d' & F1' & F2' & F3' & F4' & F5').
  exists a, d, a', d'. split; [exact F1|]. split; [exact F1'|]. split.
  - intros k H. rewrite F3, F3'. apply approx_local_zero; auto.
  - intros j k Hj H. destruct (F5 j Hj) as (-> & _). destruct (F5' j Hj) as (-> & _). apply detail_local_zero; auto.
Qed.
End R2.

(** A bank of linear phase, for examples. *)
Definition lp_bank : wavelet Zring := mkWavelet (C := Zring) [1; 3; 3; 1] [-1; -3; 3; 1] [1; 1; 1; 1] [1; -1; 1; -1].
