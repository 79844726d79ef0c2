(** Rounding errors: the bounds in the form of Rounding.v. *)
From Verif Require Import Base BaseLemmas CConv Spec ExtLemmas Instances Lengths Dwt DwtProofs Multilevel MultilevelProofs Facts1.
From Verif Require Import CwtReal RawConv RawRel HomRing Rounding RoundingProofs RoundingLevels RoundingFacts.
From Coq Require Import Reals Lra Psatz.
Open Scope R_scope.

Lemma fbnd_conv fl pf px F a : (0 <= F)%Z -> fbnd fl pf px F a = conv_bound fl F pf px a.
Proof.
  intros H. unfold fbnd, bnd, conv_bound. rewrite INR_IZR_INZ, Z2Nat.id, Nat.add_assoc by exact H. reflexivity.
Qed.
Lemma err_steps fl pf (b : wavelet Rring) K B n : err fl pf b K 0 B n = steps_bound fl (dec_len b) pf K B n.
Proof.
  unfold err, steps_bound, growth, under. rewrite INR_IZR_INZ, Z2Nat.id by apply zlen_nonneg. rewrite Rmult_0_r, Rplus_0_r. unfold growth. reflexivity.
Qed.

Theorem dwt_error (fl : flarith) pf px fuel (w : owavelet fl) (b : wavelet Rring) (x : list fl) (X : list Rring) m :
  wf_bank b -> rounded_bank fl pf w b -> copying m = true -> Forall2 (rounded fl px) x X ->
  (min_len m <= zlen X)%Z -> resources fuel (zlen X) (dec_len b) ->
  exists cA cD, o_dwt_single fuel x w m = Ok (cA, cD) /\
    (zlen cA = coeff_len m (zlen X) (dec_len b))%Z /\ zlen cD = zlen cA /\
    forall k, (0 <= k < zlen cA)%Z ->
      Rabs (gz (C := Rring) (map val cA) k - gz (analysis m (dec_lo b) X) k) <=
        conv_bound fl (dec_len b) pf px (gz (analysis (abs_mode m) (absl (dec_lo b)) (absl X)) k) /\
      Rabs (gz (C := Rring) (map val cD) k - gz (analysis m (dec_hi b) X) k) <=
        conv_bound fl (dec_len b) pf px (gz (analysis (abs_mode m) (absl (dec_hi b)) (absl X)) k).
Proof.
  intros Hb Hw Hm Hx Hl Hr. destruct (dwt_rounded fl pf px fuel w b Hb Hw x X m Hm Hx Hl Hr) as (cA & cD & D1 & (D2 & D3) & (D4 & D5)).
  pose proof Hb as (W1 & W2 & W3 & W4 & W5). pose proof (min_len_1 m).
  assert (LA : zlen (analysis m (dec_lo b) X) = coeff_len m (zlen X) (dec_len b)) by (apply zlen_analysis; [lia|unfold dec_len in W5; lia]).
  assert (LD : zlen (analysis m (dec_hi b) X) = coeff_len m (zlen X) (dec_len b)) by (rewrite zlen_analysis, W1; [reflexivity|lia|unfold dec_len in *; lia]).
  exists cA, cD. split; [exact D1|]. rewrite D2, D4, LA, LD. split; [reflexivity|]. split; [reflexivity|].
  rewrite LA in D3. rewrite LD in D5. intros k Hk. rewrite <- !fbnd_conv by (unfold dec_len; apply zlen_nonneg). auto.
Qed.
Theorem idwt_error (fl : flarith) pf px fuel (w : owavelet fl) (b : wavelet Rring) (a d : list fl) (A D : list Rring) m :
  wf_bank b -> rounded_bank fl pf w b -> Forall2 (rounded fl px) a A -> Forall2 (rounded fl px) d D ->
  zlen A = zlen D -> (1 <= zlen A)%Z -> (1 <= rec_len m (zlen A) (dec_len b))%Z -> resources fuel (zlen A) (dec_len b) ->
  exists y, o_idwt_single fuel a d w m = Ok y /\ zlen y = rec_len m (zlen A) (dec_len b) /\
    forall k, (0 <= k < zlen y)%Z ->
      Rabs (gz (C := Rring) (map val y) k - gz (vadd (synthesis m (rec_lo b) A) (synthesis m (rec_hi b) D)) k) <=
      conv_bound fl (dec_len b) pf px (gz (vadd (synthesis m (absl (rec_lo b)) (absl A)) (synthesis m (absl (rec_hi b)) (absl D))) k).
Proof.
  intros Hb Hw Ha Hd Hl H1 H2 Hr. destruct (idwt_rounded fl pf px fuel w b Hb Hw a d A D m Ha Hd Hl H1 H2 Hr) as (y & Y1 & Y2 & Y3).
  destruct Hb as (_ & B1 & B2 & _ & _).
  assert (Lv : zlen (vadd (synthesis m (rec_lo b) A) (synthesis m (rec_hi b) D)) = rec_len m (zlen A) (dec_len b)).
  { rewrite zlen_vadd; rewrite !zlen_synthesis; rewrite ?B1, ?B2, <- ?Hl; try lia; reflexivity. }
  exists y. split; [exact Y1|]. rewrite Y2, Lv. split; [reflexivity|]. rewrite Lv in Y3. intros k Hk.
  rewrite <- fbnd_conv by (unfold dec_len; apply zlen_nonneg). apply Y3, Hk.
Qed.

Lemma near_pointwise (fl : flarith) e B (v : list fl) (r : list Rring) : 0 <= e -> Forall2 (near fl e B) v r ->
  zlen v = zlen r /\ forall k, (0 <= k < zlen v)%Z -> Rabs (gz (C := Rring) (map val v) k - gz r k) <= e.
Proof. intros E H. split; [exact (F2_zlen _ _ _ H)|]. intros k _. exact (near_apart fl e B v r E H k). Qed.

Theorem wavedec_error (fl : flarith) pf fuel (w : owavelet fl) (b : wavelet Rring) K B (x : list fl) m level :
  wf_bank b -> rounded_bank fl pf w b -> copying m = true -> 0 <= K -> norm1 (dec_lo b) <= K -> norm1 (dec_hi b) <= K ->
  (1 <= zlen x)%Z -> (forall v, In v x -> Rabs (val v) <= B) -> (0 <= level)%Z -> levels_ok m (dec_len b) (Z.to_nat level) (zlen x) ->
  resources fuel (zlen x) (dec_len b) ->
  let X := map val x : list Rring in let n := Z.to_nat level in
  exists a ds, o_wavedec fuel x w m (Some level) = Ok (a :: rev ds) /\ length ds = n /\
    (zlen a = zlen (approx m (dec_lo b) n X) /\ forall k, (0 <= k < zlen a)%Z ->
      Rabs (gz (C := Rring) (map val a) k - gz (approx m (dec_lo b) n X) k) <= steps_bound fl (dec_len b) pf K B n) /\
    forall j, (j < n)%nat -> let d := nth j ds [] in let D := analysis m (dec_hi b) (approx m (dec_lo b) j X) in
      zlen d = zlen D /\ forall k, (0 <= k < zlen d)%Z ->
        Rabs (gz (C := Rring) (map val d) k - gz D k) <= steps_bound fl (dec_len b) pf K B (S j).
Proof.
  intros Hb Hw Hm K0 K1 K2 Hx HB Hl Hlev Hr X n.
  destruct (wavedec_rounding fl pf fuel w b Hw K B x m level Hb Hm K0 K1 K2 Hx HB Hl Hlev Hr) as (a & ds & A1 & A2 & A3 & A4).
  assert (B0 : 0 <= B). { destruct x as [|v x]; [unfold zlen in Hx; cbn in Hx; lia|]. specialize (HB v (or_introl eq_refl)). pose proof (Rabs_pos (val v)). lra. }
  exists a, ds. split; [exact A1|]. split; [exact A2|]. split.
  - rewrite <- err_steps. eapply near_pointwise; [|exact A3]. apply err_nonneg; auto; lra.
  - intros j Hj d D. rewrite <- err_steps. eapply near_pointwise; [|apply A4, Hj]. apply err_nonneg; auto; lra.
Qed.

Theorem round_trip_error (fl : flarith) pf fuel (w : owavelet fl) (b : wavelet Rring) K B (x : list fl) m level :
  rounded_bank fl pf w b -> pr_wavelet b -> copying m = true -> 1 <= K -> norm1 (dec_lo b) <= K -> norm1 (dec_hi b) <= K ->
  (forall q, taps q (rec_lo b) + taps q (rec_hi b) <= K) ->
  (1 <= zlen x)%Z -> (forall v, In v x -> Rabs (val v) <= B) -> (0 <= level)%Z -> levels_ok m (dec_len b) (Z.to_nat level) (zlen x) ->
  resources fuel (zlen x) (dec_len b) ->
  exists cs y, o_wavedec fuel x w m (Some level) = Ok cs /\ o_waverec fuel cs w m = Ok y /\
    zlen y = (zlen x + (if (0 <? level)%Z && (zlen x mod 2 =? 1)%Z then 1 else 0))%Z /\
    forall i, (0 <= i < zlen x)%Z ->
      Rabs (gz (C := Rring) (map val y) i - gz (C := Rring) (map val x) i) <= steps_bound fl (dec_len b) pf K B (2 * Z.to_nat level).
Proof.
  intros Hw. rewrite <- err_steps. apply round_trip, Hw.
Qed.
