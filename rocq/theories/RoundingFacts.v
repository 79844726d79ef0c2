(** Rounding errors of a decomposition followed by the reconstruction. *)
From Verif Require Import Base BaseLemmas CConv Spec ExtLemmas Instances Lengths Dwt DwtProofs Multilevel MultilevelProofs FilterSpec Filters FiltersProofs FiltersFacts PRError Tables TablesProofs TablesFacts.
From Verif Require Import Facts1 CwtReal RawConv RawRel HomRing Rounding RoundingProofs RoundingLevels.
From Coq Require Import QArith Qcanon Qcabs Qabs Reals Qreals Lra Psatz.
Open Scope R_scope.

(** * The loops over a ring *)
Lemma o_wavedec_ring (C : CRing) fuel (x : list C) b m level :
  o_wavedec (O := ops_of C) fuel x (raw_wavelet b) m level = wavedec fuel x b m level.
Proof.
  unfold o_wavedec, wavedec. change (odec_len (raw_wavelet b)) with (dec_len b). change (zlen (x : list (ops_of C))) with (zlen x).
  destruct (check_level _ level) as [l| | |]; cbn [bind]; try reflexivity.
  enough (H : forall n (a : list C) acc, o_wavedec_loop (O := ops_of C) fuel a (raw_wavelet b) m n acc = wavedec_loop fuel a b m n acc) by apply H.
  induction n as [|n IH]; intros a acc; [reflexivity|]. cbn [o_wavedec_loop wavedec_loop]. rewrite (o_dwt_ring C fuel a b m). unfold dwt.
  destruct (dwt_single fuel a b m) as [[p q]| | |]; cbn [bind fst snd]; auto.
Qed.
Lemma o_waverec_ring (C : CRing) fuel b m : forall ds (a : list C),
  waverec_loop fuel (Some a) (map Some ds) b m = (y <- o_waverec_loop (O := ops_of C) fuel a ds (raw_wavelet b) m ;; Ok (Some y)).
Proof.
  induction ds as [|d ds IH]; intros a; [reflexivity|]. cbn [map waverec_loop o_waverec_loop]. unfold waverec_step, o_waverec_step.
  change (zlen (a : list (ops_of C))) with (zlen a). change (zlen (d : list (ops_of C))) with (zlen d).
  assert (S : forall a' : list C, (y <- idwt fuel (Some a') (Some d) b m ;; waverec_loop fuel (Some y) (map Some ds) b m) =
    (y <- (y <- o_idwt_single (O := ops_of C) fuel a' d (raw_wavelet b) m ;; o_waverec_loop (O := ops_of C) fuel y ds (raw_wavelet b) m) ;; Ok (Some y))).
  { intros a'. rewrite o_idwt_ring. cbn [idwt]. destruct (idwt_single fuel a' d b m) as [y| | |]; cbn [bind]; auto. }
  destruct (zlen a =? zlen d + 1)%Z; cbn [bind]; [apply S|]. destruct (negb _); cbn [bind]; [reflexivity|apply S].
Qed.

Lemma Forall2_rev {X Y} (P : X -> Y -> Prop) l l' : Forall2 P l l' -> Forall2 P (rev l) (rev l').
Proof. induction 1; cbn; [constructor|]. apply Forall2_app; auto. Qed.
Lemma nth_firstn_lt {X} (d : X) : forall n l i, (i < n)%nat -> nth i (firstn n l) d = nth i l d.
Proof. induction n; intros [|a l] [|i] H; cbn; try lia; auto. apply IHn. lia. Qed.

(** * Round trip of several levels *)
Section Trip.
Variable fl : flarith.
Variables pf fuel : nat.
Variables (w : owavelet fl) (b : wavelet Rring).
Hypothesis Hw : rounded_bank fl pf w b.

Lemma rounded_len : odec_len w = dec_len b.
Proof. destruct Hw as (H & _). exact (F2_zlen _ _ _ H). Qed.
Lemma near_0 B (x : list fl) : (forall v, In v x -> Rabs (val v) <= B) -> Forall2 (near fl 0 B) x (map val x).
Proof.
  induction x as [|v x IH]; intros H; cbn [map]; constructor.
  - split; [|apply H; left; reflexivity]. unfold Rminus. rewrite Rplus_opp_r, Rabs_R0. apply Rle_refl.
  - apply IH. intros t Ht. apply H. right. exact Ht.
Qed.

Theorem wavedec_rounding K B (x : list fl) m level : wf_bank b -> copying m = true -> 0 <= K -> norm1 (dec_lo b) <= K -> norm1 (dec_hi b) <= K ->
  (1 <= zlen x)%Z -> (forall v, In v x -> Rabs (val v) <= B) -> (0 <= level)%Z -> levels_ok m (dec_len b) (Z.to_nat level) (zlen x) ->
  resources fuel (zlen x) (dec_len b) ->
  let X := map val x : list Rring in let n := Z.to_nat level in
  exists a ds, o_wavedec fuel x w m (Some level) = Ok (a :: rev ds) /\ length ds = n /\
    Forall2 (near fl (err fl pf b K 0 B n) (K ^ n * B)) a (approx m (dec_lo b) n X) /\
    forall j, (j < n)%nat -> Forall2 (near fl (err fl pf b K 0 B (S j)) (K ^ S j * B)) (nth j ds []) (analysis m (dec_hi b) (approx m (dec_lo b) j X)).
Proof.
  intros Hb Hm K0 K1 K2 Hx HB Hl Hlev Hr X n.
  assert (B0 : 0 <= B). { destruct x as [|v x]; [unfold zlen in Hx; cbn in Hx; lia|]. specialize (HB v (or_introl eq_refl)). pose proof (Rabs_pos (val v)). lra. }
  assert (LX : zlen X = zlen x) by apply zlen_map.
  destruct (wavedec_near fl pf fuel w b Hb Hw K K0 m Hm K1 K2 n x X 0 B [] (Rle_refl 0) B0 (near_0 B x HB)) as (a & ds & A1 & A2 & A3 & A4);
    try (rewrite LX; assumption).
  exists a, ds. split; [|auto]. unfold o_wavedec. rewrite rounded_len, check_level_1. replace (level <? 0)%Z with false by lia. cbn [bind].
  fold n. rewrite A1. cbn [app]. rewrite rev_app_distr. reflexivity.
Qed.

Theorem round_trip K B (x : list fl) m level : pr_wavelet b -> copying m = true -> 1 <= K -> norm1 (dec_lo b) <= K -> norm1 (dec_hi b) <= K ->
  (forall q, taps q (rec_lo b) + taps q (rec_hi b) <= K) ->
  (1 <= zlen x)%Z -> (forall v, In v x -> Rabs (val v) <= B) -> (0 <= level)%Z -> levels_ok m (dec_len b) (Z.to_nat level) (zlen x) ->
  resources fuel (zlen x) (dec_len b) ->
  exists cs y, o_wavedec fuel x w m (Some level) = Ok cs /\ o_waverec fuel cs w m = Ok y /\
    zlen y = (zlen x + (if (0 <? level)%Z && (zlen x mod 2 =? 1)%Z then 1 else 0))%Z /\
    forall i, (0 <= i < zlen x)%Z ->
      Rabs (gz (C := Rring) (map val y) i - gz (C := Rring) (map val x) i) <= err fl pf b K 0 B (2 * Z.to_nat level).
Proof.
  intros Hpr Hm K1 KL KH KT Hx HB Hl Hlev Hr. pose proof (pr_wf b Hpr) as Hb. assert (K0 : 0 <= K) by lra.
  assert (B0 : 0 <= B). { destruct x as [|v x]; [unfold zlen in Hx; cbn in Hx; lia|]. specialize (HB v (or_introl eq_refl)). pose proof (Rabs_pos (val v)). lra. }
  destruct (wavedec_rounding K B x m level Hb Hm K0 KL KH Hx HB Hl Hlev Hr) as (a & ds & A1 & A2 & A3 & A4).
  set (X := map val x : list Rring) in *. assert (LX : zlen X = zlen x) by apply zlen_map. set (n := Z.to_nat level) in *.
  destruct (waverec_wavedec_full Rring fuel X b m level Hpr ltac:(rewrite LX; exact Hx) Hl ltac:(rewrite LX; exact Hlev) ltac:(rewrite LX; exact Hr))
    as (cs & Y & C1 & C2 & C3 & C4).
  destruct (wavedec_structure Rring fuel X b m level Hb ltac:(rewrite LX; exact Hx) Hl ltac:(rewrite LX; exact Hlev) ltac:(rewrite LX; exact Hr))
    as (cA & Ds & D1 & D2 & D3 & D4 & D5).
  rewrite C1 in D1. injection D1 as ->. fold n in D2, D3, D4, D5.
  pose proof Hb as (Hb1 & _ & _ & _ & HF2).
  assert (Hds : Forall2 (Forall2 (near fl (err fl pf b K 0 B n) (K ^ n * B))) (rev ds) (rev Ds)).
  { apply Forall2_rev. assert (T : forall (l : list (list fl)) (l' : list (list Rring)), length l = length l' ->
      (forall j, (j < length l)%nat -> Forall2 (near fl (err fl pf b K 0 B n) (K ^ n * B)) (nth j l []) (nth j l' [])) ->
      Forall2 (Forall2 (near fl (err fl pf b K 0 B n) (K ^ n * B))) l l').
    { induction l as [|c l IH]; intros [|c' l'] E H; cbn in E; try discriminate E; constructor; [apply (H 0%nat); cbn; lia|].
      apply IH; [injection E as E; exact E|]. intros j Hj. apply (H (S j)). cbn. lia. }
    apply T; [congruence|]. intros j Hj. rewrite A2 in Hj. destruct (D5 j Hj) as (-> & _). 
    destruct (err_mono fl pf b K K0 K1 0 B (S j) n (Rle_refl 0) B0 ltac:(lia)) as (M1 & M2).
    eapply nears_mono; [exact M1|exact M2|]. apply A4, Hj. }
  assert (HY : o_waverec_loop (O := ops_of Rring) fuel cA (rev Ds) (raw_wavelet b) m = Ok Y).
  { assert (W : waverec fuel (map Some (cA :: rev Ds)) b m = waverec_loop fuel (Some cA) (map Some (rev Ds)) b m).
    { cbn [map waverec]. destruct (map Some (rev Ds)); reflexivity. }
    assert (C2' : waverec_loop fuel (Some cA) (map Some (rev Ds)) b m = Ok (Some Y)) by (rewrite <- W; exact C2). clear C2. rename C2' into C2.
    rewrite o_waverec_ring in C2. destruct (o_waverec_loop (O := ops_of Rring) fuel cA (rev Ds) (raw_wavelet b) m) as [y| | |]; cbn [bind] in C2; try discriminate.
    injection C2 as ->. reflexivity. }
  assert (Hrs : Forall (fun D => resources fuel (zlen D) (dec_len b)) (rev Ds)).
  { apply Forall_rev. apply Forall_forall. intros D HD. destruct (In_nth Ds D [] HD) as (j & J1 & J2). rewrite D2 in J1. destruct (D5 j J1) as (_ & J3).
    rewrite J2, LX in J3. rewrite J3. pose proof (approx_len_pos m (dec_len b) (S j) (zlen x) Hx HF2). destruct Hr as [R1 R2]. split; lia. }
  rewrite D3 in HY. destruct (waverec_near fl pf fuel w b Hb Hw K K0 K1 m KT (rev ds) (rev Ds) a _ _ _ Y (err_nonneg fl pf b K K0 0 B n (Rle_refl 0) B0)
    ltac:(apply Rmult_le_pos; [apply pow_K; exact K0|exact B0]) A3 Hds Hrs HY) as (y & Y1 & Y2).
  exists (a :: rev ds), y. split; [exact A1|]. split; [exact Y1|].
  assert (Ly : zlen y = zlen Y) by exact (F2_zlen _ _ _ Y2). split; [rewrite Ly, C4, LX; reflexivity|].
  assert (Ln : length (rev Ds) = n) by (rewrite rev_length; exact D2). rewrite Ln, (err_comp fl pf b K 0 B n n) in Y2.
  replace (n + n)%nat with (2 * n)%nat in Y2 by lia.
  intros i Hi. pose proof (near_apart fl _ _ y Y (err_nonneg fl pf b K K0 0 B _ (Rle_refl 0) B0) Y2 i) as P.
  assert (E : gz (C := Rring) X i = gz (C := Rring) Y i).
  { transitivity (gz (C := Rring) (firstn (length X) Y) i); [f_equal; symmetry; exact C3|].
    unfold gz. destruct (Z.leb_spec 0 i); [|reflexivity]. apply nth_firstn_lt. unfold zlen in *. unfold X. rewrite map_length. lia. }
  eapply Rle_trans; [|exact P]. apply Req_le. f_equal. apply f_equal2; [reflexivity|exact E].
Qed.
End Trip.
