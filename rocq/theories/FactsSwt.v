(** Property statements of the 1-D stationary transform. *)
From Verif Require Import Base BaseLemmas CConv Spec ExtLemmas Lengths LengthsProofs Dwt DwtProofs PR Linear MultilevelProofs Swt SwtSpec SwtProofs Facts1.

Section F.
Variable C : CRing.
Add Ring Cring_ring_fs : (rth C).
Variable fuel : nat.

Definition norm_factor (norm : option C) : C := match norm with Some c => c | None => r1 end.

Lemma swt_norm w (x : list C) level s trim norm :
  swt fuel x w (Some level) s trim norm =
  swt_single fuel x (match norm with Some c => rescale c w | None => w end) level s trim.
Proof. reflexivity. Qed.

Lemma swt_values w (x : list C) level s norm : wf_bank w -> 1 <= zlen x -> 0 <= s -> 1 <= level ->
  (2 ^ (s + level) | zlen x) -> swt_resources fuel (zlen x) (dec_len w) (s + level) ->
  exists a d : nat -> list C,
    swt fuel x w (Some level) s false norm = Ok (map (fun j => SPair (a j) (d j)) (rev (seq 1 (Z.to_nat level)))) /\
    swt fuel x w (Some level) s true norm = Ok (SArr (a (Z.to_nat level)) :: map (fun j => SArr (d j)) (rev (seq 1 (Z.to_nat level)))) /\
    a O = x /\ forall j, zlen (a j) = zlen x /\ zlen (d j) = zlen x /\
    forall n, 0 <= n < zlen x ->
    let step := 2 ^ (s + Z.of_nat j) in
    gz (a (S j)) n = sumZ 0 (dec_len w) (fun m => norm_factor norm [*] gz (dec_lo w) m [*] gz (a j) ((n + step * (dec_len w / 2 - m)) mod zlen x)) /\
    gz (d (S j)) n = sumZ 0 (dec_len w) (fun m => norm_factor norm [*] gz (dec_hi w) m [*] gz (a j) ((n + step * (dec_len w / 2 - m)) mod zlen x)).
Proof.
  intros Hw Hx Hs HL Hd Hr. rewrite !swt_norm.
  set (w' := match norm with Some c => rescale c w | None => w end).
  assert (Hw' : wf_bank w') by (unfold w'; destruct norm; auto using rescale_wf).
  assert (Hl' : dec_len w' = dec_len w) by (unfold w'; destruct norm; auto using rescale_len).
  assert (Hlo : forall m, gz (dec_lo w') m = norm_factor norm [*] gz (dec_lo w) m).
  { intros m. unfold w', norm_factor. destruct norm; [unfold rescale; cbn [dec_lo]; rewrite gz_scale|]; ring. }
  assert (Hhi : forall m, gz (dec_hi w') m = norm_factor norm [*] gz (dec_hi w) m).
  { intros m. unfold w', norm_factor. destruct norm; [unfold rescale; cbn [dec_hi]; rewrite gz_scale|]; ring. }
  exists (fun j => swt_approx (dec_lo w') s j x), (fun j => swt_detail (dec_lo w') (dec_hi w') s j x).
  rewrite !swt_single_spec by (auto; rewrite Hl'; auto).
  split; [reflexivity|]. split; [reflexivity|]. split; [reflexivity|]. intros j.
  split; [apply zlen_swt_approx|]. split; [apply zlen_swt_detail|]. intros n Hn. cbn zeta.
  assert (Hst : s + Z.of_nat (S j) - 1 = s + Z.of_nat j) by lia.
  destruct Hw' as (H1 & _). split.
  - cbn [swt_approx]. rewrite gz_swt_step by (rewrite zlen_swt_approx; auto). rewrite zlen_swt_approx. fold (dec_len w').
    rewrite Hl', Hst. apply sumZ_ext. intros m Hm. rewrite Hlo. reflexivity.
  - unfold swt_detail. replace (S j - 1)%nat with j by lia. rewrite gz_swt_step by (rewrite zlen_swt_approx; auto). rewrite zlen_swt_approx.
    rewrite H1, Hl', Hst. apply sumZ_ext. intros m Hm. rewrite Hhi. reflexivity.
Qed.

Lemma swt_roll w (x : list C) level s trim norm r : wf_bank w -> 1 <= zlen x -> 0 <= s -> 1 <= level ->
  (2 ^ (s + level) | zlen x) -> swt_resources fuel (zlen x) (dec_len w) (s + level) ->
  exists cs, swt fuel x w (Some level) s trim norm = Ok cs /\
    swt fuel (roll r x) w (Some level) s trim norm = Ok (map (item_map (roll r)) cs).
Proof.
  intros Hw Hx Hs HL Hd Hr. rewrite !swt_norm.
  set (w' := match norm with Some c => rescale c w | None => w end).
  assert (Hw' : wf_bank w') by (unfold w'; destruct norm; auto using rescale_wf).
  assert (Hl' : dec_len w' = dec_len w) by (unfold w'; destruct norm; auto using rescale_len).
  eexists. split; [apply swt_single_spec; auto; rewrite Hl'; auto|].
  rewrite swt_single_spec; auto; rewrite ?zlen_roll, ?Hl'; auto. f_equal. apply swt_out_roll.
Qed.

Lemma swt_energy w (x : list C) level isq2 : orthonormal w -> (r1 [+] r1) [*] (isq2 [*] isq2) = r1 ->
  1 <= zlen x -> 1 <= level -> (2 ^ level | zlen x) -> swt_resources fuel (zlen x) (dec_len w) level ->
  exists arrs, swt fuel x w (Some level) 0 true (Some isq2) = Ok (map SArr arrs) /\
    fold_right radd r0 (map (fun y => sumZ 0 (zlen y) (fun i => gz y i [*] gz y i)) arrs) =
    sumZ 0 (zlen x) (fun i => gz x i [*] gz x i).
Proof.
  intros (Hpr & E0 & E1) Hs Hx HL Hd Hr. pose proof (pr_wf w Hpr) as Hw. rewrite swt_norm.
  exists (swt_approx (dec_lo (rescale isq2 w)) 0 (Z.to_nat level) x :: map (fun j => swt_detail (dec_lo (rescale isq2 w)) (dec_hi (rescale isq2 w)) 0 j x) (rev (seq 1 (Z.to_nat level)))).
  split.
  - rewrite swt_single_spec; auto using rescale_wf; try lia. 2:{ rewrite rescale_len. auto. }
    cbn [map]. rewrite map_map. reflexivity.
  - pose proof (swt_trim_energy C (dec_lo w) (dec_hi w) x isq2 (Z.to_nat level)) as HE.
    unfold items_energy, sum_list, swt_trim in HE. cbn [map] in HE. rewrite map_map in HE.
    unfold rescale. cbn [dec_lo dec_hi map]. rewrite map_map. unfold energy, inner in HE. apply HE; auto.
    + unfold pr_wavelet in Hpr. rewrite E0, E1 in Hpr. exact Hpr.
    + rewrite Z2Nat.id by lia. auto.
Qed.

Lemma swt_guard w (x : list C) level s trim norm :
  wf_bank w -> 0 <= s -> swt_resources fuel (zlen x) (dec_len w) (Z.max 1 (s + level)) ->
  ((exists r, swt fuel x w (Some level) s trim norm = Ok r) <-> (1 <= zlen x /\ 1 <= level /\ (2 ^ (s + level) | zlen x))) /\
  (~ (1 <= zlen x /\ 1 <= level /\ (2 ^ (s + level) | zlen x)) -> swt fuel x w (Some level) s trim norm = Err ValueError).
Proof.
  intros Hw Hs Hr. rewrite swt_norm.
  apply swt_single_guard; auto; [destruct norm; auto using rescale_wf|]. destruct norm; rewrite ?rescale_len; auto.
Qed.

(** The default level is the largest admissible one for start level 0. *)
Lemma swt_default w (x : list C) trim norm j : swt_max_level (zlen x) = Ok j ->
  swt fuel x w None 0 trim norm = swt fuel x w (Some j) 0 trim norm.
Proof. unfold swt. intros ->. reflexivity. Qed.

(** The default level is never admissible above start level 0. *)
Lemma swt_default_start w (x : list C) trim norm s : 1 <= s -> swt fuel x w None s trim norm = Err ValueError.
Proof.
  intros Hs. unfold swt, swt_max_level. pose proof (zlen_nonneg x). destruct (Z.ltb_spec (zlen x) 1); [reflexivity|].
  destruct (swt_max_level_spec (zlen x)) as (j & Hj & Hj0 & Hd & _); [lia|]. rewrite Hj. cbn [bind].
  unfold swt_single. destruct (negb _); [reflexivity|]. replace (zlen x <? 1) with false by lia.
  destruct (Z.ltb_spec j 1); [reflexivity|]. replace (s <? 0) with false by lia. rewrite Hj. cbn [bind].
  destruct (Z.leb_spec j s); [reflexivity|]. replace (j <? s + j) with true by lia. reflexivity.
Qed.

(** Any request: an answer or ValueError, no undefined behaviour. *)
Lemma swt_safe w (x : list C) level s trim norm :
  wf_bank w -> 0 <= s -> swt_resources fuel (zlen x) (dec_len w) (Z.max 1 (s + level)) ->
  safe (swt fuel x w (Some level) s trim norm).
Proof.
  intros Hw Hs Hr. destruct (swt_guard w x level s trim norm Hw Hs Hr) as ((_ & Hy) & Hn).
  destruct (Z_lt_ge_dec (zlen x) 1); [rewrite Hn by lia; exact I|].
  destruct (Z_lt_ge_dec level 1); [rewrite Hn by lia; exact I|].
  destruct (Znumtheory.Zdivide_dec (2 ^ (s + level)) (zlen x)).
  - destruct Hy as (r & ->); [|exact I]. repeat split; auto; lia.
  - rewrite Hn by tauto. exact I.
Qed.

End F.
Arguments norm_factor {C}.

(** The guards of the C routine swt_ itself. *)
Theorem c_swt_guard (C : CRing) fuel (x h out : list C) level : 1 <= zlen x ->
  (level < 1 -> c_swt fuel x h out level = Err (-1)) /\
  (1 <= level -> ~ (2 ^ level | zlen x) -> c_swt fuel x h out level = Err (-2)) /\
  (1 <= level -> (2 ^ level | zlen x) -> zlen out <> zlen x -> c_swt fuel x h out level = Err (-1)).
Proof.
  intros Hx. unfold c_swt. destruct (swt_max_level_spec (zlen x) Hx) as (j & Hj & Hj0 & _). rewrite Hj. cbn [bind].
  split; [|split].
  - intros H. replace (level <? 1) with true by lia. reflexivity.
  - intros H Hd. replace (level <? 1) with false by lia.
    assert (j < level) by (apply Z.nle_gt; intros L; apply Hd; apply (swt_max_level_iff (zlen x) j level Hx Hj); lia).
    replace (j <? level) with true by lia. reflexivity.
  - intros H Hd Ho. replace (level <? 1) with false by lia.
    assert (level <= j) by (apply (swt_max_level_iff (zlen x) j level Hx Hj); auto; lia).
    replace (j <? level) with false by lia. unfold swt_buffer_length. replace (zlen out =? zlen x) with false by lia. reflexivity.
Qed.
