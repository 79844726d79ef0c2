(** Property statements of the 1-D layer, derived from the specifications. *)
From Verif Require Import Base BaseLemmas CConv Spec ExtLemmas Instances DownConv DownPer UpConv Lengths LengthsProofs Dwt DwtProofs PR Linear Multilevel MultilevelProofs Extra1D.

(** Outcomes that are neither undefined behaviour nor non-termination. *)
Definition safe {A} (r : res A) : Prop := match r with OOB | Fuel => False | _ => True end.

Section F.
Variable C : CRing.
Add Ring Cring_ring_f1 : (rth C).
Variable fuel : nat.

Lemma dwt_lengths (x : list C) w m : wf_bank w -> min_len m <= zlen x -> resources fuel (zlen x) (dec_len w) ->
  exists cA cD, dwt fuel x w m = Ok (cA, cD) /\ zlen cA = zlen cD /\
    zlen cA = (if mode_code m =? 5 then (zlen x + 1) / 2 else (zlen x + dec_len w - 1) / 2) /\
    dwt_coeff_len (zlen x) (dec_len w) m = Ok (zlen cA).
Proof.
  intros Hw Hx Hr. pose proof Hw as (H1 & H2 & H3 & H4 & H5). pose proof (min_len_1 m).
  eexists _, _. split; [apply dwt_single_spec; auto|].
  rewrite !zlen_analysis by (unfold dec_len in *; lia). rewrite H1. fold (dec_len w).
  split; [reflexivity|]. split; [destruct m; reflexivity|].
  unfold dwt_coeff_len. replace (zlen x <? 1) with false by lia. replace (dec_len w <? 1) with false by lia.
  rewrite coeff_len_buffer by lia. reflexivity.
Qed.

Lemma dwt_values (x : list C) w m : m <> PERIODIZATION ->
  wf_bank w -> min_len m <= zlen x -> resources fuel (zlen x) (dec_len w) ->
  exists cA cD, dwt fuel x w m = Ok (cA, cD) /\
   forall k, 0 <= k < (zlen x + dec_len w - 1) / 2 ->
    gz cA k = sumZ 0 (dec_len w) (fun j => gz (dec_lo w) j [*] ext m x (2 * k + 1 - j)) /\
    gz cD k = sumZ 0 (dec_len w) (fun j => gz (dec_hi w) j [*] ext m x (2 * k + 1 - j)).
Proof.
  intros Hm Hw Hx Hr. pose proof Hw as (H1 & H2 & H3 & H4 & H5).
  eexists _, _. split; [apply dwt_single_spec; auto|]. intros k Hk.
  unfold analysis. rewrite H1. fold (dec_len w).
  assert (Hc : coeff_len m (zlen x) (dec_len w) = (zlen x + dec_len w - 1) / 2) by (destruct m; reflexivity || congruence).
  assert (Hf : first_pos m (dec_len w) = 1) by (destruct m; reflexivity || congruence).
  rewrite Hc, Hf, !gz_tab by lia. unfold conv. rewrite H1. split; reflexivity.
Qed.

Lemma dwt_values_per (x : list C) w :
  wf_bank w -> 1 <= zlen x -> resources fuel (zlen x) (dec_len w) ->
  exists cA cD, dwt fuel x w PERIODIZATION = Ok (cA, cD) /\
   let e n := let r := n mod (zlen x + zlen x mod 2) in if r <? zlen x then gz x r else gz x (zlen x - 1) in
   forall k, 0 <= k < (zlen x + 1) / 2 ->
    gz cA k = sumZ 0 (dec_len w) (fun j => gz (dec_lo w) j [*] e (2 * k + dec_len w / 2 - j)) /\
    gz cD k = sumZ 0 (dec_len w) (fun j => gz (dec_hi w) j [*] e (2 * k + dec_len w / 2 - j)).
Proof.
  intros Hw Hx Hr. pose proof Hw as (H1 & H2 & H3 & H4 & H5).
  eexists _, _. split; [apply dwt_single_spec; auto|]. intros e k Hk.
  assert (He : forall n, ext PERIODIZATION x n = e n).
  { intros n. unfold e. cbn [ext]. unfold pext. cbv zeta.
    pose proof (Z.mod_pos_bound n (zlen x + zlen x mod 2)).
    destruct (Z.ltb_spec (n mod (zlen x + zlen x mod 2)) (zlen x)); f_equal; lia. }
  clearbody e. unfold analysis. cbn [coeff_len first_pos]. rewrite H1, !gz_tab by lia. fold (dec_len w). unfold conv. rewrite H1.
  fold (dec_len w). split; apply sumZ_ext; intros; rewrite He; reflexivity.
Qed.

Lemma short_1 m (x : list C) : zlen x < min_len m -> zlen x = 0 \/ ((m = REFLECT \/ m = ANTIREFLECT) /\ zlen x = 1).
Proof. pose proof (zlen_nonneg x). destruct (Z.eq_dec (zlen x) 0); [auto|]. destruct m; cbn [min_len]; intros; first [left; lia | right; split; [auto|lia]]. Qed.

Lemma dwt_safe (x : list C) w m : wf_bank w -> resources fuel (zlen x) (dec_len w) -> safe (dwt fuel x w m).
Proof.
  intros Hw Hr. pose proof Hw as (H1 & H2 & H3 & H4 & H5).
  destruct (Z_le_gt_dec (min_len m) (zlen x)) as [Hx|Hx].
  - unfold dwt. rewrite dwt_single_spec by auto. exact I.
  - destruct (short_1 m x) as [E|[Hm E]]; [lia| |].
    + destruct x; [|unfold zlen in E; cbn in E; lia]. unfold dwt. rewrite dwt_single_empty. exact I.
    + destruct x as [|a [|? ?]]; try (unfold zlen in E; cbn in E; lia). unfold dwt. rewrite dwt_single_reflect1 by auto. exact I.
Qed.

Lemma idwt_safe (cA cD : option (list C)) w m : wf_bank w ->
  (forall a, cA = Some a -> resources fuel (zlen a) (dec_len w)) ->
  (forall d, cD = Some d -> resources fuel (zlen d) (dec_len w)) ->
  safe (idwt fuel cA cD w m).
Proof.
  intros Hw Ha Hd. pose proof Hw as (H1 & H2 & H3 & H4 & H5).
  assert (Hs : forall a d, resources fuel (zlen a) (dec_len w) -> safe (idwt_single fuel a d w m)).
  { intros a d Hr. destruct (Z.eq_dec (zlen a) (zlen d)) as [E|E].
    - destruct (Z_lt_ge_dec (rec_len m (zlen a) (rec_flen w)) 1) as [Hs|Hs].
      + destruct (idwt_short C fuel a d w m E Hs) as [Hi|Hi].
        { unfold rec_flen. rewrite H2. unfold resources in Hr. lia. }
        * cbn [idwt] in Hi. rewrite Hi. exact I.
        * cbn [idwt] in Hi. rewrite Hi. exact I.
      + rewrite idwt_single_spec; auto; try exact I.
        * unfold rec_flen in Hs. rewrite H2 in Hs. destruct m; cbn [rec_len] in Hs; lia.
        * unfold rec_flen in Hs. rewrite H2 in Hs. lia.
    - rewrite idwt_single_mismatch by auto. exact I. }
  destruct cA as [a|], cD as [d|]; cbn [idwt]; try exact I; apply Hs.
  - apply Ha; reflexivity.
  - apply Ha; reflexivity.
  - rewrite zlen_repeat. apply Hd; reflexivity.
Qed.

Lemma idwt_dwt_even (x : list C) w m : zlen x mod 2 = 0 ->
  pr_wavelet w -> min_len m <= zlen x -> resources fuel (zlen x) (dec_len w) ->
  exists cA cD, dwt fuel x w m = Ok (cA, cD) /\ idwt fuel (Some cA) (Some cD) w m = Ok x.
Proof.
  intros He Hpr Hx Hr. destruct (idwt_dwt C fuel x w m Hpr Hx Hr) as (cA & cD & H1 & H2).
  exists cA, cD. split; auto. rewrite H2, He, Z.add_0_r. f_equal.
  rewrite <- (tab_gz x) at 3. apply tab_ext. intros i Hi. apply ext_in; auto.
Qed.

Lemma tab_snoc {A} n (f : Z -> A) : 0 <= n -> tab (n + 1) f = tab n f ++ [f n].
Proof.
  intros H. unfold tab. replace (Z.to_nat (n + 1)) with (S (Z.to_nat n)) by lia. rewrite seq_S, map_app. cbn.
  rewrite Z2Nat.id by lia. reflexivity.
Qed.

Lemma idwt_dwt_odd (x : list C) w m : zlen x mod 2 = 1 ->
  pr_wavelet w -> min_len m <= zlen x -> resources fuel (zlen x) (dec_len w) ->
  exists cA cD, dwt fuel x w m = Ok (cA, cD) /\ idwt fuel (Some cA) (Some cD) w m = Ok (x ++ [ext m x (zlen x)]).
Proof.
  intros He Hpr Hx Hr. destruct (idwt_dwt C fuel x w m Hpr Hx Hr) as (cA & cD & H1 & H2).
  exists cA, cD. split; auto. rewrite H2, He, tab_snoc by apply zlen_nonneg. f_equal. f_equal.
  rewrite <- (tab_gz x) at 3. apply tab_ext. intros i Hi. apply ext_in; auto.
Qed.

Lemma idwt_dwt_odd_per (x : list C) w : zlen x mod 2 = 1 ->
  pr_wavelet w -> 1 <= zlen x -> resources fuel (zlen x) (dec_len w) ->
  exists cA cD, dwt fuel x w PERIODIZATION = Ok (cA, cD) /\
    idwt fuel (Some cA) (Some cD) w PERIODIZATION = Ok (x ++ [gz x (zlen x - 1)]).
Proof.
  intros He Hpr Hx Hr. destruct (idwt_dwt_odd x w PERIODIZATION He Hpr Hx Hr) as (cA & cD & H1 & H2).
  exists cA, cD. split; auto. rewrite H2. do 3 f_equal. cbn [ext]. unfold pext. f_equal. rewrite He.
  rewrite Z.mod_small by lia. lia.
Qed.

Lemma dwt_linear (x y : list C) a b w m : zlen x = zlen y ->
  wf_bank w -> min_len m <= zlen x -> resources fuel (zlen x) (dec_len w) ->
  exists xA xD yA yD, dwt fuel x w m = Ok (xA, xD) /\ dwt fuel y w m = Ok (yA, yD) /\
   dwt fuel (vadd (vscal a x) (vscal b y)) w m =
     Ok (vadd (vscal a xA) (vscal b yA), vadd (vscal a xD) (vscal b yD)).
Proof.
  intros Hl Hw Hx Hr. eexists _, _, _, _.
  split; [apply dwt_single_spec; auto|]. split; [apply dwt_single_spec; rewrite <- ?Hl; auto|].
  fold (vlin a x b y). unfold dwt. rewrite dwt_single_spec by (rewrite ?zlen_vlin; auto).
  rewrite !analysis_linear by auto. reflexivity.
Qed.

Lemma vadd_lin4 a b (p q r s : list C) : zlen p = zlen q -> zlen p = zlen r -> zlen p = zlen s ->
  vadd (vlin a p b q) (vlin a r b s) = vlin a (vadd p r) b (vadd q s).
Proof.
  intros H1 H2 H3. apply list_ext.
  - rewrite zlen_vadd; rewrite !zlen_vlin; auto; rewrite ?zlen_vadd; auto; lia.
  - intros i Hi. rewrite gz_vadd by (rewrite !zlen_vlin; lia).
    rewrite !gz_vlin by (rewrite ?zlen_vadd; lia). rewrite !gz_vadd by lia. ring.
Qed.

Lemma idwt_linear (xA xD yA yD : list C) a b w m :
  wf_bank w -> zlen xA = zlen xD -> zlen yA = zlen xA -> zlen yD = zlen xA -> 1 <= zlen xA ->
  1 <= rec_len m (zlen xA) (dec_len w) -> resources fuel (zlen xA) (dec_len w) ->
  exists x y, idwt fuel (Some xA) (Some xD) w m = Ok x /\ idwt fuel (Some yA) (Some yD) w m = Ok y /\
   idwt fuel (Some (vadd (vscal a xA) (vscal b yA))) (Some (vadd (vscal a xD) (vscal b yD))) w m =
     Ok (vadd (vscal a x) (vscal b y)).
Proof.
  intros Hw H1 H2 H3 Hn Hrec Hr. pose proof Hw as (W1 & W2 & W3 & W4 & W5).
  eexists _, _. split; [apply idwt_single_spec; auto|].
  split; [apply idwt_single_spec; rewrite ?H2, ?H3; auto|].
  fold (vlin a xA b yA) (vlin a xD b yD). cbn [idwt].
  rewrite idwt_single_spec; rewrite ?zlen_vlin; auto; try lia.
  rewrite !synthesis_linear by lia. f_equal.
  match goal with |- _ = vadd (vscal a ?p) (vscal b ?q) => fold (vlin a p b q) end.
  apply vadd_lin4; rewrite !zlen_synthesis; rewrite ?W2, ?W3, ?H2, ?H3, <- ?H1; auto; lia.
Qed.

Lemma idwt_split (cA cD : list C) w m :
  wf_bank w -> zlen cA = zlen cD -> 1 <= zlen cA -> 1 <= rec_len m (zlen cA) (dec_len w) ->
  resources fuel (zlen cA) (dec_len w) ->
  exists a d, idwt fuel (Some cA) None w m = Ok a /\ idwt fuel None (Some cD) w m = Ok d /\
    idwt fuel (Some cA) (Some cD) w m = Ok (vadd a d) /\ zlen a = zlen d.
Proof.
  intros Hw Hl Hn Hrec Hr. pose proof Hw as (W1 & W2 & W3 & W4 & W5).
  destruct (idwt_spec C fuel cA cD w m Hw Hl Hn Hrec Hr) as (E1 & E2 & E3).
  eexists _, _. split; [exact E2|]. split; [exact E3|]. split; [exact E1|].
  rewrite !zlen_synthesis; rewrite ?W2, ?W3, <- ?Hl; auto; lia.
Qed.

Lemma idwt_len (cA cD : list C) w m :
  wf_bank w -> zlen cA = zlen cD -> 1 <= zlen cA -> 1 <= rec_len m (zlen cA) (dec_len w) ->
  resources fuel (zlen cA) (dec_len w) ->
  exists y, idwt fuel (Some cA) (Some cD) w m = Ok y /\
    zlen y = (if mode_code m =? 5 then 2 * zlen cA else 2 * zlen cA - dec_len w + 2).
Proof.
  intros Hw Hl Hn Hrec Hr. pose proof Hw as (W1 & W2 & W3 & W4 & W5).
  destruct (idwt_spec C fuel cA cD w m Hw Hl Hn Hrec Hr) as (E1 & _ & _).
  eexists. split; [exact E1|]. 
  rewrite zlen_vadd; rewrite !zlen_synthesis; rewrite ?W2, ?W3, <- ?Hl; auto; try lia. destruct m; reflexivity.
Qed.

Lemma idwt_dwt_len (x : list C) w m : wf_bank w -> min_len m <= zlen x -> resources fuel (zlen x) (dec_len w) ->
  exists cA cD y, dwt fuel x w m = Ok (cA, cD) /\ idwt fuel (Some cA) (Some cD) w m = Ok y /\
    zlen y = zlen x + zlen x mod 2.
Proof.
  intros Hw Hx Hr. pose proof Hw as (W1 & W2 & W3 & W4 & W5). pose proof (min_len_1 m).
  pose proof (coeff_len_bounds m (zlen x) (dec_len w) ltac:(lia) W5).
  assert (Hl0 : zlen (analysis m (dec_lo w) x) = coeff_len m (zlen x) (dec_len w))
    by (apply zlen_analysis; unfold dec_len in *; lia).
  assert (Hl1 : zlen (analysis m (dec_hi w) x) = coeff_len m (zlen x) (dec_len w))
    by (rewrite zlen_analysis by lia; rewrite W1; reflexivity).
  pose proof (rec_coeff_len m (zlen x) (dec_len w) ltac:(lia) W5 W4).
  destruct (idwt_spec C fuel (analysis m (dec_lo w) x) (analysis m (dec_hi w) x) w m) as (E1 & _); auto; try lia.
  - rewrite Hl0. lia.
  - rewrite Hl0. apply resources_le with (zlen x); auto.
  - eexists _, _, _. split; [apply dwt_single_spec; auto|]. split; [exact E1|].
    rewrite zlen_vadd; rewrite !zlen_synthesis; rewrite ?W2, ?W3, ?Hl0, ?Hl1; lia.
Qed.

Lemma dwt_roll (x : list C) w s : zlen x mod 2 = 0 ->
  wf_bank w -> 1 <= zlen x -> resources fuel (zlen x) (dec_len w) ->
  exists cA cD, dwt fuel x w PERIODIZATION = Ok (cA, cD) /\
    dwt fuel (roll (2 * s) x) w PERIODIZATION = Ok (roll s cA, roll s cD).
Proof.
  intros He Hw Hx Hr. eexists _, _. split; [apply dwt_single_spec; auto|].
  unfold dwt. rewrite dwt_single_spec by (rewrite ?zlen_roll; auto). rewrite !analysis_roll by auto. reflexivity.
Qed.

(** Orthonormal bank: perfect reconstruction with time-reversed filters. *)
Definition orthonormal (w : wavelet C) : Prop :=
  pr_wavelet w /\ rec_lo w = rev (dec_lo w) /\ rec_hi w = rev (dec_hi w).

Lemma dwt_energy (x : list C) w : zlen x mod 2 = 0 ->
  orthonormal w -> 2 <= zlen x -> resources fuel (zlen x) (dec_len w) ->
  exists cA cD, dwt fuel x w PERIODIZATION = Ok (cA, cD) /\
    sumZ 0 (zlen cA) (fun i => gz cA i [*] gz cA i) [+] sumZ 0 (zlen cD) (fun i => gz cD i [*] gz cD i) =
    sumZ 0 (zlen x) (fun i => gz x i [*] gz x i).
Proof.
  intros He (Hpr & E0 & E1) Hx Hr. eexists _, _. split; [apply dwt_single_spec; auto using pr_wf; cbn; lia|].
  apply analysis_energy; auto. unfold pr_wavelet in Hpr. rewrite E0, E1 in Hpr. exact Hpr.
Qed.

(** idwt as the interior of the full reconstructions (upcoef). *)
Lemma idwt_upcoef (cA cD : list C) w m : m <> PERIODIZATION ->
  wf_bank w -> zlen cA = zlen cD -> 1 <= zlen cA -> dec_len w < 2 * zlen cA + 2 ->
  resources fuel (zlen cA) (dec_len w) -> 2 * zlen cA + dec_len w + 14 <= Z.of_nat fuel ->
  exists ua ud y, upcoef fuel true cA w 1 0 = Ok ua /\ upcoef fuel false cD w 1 0 = Ok ud /\
    idwt fuel (Some cA) (Some cD) w m = Ok y /\
    zlen ua = 2 * zlen cA + dec_len w - 2 /\ zlen ud = zlen ua /\ zlen y = 2 * zlen cA - dec_len w + 2 /\
    forall n, 0 <= n < zlen y -> gz y n = gz ua (n + dec_len w - 2) [+] gz ud (n + dec_len w - 2).
Proof.
  intros Hm Hw Hl Hn Hs Hr Hf. pose proof Hw as (W1 & W2 & W3 & W4 & W5).
  assert (Hrl : rec_len m (zlen cA) (dec_len w) = 2 * zlen cA - dec_len w + 2) by (destruct m; reflexivity || congruence).
  destruct (idwt_spec C fuel cA cD w m Hw Hl Hn ltac:(lia) Hr) as (E1 & _).
  eexists _, _, _.
  split; [apply upcoef_spec; auto; try lia; change (Z.to_nat 1) with 1%nat; cbn [full_len]; unfold resources in *; lia|].
  split; [apply upcoef_spec; auto; try lia; change (Z.to_nat 1) with 1%nat; cbn [full_len]; unfold resources in *; lia|].
  split; [exact E1|]. change (Z.to_nat (1 - 1)) with O. cbn [full_approx].
  rewrite !zlen_full by lia. rewrite zlen_vadd by (rewrite !zlen_synthesis; rewrite ?W2, ?W3, <- ?Hl; lia).
  rewrite zlen_synthesis by (rewrite W2; lia). rewrite W2, W3, Hrl. repeat (split; [lia|]).
  intros n Hnn. rewrite gz_vadd by (rewrite !zlen_synthesis; rewrite ?W2, ?W3, <- ?Hl; lia).
  rewrite !synthesis_full by (auto; lia). rewrite !gz_tab by lia. rewrite W2, W3. reflexivity.
Qed.

(** wavedec never diverges and is safe. *)
Lemma levels_ok_dec m F n N : levels_ok m F n N \/ ~ levels_ok m F n N.
Proof.
  induction n as [|n IH]; [left; intros j Hj; lia|].
  destruct IH as [IH|IH].
  - destruct (Z_le_gt_dec (min_len m) (approx_len m F n N)) as [H|H].
    + left. intros j Hj. destruct (Nat.eq_dec j n) as [->|]; auto. apply IH. lia.
    + right. intros H'. specialize (H' n ltac:(lia)). lia.
  - right. intros H. apply IH. intros j Hj. apply H. lia.
Qed.

Lemma wavedec_safe (x : list C) w m level : wf_bank w -> resources fuel (zlen x) (dec_len w) ->
  safe (wavedec fuel x w m level).
Proof.
  intros Hw Hr.
  assert (H : forall l, safe (wavedec fuel x w m (Some l))).
  { intros l. destruct (Z_lt_ge_dec l 0) as [Hl|Hl]; [rewrite wavedec_negative by auto; exact I|].
    pose proof (zlen_nonneg x). destruct (Z.eq_dec (zlen x) 0) as [E|E].
    - destruct x; [|unfold zlen in E; cbn in E; lia]. unfold wavedec. rewrite check_level_1.
      replace (l <? 0) with false by lia. cbn [bind]. destruct (Z.to_nat l); cbn [wavedec_loop]; [exact I|].
      unfold dwt. rewrite dwt_single_empty. exact I.
    - destruct (levels_ok_dec m (dec_len w) (Z.to_nat l) (zlen x)).
      + rewrite wavedec_spec by (auto; lia). exact I.
      + rewrite wavedec_fail by (auto; lia). exact I. }
  destruct level; [apply H|]. rewrite wavedec_default. apply H.
Qed.

Lemma wavedec_structure (x : list C) w m level :
  wf_bank w -> 1 <= zlen x -> 0 <= level -> levels_ok m (dec_len w) (Z.to_nat level) (zlen x) ->
  resources fuel (zlen x) (dec_len w) ->
  exists cA ds, wavedec fuel x w m (Some level) = Ok (cA :: rev ds) /\
    length ds = Z.to_nat level /\
    cA = approx m (dec_lo w) (Z.to_nat level) x /\
    zlen cA = approx_len m (dec_len w) (Z.to_nat level) (zlen x) /\
    forall j, (j < Z.to_nat level)%nat ->
      nth j ds [] = analysis m (dec_hi w) (approx m (dec_lo w) j x) /\
      zlen (nth j ds []) = approx_len m (dec_len w) (S j) (zlen x).
Proof.
  intros Hw HN HL Hl Hr. pose proof Hw as (W1 & W2 & W3 & W4 & W5).
  exists (approx m (dec_lo w) (Z.to_nat level) x), (map (fun j => analysis m (dec_hi w) (approx m (dec_lo w) j x)) (seq 0 (Z.to_nat level))).
  split; [rewrite wavedec_spec by auto; unfold multi_analysis; rewrite map_rev; reflexivity|].
  split; [rewrite map_length, seq_length; reflexivity|]. split; [reflexivity|].
  split; [apply zlen_approx; unfold dec_len in *; lia|].
  intros j Hj.
  assert (Hn : nth j (map (fun j => analysis m (dec_hi w) (approx m (dec_lo w) j x)) (seq 0 (Z.to_nat level))) [] = analysis m (dec_hi w) (approx m (dec_lo w) j x)).
  { rewrite (nth_indep _ _ (analysis m (dec_hi w) (approx m (dec_lo w) 0 x))) by (rewrite map_length, seq_length; auto).
    rewrite (map_nth (fun j => analysis m (dec_hi w) (approx m (dec_lo w) j x)) (seq 0 (Z.to_nat level)) 0%nat).
    rewrite seq_nth by auto. reflexivity. }
  rewrite Hn. split; [reflexivity|].
  pose proof (approx_len_pos m (dec_len w) j (zlen x) HN W5).
  assert (Hz : zlen (approx m (dec_lo w) j x) = approx_len m (dec_len w) j (zlen x)) by (apply zlen_approx; unfold dec_len in *; lia).
  rewrite zlen_analysis by lia. rewrite Hz, W1. reflexivity.
Qed.

Lemma waverec_wavedec_full (x : list C) w m level :
  pr_wavelet w -> 1 <= zlen x -> 0 <= level -> levels_ok m (dec_len w) (Z.to_nat level) (zlen x) ->
  resources fuel (zlen x) (dec_len w) ->
  exists cs y, wavedec fuel x w m (Some level) = Ok cs /\ waverec fuel (map Some cs) w m = Ok (Some y) /\
    firstn (length x) y = x /\
    zlen y = zlen x + (if (0 <? level) && (zlen x mod 2 =? 1) then 1 else 0).
Proof.
  intros Hpr HN HL Hl Hr. destruct (waverec_wavedec C fuel x w m level Hpr HN HL Hl Hr) as (cs & H1 & H2).
  exists cs, (rec_result m (Z.to_nat level) x). split; auto. split; auto.
  destruct (rec_result_props C m (Z.to_nat level) x) as (H3 & H4).
  - destruct (Z.to_nat level) eqn:E; auto. right. apply (Hl O). lia.
  - split; auto. rewrite H4. rewrite Z2Nat.id by lia. destruct (Z.ltb_spec 0 level); cbn [andb]; [|reflexivity].
    destruct (Z.eqb_spec (zlen x mod 2) 1); lia.
Qed.
End F.
Arguments orthonormal {C}.
