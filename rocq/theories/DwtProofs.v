(** The 1-D transforms compute analysis and synthesis; perfect reconstruction. *)
From Verif Require Import Base BaseLemmas CConv Spec ExtLemmas DownConv DownPer UpConv Lengths Dwt.

(** Well-formed filter bank: four filters of one even length >= 2 (what
    Wavelet's constructor guarantees). *)
Definition wf_bank {C} (w : wavelet C) : Prop :=
  let F := dec_len w in
  zlen (dec_hi w) = F /\ zlen (rec_lo w) = F /\ zlen (rec_hi w) = F /\ F mod 2 = 0 /\ 2 <= F.

(** Enough loop fuel, and buffers within the address space. *)
Definition resources (fuel : nat) (N F : Z) : Prop :=
  2 * Z.max N F + 16 <= Z.of_nat fuel /\ 4 * Z.max N F + 16 < max_alloc.

Definition pr_wavelet {C} (w : wavelet C) : Prop := pr_bank (dec_lo w) (dec_hi w) (rec_lo w) (rec_hi w).

Lemma pr_wf {C} (w : wavelet C) : pr_wavelet w -> wf_bank w.
Proof. intros (H1 & H2 & H3 & H4 & H5 & _). unfold wf_bank, dec_len. auto. Qed.

Lemma coeff_len_buffer m N F : 1 <= N -> 1 <= F -> dwt_buffer_length N F m = coeff_len m N F.
Proof.
  intros. unfold dwt_buffer_length, coeff_len.
  replace ((N <? 1) || (F <? 1)) with false by lia. destruct m; try reflexivity.
  destruct (Z.eqb_spec (N mod 2) 0); lia.
Qed.

Lemma coeff_len_bounds m N F : 1 <= N -> 2 <= F -> 1 <= coeff_len m N F <= Z.max N F.
Proof. intros. destruct m; cbn [coeff_len]; lia. Qed.

Lemma rec_coeff_len m N F : 1 <= N -> 2 <= F -> F mod 2 = 0 ->
  rec_len m (coeff_len m N F) F = N + N mod 2.
Proof. intros. destruct m; cbn [coeff_len rec_len]; lia. Qed.

Lemma pad2 N : 1 <= N -> (2 - N mod 2) mod 2 = N mod 2.
Proof. intros. lia. Qed.

Section P.
Variable C : CRing.
Add Ring Cring_ring_dw : (rth C).
Variable fuel : nat.

Lemma np_zeros_ok n : 0 <= n < max_alloc -> exists z : list C, np_zeros n = Ok z /\ zlen z = n /\ z = repeat r0 (Z.to_nat n).
Proof.
  intros H. unfold np_zeros. replace (n <? max_alloc) with true by lia. eexists; split; [reflexivity|].
  rewrite zlen_repeat. split; [lia|reflexivity].
Qed.

Lemma zlen_analysis m (h x : list C) : 1 <= zlen x -> 1 <= zlen h -> zlen (analysis m h x) = coeff_len m (zlen x) (zlen h).
Proof.
  intros. unfold analysis. apply zlen_tab. destruct m; cbn [coeff_len]; lia.
Qed.

(** The kernel in every mode. *)
Lemma down2_spec (x h out : list C) m :
  min_len m <= zlen x -> 2 <= zlen h -> zlen h mod 2 = 0 ->
  zlen out = coeff_len m (zlen x) (zlen h) ->
  zlen x + zlen h + 8 <= Z.of_nat fuel ->
  downsampling_convolution fuel x h out 2 m = Ok (analysis m h x).
Proof.
  intros Hx Hh Hh2 Hout Hf. assert (1 <= zlen x) by (destruct m; cbn in Hx; lia).
  assert (Hd : m = PERIODIZATION \/ m <> PERIODIZATION) by (destruct m; auto; right; discriminate).
  destruct Hd as [->|Hm].
  - cbn [downsampling_convolution]. cbn [coeff_len] in Hout.
    rewrite downsampling_convolution_periodization_spec; try lia.
    + f_equal. unfold analysis. cbn [coeff_len]. replace (zlen x + 2 - 1) with (zlen x + 1) by lia.
      apply tab_ext. intros k Hk. cbn [first_pos ext]. f_equal. rewrite pad2 by lia. reflexivity.
    + intros t Ht. exfalso. apply Ht. apply Z.divide_1_l.
  - assert (Hc : coeff_len m (zlen x) (zlen h) = (zlen x + zlen h - 1) / 2) by (destruct m; reflexivity || congruence).
    rewrite downsampling_convolution_spec; auto; try lia.
    f_equal. unfold analysis. rewrite Hc. apply tab_ext. intros k Hk. f_equal.
    replace (first_pos m (zlen h)) with 1 by (destruct m; reflexivity || congruence). lia.
Qed.

Lemma dec_a_ok (x out : list C) w m :
  wf_bank w -> min_len m <= zlen x -> resources fuel (zlen x) (dec_len w) ->
  zlen out = coeff_len m (zlen x) (dec_len w) ->
  dec_a fuel x w out m = Ok (analysis m (dec_lo w) x).
Proof.
  intros (H1 & H2 & H3 & H4 & H5) Hx (Hf & _) Hout. unfold dec_a.
  assert (1 <= zlen x) by (destruct m; cbn in Hx; lia).
  rewrite coeff_len_buffer by lia. rewrite Hout, Z.eqb_refl.
  unfold dec_len in *. apply down2_spec; auto; lia.
Qed.

Lemma dec_d_ok (x out : list C) w m :
  wf_bank w -> min_len m <= zlen x -> resources fuel (zlen x) (dec_len w) ->
  zlen out = coeff_len m (zlen x) (dec_len w) ->
  dec_d fuel x w out m = Ok (analysis m (dec_hi w) x).
Proof.
  intros (H1 & H2 & H3 & H4 & H5) Hx (Hf & _) Hout. unfold dec_d.
  assert (1 <= zlen x) by (destruct m; cbn in Hx; lia).
  rewrite coeff_len_buffer by lia. rewrite Hout, Z.eqb_refl.
  unfold dec_len in *. rewrite <- H1 in H4, H5, Hout, Hf. apply down2_spec; auto; lia.
Qed.

Theorem dwt_single_spec (x : list C) w m :
  wf_bank w -> min_len m <= zlen x -> resources fuel (zlen x) (dec_len w) ->
  dwt_single fuel x w m = Ok (analysis m (dec_lo w) x, analysis m (dec_hi w) x).
Proof.
  intros Hw Hx Hr. pose proof Hw as (H1 & H2 & H3 & H4 & H5). pose proof Hr as (Hf & Ha).
  assert (1 <= zlen x) by (destruct m; cbn in Hx; lia).
  unfold dwt_single, dwt_coeff_len.
  replace (zlen x <? 1) with false by lia. replace (dec_len w <? 1) with false by lia. cbn [bind].
  rewrite coeff_len_buffer by lia.
  pose proof (coeff_len_bounds m (zlen x) (dec_len w) ltac:(lia) ltac:(lia)) as Hc.
  replace (coeff_len m (zlen x) (dec_len w) <? 1) with false by lia.
  replace ((zlen x =? 1) && _) with false by (destruct m; cbn in Hx; lia).
  destruct (np_zeros_ok (coeff_len m (zlen x) (dec_len w)) ltac:(lia)) as (z & Hz & Hzl & _).
  rewrite Hz. cbn [bind]. rewrite dec_a_ok by auto. cbn [as_runtime bind].
  rewrite dec_d_ok by auto. reflexivity.
Qed.

(** Rejected inputs. *)
Theorem dwt_single_empty (w : wavelet C) m : dwt_single fuel [] w m = Err ValueError.
Proof. reflexivity. Qed.

Theorem dwt_single_reflect1 (a : C) (w : wavelet C) m :
  2 <= dec_len w -> m = REFLECT \/ m = ANTIREFLECT -> dwt_single fuel [a] w m = Err ValueError.
Proof.
  intros Hw Hm. unfold dwt_single, dwt_coeff_len. change (zlen [a]) with 1. cbn [Z.ltb Z.compare Pos.compare Pos.compare_cont].
  replace (dec_len w <? 1) with false by lia. cbn [bind].
  rewrite coeff_len_buffer by lia.
  pose proof (coeff_len_bounds m 1 (dec_len w) ltac:(lia) ltac:(lia)).
  replace (coeff_len m 1 (dec_len w) <? 1) with false by lia.
  destruct Hm as [-> | ->]; reflexivity.
Qed.

(** ** Synthesis *)

Lemma zlen_synthesis m (g c : list C) : 0 <= rec_len m (zlen c) (zlen g) ->
  zlen (synthesis m g c) = rec_len m (zlen c) (zlen g).
Proof.
  intros H. destruct m; cbn [synthesis rec_len] in *; apply zlen_tab; lia.
Qed.

Lemma vadd_tab n (f g : Z -> C) : vadd (tab n f) (tab n g) = tab n (fun i => f i [+] g i).
Proof.
  unfold vadd, tab. generalize (seq 0 (Z.to_nat n)). intros l.
  induction l as [|a l IH]; cbn; [reflexivity|]. f_equal. apply IH.
Qed.

Lemma zlen_vadd (a b : list C) : zlen a = zlen b -> zlen (vadd a b) = zlen a.
Proof.
  unfold vadd. rewrite zlen_map. unfold zlen. rewrite combine_length. lia.
Qed.

Lemma gz_vadd (a b : list C) i : zlen a = zlen b -> gz (vadd a b) i = gz a i [+] gz b i.
Proof.
  intros Hl. unfold gz. destruct (0 <=? i); [|ring].
  unfold zlen in Hl. assert (Hl' : length a = length b) by lia. clear Hl.
  generalize (Z.to_nat i). clear i. revert b Hl'.
  induction a as [|x a IH]; intros [|y b] Hl' n; cbn in Hl'; try lia.
  - destruct n; cbn; ring.
  - destruct n; cbn; [reflexivity|]. apply IH. lia.
Qed.

Lemma idwt_buffer_ok m n F : 0 <= n -> 0 <= F -> 0 <= rec_len m n F < max_alloc ->
  idwt_buffer_length n F m = rec_len m n F.
Proof.
  intros. destruct m; cbn [idwt_buffer_length rec_len] in *; try reflexivity;
   rewrite Z.mod_small; auto; unfold max_alloc, two64 in *; lia.
Qed.

Theorem idwt_single_spec (cA cD : list C) w m :
  wf_bank w -> zlen cA = zlen cD -> 1 <= zlen cA ->
  1 <= rec_len m (zlen cA) (dec_len w) ->
  resources fuel (zlen cA) (dec_len w) ->
  idwt_single fuel cA cD w m = Ok (vadd (synthesis m (rec_lo w) cA) (synthesis m (rec_hi w) cD)).
Proof.
  intros (H1 & H2 & H3 & H4 & H5) Hl HA Hrec (Hf & Ha).
  unfold idwt_single. rewrite Hl, Z.eqb_refl. cbn [negb].
  assert (HF : rec_flen w = dec_len w) by (unfold rec_flen; lia). rewrite HF.
  assert (Hrl : rec_len m (zlen cA) (dec_len w) < max_alloc) by (destruct m; cbn [rec_len] in *; lia).
  rewrite <- Hl. rewrite idwt_buffer_ok by lia.
  replace (rec_len m (zlen cA) (dec_len w) <? 1) with false by lia.
  destruct (np_zeros_ok (rec_len m (zlen cA) (dec_len w)) ltac:(lia)) as (z & Hz & Hzl & Hzd).
  rewrite Hz. cbn [bind]. unfold c_idwt. rewrite <- Hl, Z.eqb_refl. cbn [negb bind].
  rewrite HF, Hzl, idwt_buffer_ok by lia. rewrite Z.eqb_refl. cbn [negb].
  assert (Hmin : m <> PERIODIZATION -> dec_len w / 2 <= zlen cA).
  { intros Hm. assert (1 <= 2 * zlen cA - dec_len w + 2) by (destruct m; cbn [rec_len] in Hrec; lia || congruence). lia. }
  rewrite upsampling_convolution_valid_sf_spec; rewrite ?H2; auto; try lia. cbn [bind].
  rewrite upsampling_convolution_valid_sf_spec; rewrite ?H3, <- ?Hl; auto; try lia.
  2: { rewrite zlen_tab; lia. }
  cbn [as_runtime]. f_equal.
  rewrite zlen_tab by lia.
  assert (Hs0 : zlen (synthesis m (rec_lo w) cA) = zlen z) by (rewrite zlen_synthesis; rewrite H2; lia).
  assert (Hs1 : zlen (synthesis m (rec_hi w) cD) = zlen z) by (rewrite zlen_synthesis; rewrite H3, <- Hl; lia).
  apply list_ext.
  - rewrite zlen_tab by lia. rewrite zlen_vadd; lia.
  - intros i Hi. rewrite zlen_tab in Hi by lia. rewrite gz_tab by lia. rewrite gz_tab by lia.
    rewrite gz_vadd by lia. rewrite Hzd, gz_repeat0. ring.
Qed.

Theorem idwt_single_mismatch (cA cD : list C) w m :
  zlen cA <> zlen cD -> idwt_single fuel cA cD w m = Err ValueError.
Proof. intros H. unfold idwt_single. replace (zlen cA =? zlen cD) with false by lia. reflexivity. Qed.

End P.

(** ** Perfect reconstruction *)
Section PR.
Variable C : CRing.
Add Ring Cring_ring_pr : (rth C).

(** Convolution written as a sum over the total delay. *)
Lemma rdistr (a b c : C) : (a [+] b) [*] c = a [*] c [+] b [*] c.
Proof. ring. Qed.

Lemma conv_delay (h : list C) (e : Z -> C) F i m :
  zlen h = F -> 0 <= m < F ->
  conv h e (i - m) = sumZ 0 (2 * F) (fun s => gz h (s - m) [*] e (i - s)).
Proof.
  intros HF Hm. unfold conv. rewrite HF.
  rewrite (sumZ_shift _ 0 F m).
  rewrite (sumZ_ext _ (0 + m) (F + m) _ (fun s => gz h (s - m) [*] e (i - s))).
  - apply sumZ_widen; try lia. intros t Ht Hn.
    destruct (Z.le_gt_cases 0 (t - m)); [rewrite gz_big by lia|rewrite gz_neg by lia]; ring.
  - intros t Ht. f_equal. f_equal. lia.
Qed.

Lemma up_conv_conv (g h : list C) (e : Z -> C) (c : Z -> C) F n d :
  zlen h = F -> zlen g = F ->
  (forall m, 0 <= m < F -> (n - m) mod 2 = 0 -> c ((n - m) / 2) = conv h e (n - m + d)) ->
  up_conv g c n = sumZ 0 (2 * F) (fun s =>
     sumZ 0 F (fun m => if m mod 2 =? n mod 2 then gz g m [*] gz h (s - m) else r0) [*] e (n + d - s)).
Proof.
  intros Hh Hg Hc. unfold up_conv. rewrite Hg.
  rewrite (sumZ_ext _ 0 F _ (fun m => sumZ 0 (2 * F) (fun s =>
     (if m mod 2 =? n mod 2 then gz g m [*] gz h (s - m) else r0) [*] e (n + d - s)))).
  - rewrite sumZ_swap. apply sumZ_ext. intros s Hs. apply sumZ_scal_r.
  - intros m Hm. destruct (Z.eqb_spec ((n - m) mod 2) 0) as [E|E].
    + replace (m mod 2 =? n mod 2) with true by lia. rewrite Hc by auto.
      replace (n - m + d) with (n + d - m) by lia.
      rewrite (conv_delay h e F) by auto. rewrite <- sumZ_scal. apply sumZ_ext. intros s Hs. ring.
    + replace (m mod 2 =? n mod 2) with false by lia.
      symmetry. apply sumZ_zero. intros. ring.
Qed.

Lemma pr_core (h0 h1 g0 g1 : list C) (e : Z -> C) (c0 c1 : Z -> C) n d :
  pr_bank h0 h1 g0 g1 -> let F := zlen h0 in
  (forall m, 0 <= m < F -> (n - m) mod 2 = 0 -> c0 ((n - m) / 2) = conv h0 e (n - m + d)) ->
  (forall m, 0 <= m < F -> (n - m) mod 2 = 0 -> c1 ((n - m) / 2) = conv h1 e (n - m + d)) ->
  up_conv g0 c0 n [+] up_conv g1 c1 n = e (n + d - (F - 1)).
Proof.
  intros (Hh1 & Hg0 & Hg1 & HF2 & HF & Hpr) F H0 H1.
  rewrite (up_conv_conv g0 h0 e c0 F n d), (up_conv_conv g1 h1 e c1 F n d) by auto.
  rewrite <- sumZ_add.
  rewrite (sumZ_single _ 0 (2 * F) (F - 1)).
  - rewrite <- rdistr, <- sumZ_add.
    rewrite (sumZ_ext _ 0 F _ (fun m => if m mod 2 =? n mod 2
       then gz g0 m [*] gz h0 (F - 1 - m) [+] gz g1 m [*] gz h1 (F - 1 - m) else r0)).
    + fold F in Hpr. rewrite Hpr by lia. rewrite Z.eqb_refl. ring.
    + intros m Hm. destruct (m mod 2 =? n mod 2); ring.
  - fold F in HF. lia.
  - intros s Hs Hne. rewrite <- rdistr, <- sumZ_add.
    rewrite (sumZ_ext _ 0 F _ (fun m => if m mod 2 =? n mod 2
       then gz g0 m [*] gz h0 (s - m) [+] gz g1 m [*] gz h1 (s - m) else r0)).
    + fold F in Hpr. rewrite Hpr by lia. replace (s =? F - 1) with false by lia. ring.
    + intros m Hm. destruct (m mod 2 =? n mod 2); ring.
Qed.

End PR.
