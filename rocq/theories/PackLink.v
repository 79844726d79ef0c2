(** The coefficients of wavedec and wavedecn can be packed. *)
From Coq Require Import Ascii String Permutation.
From Verif Require Import Base BaseLemmas CConv Spec Lengths Dwt DwtProofs Multilevel MultilevelProofs Nd NdSpec Swt Axis AxisProofs Multidim MultidimProofs MultidimFacts MultilevelNd MultilevelNdProofs MultilevelNdFacts SwtNd PackSpec Packing PackRavel PackRavelFacts PackBox PackArray PackArrayFacts.
Open Scope Z_scope.

(** A list of sarr dictionaries as returned by wavedecn, as a coefficient list. *)
Definition coeff_list {C : CRing} (a : sarr C) (ds : list (dict (sarr C))) : list (item C) :=
  IArr (val C a) :: map (fun d => IDict (map (fun '(k, v) => (k, Some (val C v))) d)) ds.
(** The list returned by wavedec. *)
Definition vec {C : CRing} (l : list C) : nd C := mkNd [zlen l] l.
Definition vec_list {C : CRing} (l : list (list C)) : list (item C) := map (fun x => IArr (vec x)) l.

Lemma vec_wf {C : CRing} (l : list C) : nd_wf (vec l).
Proof. split; [repeat constructor; apply zlen_nonneg|]. cbn. lia. Qed.

Lemma twice_coeff_len m N F : 1 <= N -> 2 <= F -> N <= 2 * coeff_len m N F.
Proof. intros H1 H2. unfold coeff_len. destruct m; try (pose proof (Z.div_mod (N + F - 1) 2 ltac:(lia)); pose proof (Z.mod_pos_bound (N + F - 1) 2); lia); pose proof (Z.div_mod (N + 1) 2 ltac:(lia)); pose proof (Z.mod_pos_bound (N + 1) 2); lia. Qed.

Lemma ad_keys_word n : forall k, In k (ad_keys n) -> ad_word k /\ String.length k = n.
Proof.
  induction n as [|n IH]; intros k H; cbn in H.
  - destruct H as [<-|[]]. split; reflexivity.
  - apply in_app_or in H. destruct H as [H|H]; apply in_map_iff in H; destruct H as (j & <- & Hj); destruct (IH j Hj); cbn; auto.
Qed.
Lemma all_d_in n : In (all_d n) (ad_keys n).
Proof. induction n as [|n IH]; cbn; [auto|]. apply in_or_app. right. apply in_map. auto. Qed.

Section L.
Variable C : CRing.
Notation step := (MultidimProofs.step C).

Definition values (d : dict (sarr C)) : dict (nd C) := map (fun '(k, v) => (k, val C v)) d.

(** The shapes and arrays of the levels of wavedecn, coarsest first. *)
Definition wave_levels (plan : list step) (x : nd C) (n : nat) : list (list Z * dict (nd C)) :=
  map (fun j => (lev_shape C plan (S j) (nshape x), values (det C plan (appr C plan j x)))) (rev (seq 0 n)).

Lemma wave_axes fuel (plan : list step) B (x : nd C) w m axes n : resolves C (zlen (nshape x)) w m (default_axes (zlen (nshape x)) axes) plan ->
  plan_good C fuel B (nshape x) plan -> axes_are (List.length (nshape x)) (the_axes C axes (appr C plan n x)) (map (st_ax C) plan) \/ List.length (nshape (appr C plan n x)) <> List.length (nshape x).
Proof.
  intros (R & _) (_ & _ & _ & _ & Hd & Hs). destruct (Nat.eq_dec (List.length (nshape (appr C plan n x))) (List.length (nshape x))) as [El|]; auto. left.
  split; auto. assert (E : the_axes C axes (appr C plan n x) = default_axes (zlen (nshape x)) axes).
  { unfold the_axes, default_axes. destruct axes as [l|]; auto. rewrite El. unfold tab, zlen. rewrite Nat2Z.id. apply map_ext. reflexivity. }
  rewrite E. clear E. revert R Hs. generalize (default_axes (zlen (nshape x)) axes). clear.
  induction plan as [|s p IH]; intros [|ax l] R Hs; cbn in R; try discriminate; [constructor|]. cbn [map].
  assert (R1 : (if ax <? 0 then ax + zlen (nshape x) else ax) = Z.of_nat (st_ax C s)) by congruence.
  assert (R2 : norm_axes (zlen (nshape x)) l = map (fun s => Z.of_nat (st_ax C s)) p) by (unfold norm_axes; congruence).
  constructor; [|apply IH; auto; intros t Ht; apply Hs; right; auto].
  destruct (Hs s (or_introl eq_refl)) as ((Ha & _) & _). split; auto. unfold zlen in R1. destruct (Z.ltb_spec ax 0); lia.
Qed.

Lemma wave_level_ok fuel plan B (x : nd C) A P j : nd_wf x -> plan <> [] -> levels_good C fuel B (nshape x) plan (S j) ->
  (forall k, ~ In k (map (st_ax C) plan) -> nthz k A = nthz k (nshape x)) ->
  (forall k, In k (map (st_ax C) plan) -> nthz k (lev_shape C plan (S j) (nshape x)) <= nthz k P) ->
  level_ok C (List.length (nshape x)) (map (st_ax C) plan) A P (lev_shape C plan (S j) (nshape x), values (det C plan (appr C plan j x))).
Proof.
  intros Hx Hne Hg HA HP.
  assert (Hg' : levels_good C fuel B (nshape x) plan j) by (intros i Hi; apply Hg; lia).
  destruct (appr_wf C fuel plan B j x Hx Hg') as (W & E). pose proof (Hg j ltac:(lia)) as Gj. rewrite <- E in Gj.
  pose proof (plan_good_ok _ _ _ _ _ Gj) as Pj.
  assert (Hb : forall k, In k (ad_keys (List.length plan)) -> nd_wf (band C k plan (appr C plan j x)) /\ nshape (band C k plan (appr C plan j x)) = lev_shape C plan (S j) (nshape x)).
  { intros k Hk. split; [apply (band_wf C fuel); auto|]. rewrite (band_shape C fuel); auto; [|apply ad_keys_word; auto].
    cbn [lev_shape]. rewrite <- E. reflexivity. }
  assert (Hd : values (det C plan (appr C plan j x)) = map (fun k => (k, band C k plan (appr C plan j x))) (tl (ad_keys (List.length plan)))).
  { unfold values, det. rewrite map_map. apply map_ext_in. intros k Hk. f_equal. apply val_of_nd. apply Hb. rewrite ad_keys_head. right. auto. }
  rewrite Hd. pose proof (ad_keys_NoDup (List.length plan)) as Hn. rewrite ad_keys_head in Hn. apply NoDup_cons_iff in Hn. destruct Hn as (N1 & N2).
  split; [apply lev_shape_length|]. split; [rewrite <- (proj2 (Hb _ (all_a_in _))); apply (proj1 (Hb _ (all_a_in _)))|].
  split; [intros k Hk; rewrite HA by auto; apply nthz_lev_shape_ne; auto|]. split; [exact HP|].
  split; [split|split].
  - rewrite map_map. cbn [fst]. rewrite map_id. auto.
  - intros k y Hi. apply in_map_iff in Hi. destruct Hi as (q & Eq & Hq). injection Eq as <- <-. apply Hb. rewrite ad_keys_head. right. auto.
  - rewrite map_map. cbn [fst]. rewrite map_id, map_length. pose proof (all_d_in (List.length plan)) as Hi. rewrite ad_keys_head in Hi.
    destruct Hi as [Hi|Hi]; auto. exfalso. destruct plan as [|s p]; [congruence|]. discriminate Hi.
  - intros k y Hi. apply in_map_iff in Hi. destruct Hi as (q & Eq & Hq). injection Eq as <- <-.
    assert (Hin : In q (ad_keys (List.length plan))) by (rewrite ad_keys_head; right; auto).
    destruct (ad_keys_word _ _ Hin) as (K1 & K2). rewrite map_length. split; [auto|]. split; [auto|]. split; [|apply Hb; auto].
    intros ->. auto.
Qed.

Lemma wave_levels_ok fuel plan B (x : nd C) A : nd_wf x -> plan <> [] ->
  (forall k, ~ In k (map (st_ax C) plan) -> nthz k A = nthz k (nshape x)) ->
  forall n P, levels_good C fuel B (nshape x) plan n -> List.length P = List.length (nshape x) ->
  (forall k, In k (map (st_ax C) plan) -> nthz k (lev_shape C plan n (nshape x)) <= nthz k P) ->
  levels_are C (List.length (nshape x)) (map (st_ax C) plan) A P (wave_levels plan x n).
Proof.
  intros Hx Hne HA. induction n as [|n IH]; intros P Hg HP Hle; [exact I|].
  unfold wave_levels. rewrite seq_S, rev_app_distr. cbn [rev app map levels_are fst Nat.add].
  split; [apply (wave_level_ok fuel plan B); auto|]. apply IH.
  - intros i Hi. apply Hg. lia.
  - rewrite zadd_length; auto. rewrite HP, lev_shape_length. auto.
  - intros k Hk. rewrite nth_zadd by (rewrite HP, lev_shape_length; auto). specialize (Hle k Hk).
    apply in_map_iff in Hk. destruct Hk as (s & <- & Hs).
    destruct (Hg n ltac:(lia)) as (_ & _ & _ & _ & Hd & H6). destruct (H6 s Hs) as (Hok & _). destruct (step_len _ _ _ _ Hok) as (N1 & _).
    destruct Hok as (Ha & (_ & _ & _ & _ & HF) & _).
    cbn [lev_shape] in *. rewrite nthz_lev_step in * by auto.
    pose proof (twice_coeff_len (st_m C s) (nthz (st_ax C s) (lev_shape C plan n (nshape x))) (dec_len (st_w C s)) N1 HF). lia.
Qed.

Theorem wavedecn_packs fuel junk (data : sarr C) w m level axes plan B l :
  sarr_ok C data -> 1 <= ndim data <= 64 -> plan <> [] ->
  resolves C (ndim data) w m (default_axes (ndim data) axes) plan ->
  plan_good C fuel B (sshape data) plan ->
  check_level (level_pairs C (sshape data) plan) level = Ok l ->
  (forall s, In s plan -> levels_ok (st_m C s) (dec_len (st_w C s)) (Z.to_nat l) (nthz (st_ax C s) (sshape data))) ->
  exists a ds, wavedecn fuel junk data w m level axes = Ok (a, ds) /\
    (forall junk' p, exists r, coeffs_to_array C junk' (coeff_list a ds) (Some p) axes = Ok r) /\
    forall junk' padding arr sls, coeffs_to_array C junk' (coeff_list a ds) padding axes = Ok (arr, sls) ->
      packing_ok C (val C a) (coeff_list a ds) FWavedecn padding arr sls.
Proof.
  intros Hok Hn Hne HR Hg Hl Hlev. destruct (wavedecn_spec C fuel junk data w m level axes plan B l Hok Hn Hne HR Hg Hl Hlev) as (a & E & Oa & Va).
  exists a. eexists. split; [exact E|]. set (x := val C data) in *. set (n := Z.to_nat l) in *.
  assert (Hx : nd_wf x) by (apply val_wf; auto).
  assert (Ex : nshape x = sshape data) by apply nshape_val.
  assert (Hgo : levels_good C fuel B (nshape x) plan n) by (rewrite Ex; apply levels_good_intro; auto).
  destruct (appr_wf C fuel plan B n x Hx Hgo) as (W & Es).
  assert (Hcl : coeff_list a (map (fun j => det C plan (appr C plan j x)) (rev (seq 0 n))) = IArr (val C a) :: dicts C (map snd (wave_levels plan x n))).
  { unfold coeff_list, dicts, wave_levels. f_equal. rewrite !map_map. apply map_ext. intros j. cbn [snd]. f_equal. unfold bands, values. rewrite map_map.
    apply map_ext. intros (k, v). reflexivity. }
  assert (Hlen : List.length (nshape (appr C plan n x)) = List.length (nshape x)) by (rewrite Es, lev_shape_length; auto).
  assert (Hdet : details_ok C axes (val C a) (map (st_ax C) plan) (wave_levels plan x n)).
  { rewrite Va. split.
    - rewrite Hlen. unfold ndim in HR. rewrite <- Ex in HR, Hg. destruct (wave_axes fuel plan B x w m axes n HR Hg) as [H|H]; auto. congruence.
    - rewrite Hlen. apply (wave_levels_ok fuel plan B); auto.
      + intros k Hk. rewrite Es. apply nthz_lev_shape_ne. auto.
      + intros k _. rewrite Es. lia. }
  assert (Wa : nd_wf (val C a)) by (rewrite Va; auto).
  rewrite Hcl. split.
  - intros junk' p. destruct (pack_padded C junk' axes (val C a) _ _ p Wa Hdet) as (arr & sls & H). eauto.
  - intros junk' padding arr sls H. apply (pack_wavedecn_format C axes (val C a) _ _ junk' padding arr sls Wa Hdet H).
Qed.

(** wavedec: the array is always completely filled. *)
Lemma wavedec_fit m (h0 h1 : list C) (x : list C) : 1 <= zlen x -> 2 <= zlen h0 -> zlen h1 = zlen h0 -> forall n P,
  approx_len m (zlen h0) n (zlen x) <= P ->
  fit1 C P (map vec (map (fun j => analysis m h1 (approx m h0 j x)) (rev (seq 0 n)))).
Proof.
  intros Hx Hh Hh1. induction n as [|n IH]; intros P HP; [exact I|]. rewrite seq_S, rev_app_distr. cbn [rev app map fit1 Nat.add].
  split; [apply vec_wf|].
  pose proof (approx_len_pos m (zlen h0) n (zlen x) Hx Hh) as Hpos.
  assert (Ea : zlen (approx m h0 n x) = approx_len m (zlen h0) n (zlen x)) by (apply zlen_approx; auto).
  assert (Ez : zlen (analysis m h1 (approx m h0 n x)) = approx_len m (zlen h0) (S n) (zlen x)).
  { rewrite zlen_analysis by lia. cbn [approx_len]. rewrite Ea, Hh1. reflexivity. }
  eexists. split; [reflexivity|]. split; [rewrite Ez; auto|]. apply IH. rewrite Ez.
  pose proof (twice_coeff_len m (approx_len m (zlen h0) n (zlen x)) (zlen h0)). cbn [approx_len] in *. lia.
Qed.
Theorem wavedec_packs fuel junk (x : list C) w m level padding axes :
  wf_bank w -> 1 <= zlen x -> 0 <= level -> levels_ok m (dec_len w) (Z.to_nat level) (zlen x) ->
  resources fuel (zlen x) (dec_len w) -> axes = None \/ axes = Some [0] \/ axes = Some [-1] ->
  exists cs, wavedec fuel x w m (Some level) = Ok cs /\
  exists arr sls, coeffs_to_array C junk (vec_list cs) padding axes = Ok (arr, sls) /\
    nshape arr = [fold_right Z.add 0 (map zlen cs)] /\
    packing_ok C (vec (hd [] cs)) (vec_list cs) FWavedec padding arr sls /\
    (forall idx, Nd.valid (nshape arr) idx -> exists s, In s (all_slices sls) /\ selects s (nshape arr) idx).
Proof.
  intros Hw Hx Hlv Hl Hr Hax. eexists. split; [apply wavedec_spec; auto|]. unfold multi_analysis. set (n := Z.to_nat level) in *. set (a := approx m (dec_lo w) n x).
  set (ds := map (fun j => analysis m (dec_hi w) (approx m (dec_lo w) j x)) (rev (seq 0 n))).
  pose proof Hw as (H1 & H2 & H3 & H4 & H5).
  assert (Hf : fit1 C (zlen a) (map vec ds)).
  { apply wavedec_fit; auto; try congruence; try lia. unfold a. rewrite zlen_approx by (auto; lia). lia. }
  destruct (pack_wavedec_format C junk padding axes (vec a) (zlen a) (map vec ds) (vec_wf a) eq_refl Hax Hf) as (arr & sls & P1 & P2 & P3 & P4).
  exists arr, sls. unfold vec_list. cbn [map hd]. rewrite map_map in P1, P3. split; [exact P1|]. split; [|split; [exact P3|exact P4]].
  rewrite P2. cbn [fold_right]. do 2 f_equal. unfold elements. clear. induction ds as [|d ds IH]; [reflexivity|]. cbn [map flat_map fold_right]. rewrite zlen_app, IH. reflexivity.
Qed.
End L.
