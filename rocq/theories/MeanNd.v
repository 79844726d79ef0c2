(** Sums of the coefficients of n-dimensional data in periodization mode. *)
From Coq Require Import String Ascii List.
From Verif Require Import Base BaseLemmas CConv Spec ExtLemmas Lengths LengthsProofs Dwt DwtProofs PR Linear Swt SwtSpec SwtProofs Nd NdSpec NdLinear Axis AxisProofs AxisProofs2 Multidim MultidimProofs MultidimFacts Multilevel MultilevelProofs Facts1 MultilevelNd MultilevelNdProofs MultilevelNdFacts CyclicMain CyclicNd ParsevalNd PacketsEnergy MeanSpec Mean.
Import ListNotations.
Open Scope list_scope. Open Scope Z_scope.

(** Sum of all elements. *)
Definition nd_total {C : CRing} (x : nd C) : C := ndsum C (nshape x) (ndget x).
(** Product of the sums of the even taps over the axes. *)
Definition gains {C : CRing} (plan : list (step C)) : C := fold_right (fun s acc => taps_sum 0 (dec_lo (st_w C s)) [*] acc) r1 plan.
Definition balanced {C : CRing} (plan : list (step C)) : Prop := forall s, In s plan -> taps_sum 1 (dec_lo (st_w C s)) = taps_sum 0 (dec_lo (st_w C s)).

Section M.
Variable C : CRing.
Add Ring Cring_ring_mnd : (rth C).
Variable fuel : nat.
Notation step := (step C).
Notation lev := (lev_shape C).

Lemma ndsum_scal sh : forall c f, ndsum C sh (fun i => c [*] f i) = c [*] ndsum C sh f.
Proof. induction sh as [|n t IH]; intros c f; cbn [ndsum]; auto. rewrite <- sumZ_scal. apply sumZ_ext. intros i _. apply (IH c (fun idx => f (i :: idx))). Qed.
Lemma dax_total ax h (x : nd C) : nd_wf x -> (ax < List.length (nshape x))%nat -> 2 <= nthz ax (nshape x) -> nthz ax (nshape x) mod 2 = 0 -> 1 <= zlen h ->
  taps_sum 1 h = taps_sum 0 h -> nd_total (dax ax PERIODIZATION h x) = taps_sum 0 h [*] nd_total x.
Proof.
  intros Wx Hax HN HN2 Hh Hb. set (n := nthz ax (nshape x)) in *. unfold nd_total. rewrite dax_len. fold n.
  rewrite (ndsum_axis C fuel _ ax) by (rewrite setn_length; auto). rewrite setn_setn, nthz_setn by auto.
  rewrite (ndsum_axis C fuel (nshape x) ax) by auto. rewrite <- ndsum_scal. apply ndsum_ext. intros idx V. fold n.
  transitivity (total (analysis PERIODIZATION h (line x ax idx))).
  - unfold total. rewrite zlen_analysis by (rewrite ?zlen_line by auto; fold n; lia). rewrite zlen_line by auto. fold n. cbn [coeff_len]. apply sumZ_ext. intros i Hi.
    assert (Vi : valid (setn ax ((n + 1) / 2) (nshape x)) (setn ax i idx)).
    { rewrite <- (setn_setn ax ((n + 1) / 2) 1). apply valid_setn; auto. }
    assert (Li : nthz ax (setn ax i idx) = i) by (apply nthz_setn; rewrite (valid_len _ _ V), setn_length; auto).
    unfold dax. fold n. cbn [coeff_len]. rewrite !ndget_along by auto. rewrite !line_setn, Li. reflexivity.
  - rewrite (analysis_mean C h (line x ax idx) (taps_sum 0 h)); auto; try (rewrite zlen_line by auto; fold n; auto). f_equal.
    unfold total. rewrite zlen_line by auto. fold n. apply sumZ_ext. intros i Hi. unfold line. fold n. rewrite gz_tab by auto. reflexivity.
Qed.
Lemma band_total plan : forall x : nd C, NoDup (map (st_ax C) plan) -> balanced plan -> nd_wf x ->
  (forall s, In s plan -> st_m C s = PERIODIZATION /\ 1 <= dec_len (st_w C s) /\ (st_ax C s < List.length (nshape x))%nat /\ 2 <= nthz (st_ax C s) (nshape x) /\ nthz (st_ax C s) (nshape x) mod 2 = 0) ->
  nd_total (band C (all_a (List.length plan)) plan x) = gains plan [*] nd_total x.
Proof.
  induction plan as [|s p IH]; intros x Hn Hb Wx H; cbn [List.length all_a band]; [unfold gains; cbn; ring|].
  destruct (H s (or_introl eq_refl)) as (M & L & A1 & A2 & A3). rewrite M. change (pick C "a" (st_w C s)) with (dec_lo (st_w C s)). cbn [map] in Hn. inversion Hn as [|? ? Hni Hn']; subst.
  rewrite IH; auto.
  - rewrite (dax_total (st_ax C s)); auto; [unfold gains; cbn [fold_right]; ring|]. apply Hb. left; auto.
  - intros t Ht. apply Hb. right; auto.
  - apply dax_wf_per; auto. lia.
  - intros t Ht. rewrite dax_len, setn_length. rewrite nthz_setn_ne by (intros E; apply Hni; rewrite <- E; apply in_map; auto). apply H. right; auto.
Qed.
Lemma appr_total plan B N (x : nd C) : nd_wf x -> balanced plan -> levels_good C fuel B (nshape x) plan N -> periodized C plan (nshape x) N ->
  forall n, (n <= N)%nat -> nd_total (appr C plan n x) = power (gains plan) n [*] nd_total x.
Proof.
  intros Wx Hb HG HP. induction n as [|n IH]; intros Hn; cbn [appr power]; [ring|].
  destruct (appr_wf C fuel plan B n x Wx) as (Wn & Sn); [intros j Hj; apply HG; lia|].
  pose proof (HG n ltac:(lia)) as (_ & _ & _ & _ & Hd & H6).
  rewrite band_total; auto; [rewrite IH by lia; ring|]. intros s Hs. destruct (HP s Hs) as (M & PRw & _). destruct (H6 s Hs) as ((Ha & Hw & Hm & _) & _). rewrite Sn.
  destruct (lev_even C fuel plan (nshape x) B N n s HG HP ltac:(lia) Hs) as (E1 & _). rewrite M in Hm. cbn [min_len] in Hm. destruct Hw as (_ & _ & _ & _ & W5). repeat split; auto; lia.
Qed.

Theorem wavedecn_mean junk (x : sarr C) w m axes plan B N : sarr_ok C x -> 1 <= ndim x <= 64 -> plan <> [] ->
  resolves C (ndim x) w m (default_axes (ndim x) axes) plan -> plan_good C fuel B (sshape x) plan -> periodized C plan (sshape x) N -> balanced plan ->
  exists a ds, wavedecn fuel junk x w m (Some (Z.of_nat N)) axes = Ok (a, ds) /\ nd_total (val C a) = power (gains plan) N [*] nd_total (val C x).
Proof.
  intros Ox Hn Hne HR HG HP Hb.
  assert (Hl : forall s, In s plan -> levels_ok (st_m C s) (dec_len (st_w C s)) N (nthz (st_ax C s) (sshape x))).
  { intros s Hs. destruct (HP s Hs) as (M & PRw & _). destruct HG as (_ & _ & _ & _ & _ & H6). destruct (H6 s Hs) as ((Ha & Hw & Hm & _) & _). rewrite M in *. destruct Hw as (_ & _ & _ & _ & W5). cbn [min_len] in Hm. apply levels_ok_intro; auto. }
  assert (HL : levels_good C fuel B (nshape (val C x)) plan N) by (rewrite nshape_val; apply levels_good_intro; auto).
  assert (Hc : check_level (level_pairs C (sshape x) plan) (Some (Z.of_nat N)) = Ok (Z.of_nat N)).
  { unfold check_level. destruct plan as [|s p]; [congruence|]. unfold level_pairs. cbn [map list_min]. replace (Z.of_nat N <? 0) with false by lia. reflexivity. }
  destruct (wavedecn_spec C fuel junk x w m (Some (Z.of_nat N)) axes plan B (Z.of_nat N)) as (a & Ea & Oa & Va); auto; [rewrite Nat2Z.id; auto|].
  rewrite Nat2Z.id in *. eexists a, _. split; [exact Ea|]. rewrite Va. apply (appr_total plan B N); auto. apply val_wf; auto.
Qed.
End M.
