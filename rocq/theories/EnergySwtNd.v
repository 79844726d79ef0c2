(** Energy of the n-dimensional stationary transform. *)
From Coq Require Import String Ascii List.
From Verif Require Import Base BaseLemmas CConv Spec Lengths Dwt DwtProofs PR Linear Facts1 Swt SwtSpec SwtProofs Nd NdSpec NdLinear Axis AxisProofs AxisProofs2 Multidim MultidimProofs MultidimFacts MultilevelNd MultilevelNdProofs SwtNd SwtNdArgs NdSwtSpec SwtNdLevel SwtNdFwd ParsevalNd MeanNd MeanSwtNd.
Import ListNotations.
Open Scope list_scope. Open Scope Z_scope.

(** Sum of the squares of all elements, of an array and of an item of the
    list of coefficients. *)
Definition nd_energy {C : CRing} (x : nd C) : C := ndsum C (nshape x) (fun i => ndget x i [*] ndget x i).
Definition item_energy {C : CRing} (it : swtn_item C) : C :=
  match it with
  | NArr a => nd_energy (val C a)
  | NDict d => fold_right radd r0 (map (fun e => nd_energy (val C (snd e))) d)
  end.

Section E.
Variable C : CRing.
Add Ring Cring_ring_esn : (rth C).
Variable fuel : nat.
Notation plan_t := (list (nat * wavelet C)).
Notation suml := (fold_right (@radd C) r0).

Lemma wax_energy1 ax l h (x : nd C) : nd_wf x -> (ax < List.length (nshape x))%nat ->
  nd_energy (wax ax l h x) = ndsum C (setn ax 1 (nshape x)) (fun idx => energy (swt_step l h (line x ax idx))).
Proof.
  intros Wx Hax. unfold nd_energy. rewrite wax_shape. set (n := nthz ax (nshape x)) in *.
  rewrite (ndsum_axis C fuel (nshape x) ax) by auto. apply ndsum_ext. intros idx V. fold n.
  unfold energy, inner. rewrite zlen_swt_step, zlen_line by auto. fold n. apply sumZ_ext. intros i Hi.
  assert (Vi : valid (setn ax n (nshape x)) (setn ax i idx)).
  { rewrite <- (setn_setn ax n 1). apply valid_setn; auto. }
  assert (Li : nthz ax (setn ax i idx) = i) by (apply nthz_setn; rewrite (valid_len _ _ V), setn_length; auto).
  unfold wax. fold n. rewrite !ndget_along by auto. rewrite !line_setn, Li. reflexivity.
Qed.
Lemma line_energy ax (x : nd C) : nd_wf x -> (ax < List.length (nshape x))%nat ->
  nd_energy x = ndsum C (setn ax 1 (nshape x)) (fun idx => energy (line x ax idx)).
Proof.
  intros Wx Hax. unfold nd_energy. set (n := nthz ax (nshape x)) in *.
  rewrite (ndsum_axis C fuel (nshape x) ax) by auto. apply ndsum_ext. intros idx V. fold n.
  unfold energy, inner. rewrite zlen_line by auto. fold n. apply sumZ_ext. intros i Hi. unfold line. fold n. rewrite gz_tab by auto. reflexivity.
Qed.

Variable isq2 : C.
Hypothesis Hs : (r1 [+] r1) [*] (isq2 [*] isq2) = r1.

Lemma wax_energy ax l w (x : nd C) : orthonormal w -> nd_wf x -> (ax < List.length (nshape x))%nat -> 1 <= l -> 1 <= nthz ax (nshape x) -> (2 ^ l | nthz ax (nshape x)) ->
  nd_energy (wax ax l (dec_lo (rescale isq2 w)) x) [+] nd_energy (wax ax l (dec_hi (rescale isq2 w)) x) = nd_energy x.
Proof.
  intros (Hpr & E0 & E1) Wx Hax Hl HN Hd. rewrite !wax_energy1, (line_energy ax x) by auto. rewrite <- ndsum_add. apply ndsum_ext. intros idx V.
  cbn [rescale dec_lo dec_hi]. apply swt_step_energy; auto; try (rewrite zlen_line by auto; auto).
  unfold pr_wavelet in Hpr. rewrite E0, E1 in Hpr. exact Hpr.
Qed.

Definition good_axes (L : Z) (plan : plan_t) (sh : list Z) : Prop :=
  forall p, In p plan -> orthonormal (snd p) /\ (fst p < List.length sh)%nat /\ 1 <= nthz (fst p) sh /\ (2 ^ L | nthz (fst p) sh).

Lemma bands_energy l : 1 <= l -> forall (plan : plan_t) (x : nd C), nd_wf x -> good_axes l plan (nshape x) ->
  suml (map (fun k => nd_energy (swt_band l k (norm_plan (Some isq2) plan) x)) (ad_keys (List.length plan))) = nd_energy x.
Proof.
  intros Hl. induction plan as [|[ax w] p IH]; intros x Wx H; cbn [List.length ad_keys map]; [cbn; ring|].
  destruct (H (ax, w) (or_introl eq_refl)) as (H1 & H2 & H3 & H4). cbn [fst snd] in *.
  rewrite map_app, !map_map. assert (G : forall a b : list C, suml (a ++ b) = suml a [+] suml b).
  { induction a as [|y a IHa]; intros b; cbn [app fold_right]; [ring|]. rewrite IHa. ring. }
  rewrite G. rewrite <- (wax_energy ax l w x) by auto. cbn [norm_plan map fst snd swt_band]. change (letter "a"%char ?v) with (dec_lo v). change (letter "d"%char ?v) with (dec_hi v). cbn [norm_w].
  assert (Gp : forall h, good_axes l p (nshape (wax ax l h x))).
  { intros h q Hq. rewrite wax_shape. apply H. now right. }
  f_equal; (apply IH; [now apply wax_wf|apply Gp]).
Qed.

Lemma approx_energy (plan : plan_t) s (x : nd C) : let np := norm_plan (Some isq2) plan in 0 <= s -> nd_wf x -> forall n, good_axes (s + Z.of_nat n) plan (nshape x) ->
  nd_energy (swtn_approx np s n x) [+] suml (map item_energy (map (swtn_level true np s x) (rev (seq 1 n)))) = nd_energy x.
Proof.
  intros np Hs0 Wx. assert (Hlen : List.length np = List.length plan) by (unfold np, norm_plan; apply map_length).
  induction n as [|n IH]; intros HG; [cbn; ring|].
  rewrite seq_S, rev_app_distr. cbn [rev app map fold_right].
  assert (Gn : good_axes (s + Z.of_nat n) plan (nshape x)).
  { intros p Hp. destruct (HG p Hp) as (A1 & A2 & A3 & A4). repeat split; auto; try apply A1. apply Z.divide_trans with (2 ^ (s + Z.of_nat (S n))); auto. exists 2. rewrite <- Z.pow_succ_r by lia. f_equal. lia. }
  rewrite <- (IH Gn).
  pose proof (bands_energy (s + Z.of_nat (S n)) ltac:(lia) plan (swtn_approx np s n x) (approx_wf C np s n x Wx)) as HB.
  rewrite approx_shape in HB. specialize (HB HG). fold np in HB. rewrite (ad_keys_hd (List.length plan)) in HB. cbn [map fold_right] in HB.
  rewrite <- Hlen, low_all_a in HB. rewrite <- HB. cbn [swtn_approx].
  replace (item_energy (swtn_level true np s x (1 + n))) with (suml (map (fun k => nd_energy (swt_band (s + Z.of_nat (S n)) k np (swtn_approx np s n x))) (tl (ad_keys (List.length np))))); [ring|].
  cbn [swtn_level item_energy]. rewrite map_map. f_equal. apply map_ext. intros k. cbn [snd]. replace (1 + n - 1)%nat with n by lia.
  rewrite val_of_nd by (apply band_wf', approx_wf; auto). reflexivity.
Qed.

Theorem swtn_energy junk (data : sarr C) w level axes plan : sarr_ok C data -> 1 <= ndim data <= 64 -> 1 <= level ->
  swt_resolves (ndim data) w (default_axes (ndim data) axes) plan -> swt_plan_ok fuel level (sshape data) plan -> (forall p, In p plan -> orthonormal (snd p)) ->
  exists cs, swtn fuel junk data w level 0 axes true (Some isq2) = Ok cs /\ fold_right radd r0 (map item_energy cs) = nd_energy (val C data).
Proof.
  intros Ox Hn Hl HR (P1 & P2 & P3 & P4) HO. exists (swtn_result true (norm_plan (Some isq2) plan) 0 (Z.to_nat level) (val C data)). split.
  - apply swtn_spec; auto; try lia. replace (0 + level) with level by lia. split; [|split; [auto|split]].
    + intros E. apply map_eq_nil in E. contradiction.
    + unfold norm_plan. rewrite map_map. cbn [fst]. exact P3.
    + intros p Hp. unfold norm_plan in Hp. apply in_map_iff in Hp. destruct Hp as (q & <- & Hq). destruct (P4 q Hq) as (A & B & D & E & F). cbn [fst snd norm_w]. rewrite rescale_len. repeat (split; auto). all: try (apply rescale_wf; auto).
  - unfold swtn_result. cbn [app map fold_right item_energy]. pose proof (val_wf C data Ox) as Wx. rewrite val_of_nd by (apply approx_wf; auto).
    apply approx_energy; auto; try lia. rewrite nshape_val. intros p Hp. destruct (P4 p Hp) as (A & B & D & _). repeat (split; auto). replace (0 + Z.of_nat (Z.to_nat level)) with level by lia. auto.
Qed.
End E.
