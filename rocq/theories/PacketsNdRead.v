(** Reading a WaveletPacketND never fails, whatever the sizes: nothing that is
    read is reconstructed, so trimming does not matter. *)
From Coq Require Import Permutation String Ascii Sorted.
From Verif Require Import Base BaseLemmas CConv Spec ExtLemmas Lengths LengthsProofs Dwt DwtProofs PR Linear Multilevel MultilevelProofs Swt SwtProofs Nd NdSpec NdLinear Axis AxisProofs AxisProofs2 Multidim MultidimProofs MultidimFacts MultilevelNd MultilevelNdProofs MultilevelNdFacts SwtNd SwtNdArgs.
From Verif Require Import Packets PacketsInv PacketsPath PacketsPath2 PacketsRead PacketsSpec PacketsLevel PacketsClasses PacketsFacts PacketsFacts2 PacketsFacts3 PacketsLevel2 PacketsLevel3 PacketsWalk PacketsWalkSpec PacketsWalkProofs PacketsWalkMain.
Open Scope list_scope. Open Scope Z_scope.

Section T.
Variable C : CRing.
Variable fuel : nat.
Variable junk : Z -> C.
(** The class of n-D packets if it trimmed. *)
Definition wpt (w : wavelet C) (m : mode) (axes : list Z) : wpclass (nd C) :=
  let K := wpn (C := C) fuel junk w m axes in mkWpclass _ (parts K) (plen K) (fwd K) (inv K) (shp K) (cut K) (mlev K) (keeps K) true.

Lemma wpt_pr w m axes plan B M N : pr_wavelet w -> plan <> [] -> zlen B = N -> resolves C N (One w) (One m) axes plan ->
  pr_class (wpt w m axes) M (fun l d => zlen (nshape d) = N /\ deep C fuel plan B M l d).
Proof.
  intros Hpr Hne HB HR. assert (EL : List.length axes = List.length plan) by (eapply resolves_len; eauto).
  assert (Hws : forall s, In s plan -> st_w C s = w).
  { destruct HR as (_ & R2 & _). cbn [objs_per_axis] in R2. injection R2 as R2. intros s Hs.
    apply (in_map (st_w C)) in Hs. rewrite <- R2 in Hs. apply repeat_spec in Hs. auto. }
  split; [cbn; rewrite EL; destruct plan; [congruence|]; destruct (ad_keys_cons (List.length (s :: plan))) as (k0 & t & E); rewrite E; discriminate|].
  intros l d cs Hl (HN & Hd) Ef.
  split; [eapply (wpn_keys C fuel junk w m axes); eauto|].
  pose proof (deep_good C fuel junk plan B M l d (proj2 Hl) Hd) as Hg. pose proof Hd as (Hw & Hn & _).
  pose proof (plan_good_ok _ _ _ _ _ Hg) as Hp.
  assert (Hbw : forall k, nd_wf (band C k plan d)) by (intros k; apply (band_wf C fuel); auto).
  assert (Ed : dwtn fuel junk (of_nd d) (One w) (One m) (Some axes) = Ok (map (fun k => (k, of_nd (band C k plan d))) (ad_keys (List.length plan)))).
  { rewrite (dwtn_bands C fuel junk (of_nd d) (One w) (One m) (Some axes) plan); auto.
    - rewrite val_of_nd by auto. reflexivity.
    - apply of_nd_ok; auto.
    - unfold ndim. cbn [of_nd sshape default_axes]. rewrite HN. auto. }
  cbn [wpt wpn fwd] in Ef. rewrite Ed in Ef. cbn [bind] in Ef. rewrite map_map in Ef. injection Ef as <-.
  set (cs := map _ (ad_keys (List.length plan))).
  assert (Ecs : cs = map (fun k => (k, band C k plan d)) (ad_keys (List.length plan))).
  { unfold cs. apply map_ext. intros k. rewrite val_of_nd by auto. reflexivity. }
  split.
  { intros p v Hi. rewrite Ecs in Hi. apply in_map_iff in Hi. destruct Hi as (k & E & Hk). injection E as <- <-.
    pose proof (ad_keys_length _ _ Hk) as Lk.
    assert (E : nshape (band C k plan d) = lev_step C plan (nshape d)) by (apply (band_shape C fuel); auto).
    split; [rewrite E; unfold zlen in *; rewrite lev_step_length; auto|]. apply deep_band; auto; lia. }
  exists (paxs C plan d). split.
  - cbn [wpt wpn inv parts]. rewrite EL.
    assert (Ea : map (fun '(k, v) => (k, option_map of_nd v)) (map (fun p => (p, dget cs p)) (ad_keys (List.length plan)))
      = map (fun '(k, v) => (k, Some v)) (map (fun k => (k, of_nd (band C k plan d))) (ad_keys (List.length plan)))).
    { rewrite !map_map. apply map_ext_in. intros k Hk. f_equal. rewrite Ecs.
      rewrite (dget_map (fun k => band C k plan d)) by auto. reflexivity. }
    rewrite Ea.
    destruct (idwtn_pr C fuel junk (map (fun k => (k, of_nd (band C k plan d))) (ad_keys (List.length plan))) d (One w) (One m) (Some axes) plan B) as (r & Er & Or & Vr); auto.
    + intros s Hs. rewrite (Hws s Hs). auto.
    + cbn [default_axes]. rewrite HN. auto.
    + intros k v Hi. apply in_map_iff in Hi. destruct Hi as (q & E & Hq). injection E as <- <-.
      split; auto. split; [apply of_nd_ok; auto|apply val_of_nd; auto].
    + intros k Hk. eexists. apply (dget_map (fun k => of_nd (band C k plan d))). auto.
    + rewrite Er. unfold oval. cbn [bind option_map]. rewrite Vr. reflexivity.
  - cbn [wpt wpn trims shp cut]. apply (trim_paxs C fuel junk); auto. intros s Hs. destruct Hg as (_ & _ & _ & _ & _ & G). apply (G s Hs).
Qed.
Lemma wpt_class w m axes : axes <> [] -> class_ok (wpt w m axes).
Proof. intros H. exact (wpn_class C fuel junk w m axes H). Qed.
Lemma wpt_keys w m axes d cs : fwd (wpt w m axes) d = Ok cs -> fwd_keys (wpt w m axes) cs.
Proof. exact (wpn_keys C fuel junk w m axes d cs). Qed.

(** Reading does the same in both classes. *)
Lemma same_op w m axes o h : reading o = true -> fst (do_op (wpt w m axes) o h) = fst (do_op (wpn fuel junk w m axes) o h).
Proof.
  destruct o; cbn [reading]; try discriminate; intros Hr; cbn [do_op]; try reflexivity.
  - destruct update; [discriminate|]. unfold bindM. pose proof (reconstruct_pure (wpt w m axes) n h) as E1. pose proof (reconstruct_pure (wpn fuel junk w m axes) n h) as E2.
    destruct (reconstruct (wpt w m axes) n false h) as [h1 [r1| | |e1]], (reconstruct (wpn fuel junk w m axes) n false h) as [h2 [r2| | |e2]]; cbn [fst ret] in *; congruence.
  - destruct update; [discriminate|]. unfold bindM. pose proof (root_pure (wpt w m axes) size n h) as E1. pose proof (root_pure (wpn fuel junk w m axes) size n h) as E2.
    destruct (root_reconstruct (wpt w m axes) size n false h) as [h1 [r1| | |e1]], (root_reconstruct (wpn fuel junk w m axes) size n false h) as [h2 [r2| | |e2]]; cbn [fst ret] in *; congruence.
Qed.
Lemma same_run w m axes ops : forallb reading ops = true -> forall h, run (wpt w m axes) h ops = run (wpn fuel junk w m axes) h ops.
Proof.
  induction ops as [|o ops IH]; intros H h; [reflexivity|]. cbn [forallb] in H. apply andb_prop in H. destruct H as (H1 & H2). unfold run in *. cbn [fold_left].
  rewrite (same_op w m axes o h H1). apply IH. auto.
Qed.

Section P.
Variables (data : nd C) (w : wavelet C) (m : mode) (maxl : option Z) (axes0 : option (list Z)) (axes : list Z) (plan : list (nat * (wavelet C * mode))) (B : list Z).
Variables (h0 : nheap (nd C)) (ops : list (op (nd C))).
Let K := wpn (C := C) fuel junk w m axes.
Hypothesis Hpr : pr_wavelet w.
Hypothesis Hw : nd_wf data.
Hypothesis H64 : zlen (nshape data) <= 64.
Hypothesis Hc : packetn fuel junk (Some data) w maxl axes0 = Ok (axes, h0).
Hypothesis Hne : plan <> [].
Hypothesis HR : resolves C (zlen (nshape data)) (One w) (One m) axes plan.
Hypothesis Hg : plan_good C fuel B (nshape data) plan.
Hypothesis HM : forall l, maxl = Some l -> 0 <= l /\ forall s, In s plan -> levels_ok m (dec_len w) (Z.to_nat l) (nthz (st_ax C s) (nshape data)).
Hypothesis Ho : forallb reading ops = true.

Lemma packetn_total : exists M, (forall l, maxl = Some l -> M = l) /\ 0 <= M /\ h0 = [root_node K (Some data) (Some M)] /\
  (forall f L, 0 <= L <= M -> (Z.to_nat L < f)%nat -> exists h r, level_nodes K f 0 L true (run K h0 ops) = (h, Ok r)) /\
  (forall f, (Z.to_nat M < f)%nat ->
    (forall q, exists h r, walk_visits K f q true 0 (run K h0 ops) = (h, Ok r) /\ same_data (run K h0 ops) h) /\
    exists h r, walk_depth_visits K f true 0 (run K h0 ops) = (h, Ok r) /\ same_data (run K h0 ops) h).
Proof.
  assert (Hax : axes <> []) by (pose proof (resolves_len C _ _ _ _ _ HR); destruct axes; destruct plan; cbn in *; congruence).
  pose proof (wpt_class w m axes Hax) as HK. pose proof (wpt_keys w m axes) as Hkeys.
  pose proof (pr_wf w Hpr) as Hwf. pose proof Hwf as (_ & _ & _ & _ & HF2).
  assert (Hws : forall s, In s plan -> st_w C s = w /\ st_m C s = m).
  { destruct HR as (_ & R2 & R3). cbn [objs_per_axis] in R2, R3. injection R2 as R2. injection R3 as R3. intros s Hs. split.
    - apply (in_map (st_w C)) in Hs. rewrite <- R2 in Hs. apply repeat_spec in Hs. auto.
    - apply (in_map (st_m C)) in Hs. rewrite <- R3 in Hs. apply repeat_spec in Hs. auto. }
  assert (Ha : forall s, In s plan -> (st_ax C s < List.length (nshape data))%nat).
  { intros s Hs. destruct Hg as (_ & _ & _ & _ & _ & G). apply (G s Hs). }
  pose proof Hc as Hc'. unfold packetn in Hc'. destruct (match axes0 with Some l => Ok l | None => _ end) as [ax| | |e]; cbn [bind] in Hc'; try discriminate.
  destruct (negb (Nat.eqb (distinct ax) (List.length ax))); [discriminate|].
  destruct (Z.eqb_spec (zlen (nshape data)) 0) as [|H2]; [discriminate|]. destruct (zlen (nshape data) <? zlen ax); [discriminate|].
  assert (E0 : exists M, ax = axes /\ h0 = [root_node K (Some data) (Some M)] /\ (forall l, maxl = Some l -> M = l) /\
    0 <= M /\ forall s, In s plan -> levels_ok m (dec_len w) (Z.to_nat M) (nthz (st_ax C s) (nshape data))).
  { assert (Ex : ax = axes).
    { destruct (mapM (py_index (nshape data)) ax) as [sizes| | |e]; cbn [bind] in Hc'; try discriminate.
      destruct (match maxl with Some l => Ok l | None => _ end) as [M| | |e]; cbn [bind] in Hc'; try discriminate. injection Hc' as E _. exact E. }
    subst ax. pose proof (max_level_axes C junk w m maxl axes plan (nshape data)) as ML.
    destruct (mapM (py_index (nshape data)) axes) as [sizes| | |e]; cbn [bind] in Hc'; try discriminate. cbn [bind] in ML.
    destruct (match maxl with Some l => Ok l | None => _ end) as [M| | |e] eqn:EM; cbn [bind] in Hc'; try discriminate.
    injection Hc' as <-. exists M. split; [unfold root_node; subst K; unfold wp1, wp2, wpn; cbn [shp]; reflexivity|]. split; [reflexivity|]. split; [intros l ->; congruence|]. apply ML; auto. apply HR. }
  destruct E0 as (M & -> & E0 & EM & HM0 & Hlv). exists M. split; auto. split; auto. split; auto. rewrite E0. clear Hc'.
  set (good := fun l d => zlen (nshape d) = zlen (nshape data) /\ deep C fuel plan B M l d).
  assert (EB : zlen B = zlen (nshape data)) by (destruct Hg as (_ & G & _); unfold zlen; lia).
  assert (Hg0 : good 0 data).
  { split; auto. split; auto. split; [unfold zlen in *; lia|]. rewrite Z.sub_0_r. apply (levels_good_intro C fuel); auto.
    intros s Hs. destruct (Hws s Hs) as (-> & ->). auto. }
  pose proof (wpt_pr w m axes plan B M _ Hpr Hne EB HR) as HP. fold good in HP.
  assert (Htot : fwd_total (wpt w m axes) M good).
  { intros l d Hl (HN & Hd). eexists. exact (wpn_fwd C fuel junk w m axes plan B M l _ d Hne EB HR (proj2 Hl) HN Hd). }
  pose proof (same_run w m axes ops Ho [root_node K (Some data) (Some M)]) as SR. fold K in SR.
  change (root_node K (Some data) (Some M)) with (root_node (wpt w m axes) (Some data) (Some M)) in SR at 1.
  split.
  - intros f L HL Hf. destruct (level_total (wpt w m axes) HK Hkeys M good HP Htot data ops L f HM0 Hg0 (reading_analysing ops Ho) HL Hf) as (h & r & E).
    rewrite SR in E. exists h, r. exact E.
  - intros f Hf. pose proof (walk_total (wpt w m axes) HK Hkeys M good HP Htot data ops f HM0 Hg0 (reading_analysing ops Ho) Hf) as T. cbv zeta in T. rewrite SR in T. exact T.
Qed.

Theorem packetn_walk : exists M, (forall l, maxl = Some l -> M = l) /\ h0 = [root_node K (Some data) (Some M)] /\ forall f, (Z.to_nat M < f)%nat ->
  (forall q, exists h r, walk_visits K f q true 0 (run K h0 ops) = (h, Ok r) /\ paths h r = map Some (words_pre (ad_keys (List.length axes)) q EmptyString (Z.to_nat M)) /\ same_data (run K h0 ops) h) /\
  exists h r, walk_depth_visits K f true 0 (run K h0 ops) = (h, Ok r) /\ paths h r = map Some (words_post (ad_keys (List.length axes)) (Z.to_nat M)) /\ same_data (run K h0 ops) h.
Proof.
  destruct packetn_total as (M & EM & HM0 & E0 & _ & T). exists M. split; auto. split; auto. intros f Hf. destruct (T f Hf) as (T1 & T2). rewrite E0 in *.
  assert (Hax : axes <> []) by (pose proof (resolves_len C _ _ _ _ _ HR); destruct axes; destruct plan; cbn in *; congruence).
  pose proof (wpn_class C fuel junk w m axes Hax) as HK. pose proof (wpn_keys C fuel junk w m axes) as Hkeys. fold K in HK, Hkeys.
  split; [intros q; destruct (T1 q) as (h & r & E & S)|destruct T2 as (h & r & E & S)]; exists h, r; (split; [exact E|]; split; [|exact S]).
  - apply (proj1 (walk_all K HK Hkeys M data ops f q HM0 Ho) h r E).
  - apply (proj2 (walk_all K HK Hkeys M data ops f (fun _ => true) HM0 Ho) h r E).
Qed.
(** The levels, too. *)
Theorem packetn_get_level : exists M, (forall l, maxl = Some l -> M = l) /\ h0 = [root_node K (Some data) (Some M)] /\
  forall f L, 0 <= L <= M -> (Z.to_nat L < f)%nat ->
  exists h r ws, get_level K f 0 L false true (run K h0 ops) = (h, Ok r) /\ paths h r = map Some ws /\ lexicographic (List.length axes * Z.to_nat L) ws /\ Z.of_nat (List.length ws) = 2 ^ (zlen axes * L).
Proof.
  destruct packetn_total as (M & EM & HM0 & E0 & T & _). exists M. split; auto. split; auto. intros f L HL Hf.
  destruct (T f L HL Hf) as (h & r & E).
  assert (G : get_level K f 0 L false true (run K h0 ops) = (h, Ok r)) by (unfold get_level, bindM; rewrite E; reflexivity).
  destruct (packetn_levels C fuel junk data w m maxl axes0 axes plan B h0 ops Hpr Hw H64 Hc Hne HR Hg HM Ho) as (M' & EM' & E0' & P).
  assert (M' = M). { rewrite E0 in E0'. unfold root_node in E0'. injection E0'. auto. } subst M'.
  destruct (proj1 (P f L HL) h r G) as (ws & W). exists h, r, ws. tauto.
Qed.
End P.
End T.
