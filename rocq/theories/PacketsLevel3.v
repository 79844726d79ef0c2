(** get_level of WaveletPacket2D and WaveletPacketND. *)
From Coq Require Import Ascii String Sorted Permutation.
From Verif Require Import Base BaseLemmas CConv Spec Lengths Dwt DwtProofs Multilevel MultilevelProofs Swt Nd NdSpec Axis AxisProofs Multidim MultidimProofs MultidimFacts MultilevelNd MultilevelNdProofs MultilevelNdFacts SwtNd SwtNdArgs.
From Verif Require Import Packets PacketsInv PacketsPath PacketsPath2 PacketsRead PacketsSpec PacketsLevel PacketsClasses PacketsFacts PacketsFacts2 PacketsLevel2.

Section F5.
Variable C : CRing.
Variable fuel : nat.
Variable junk : Z -> C.

Lemma reading_analysing {D} (ops : list (op D)) : forallb reading ops = true -> forallb analysing ops = true.
Proof. intros Ho. rewrite forallb_forall in Ho |- *. intros o Hin. specialize (Ho o Hin). destruct o; cbn in *; auto. Qed.
Lemma lex4_nodup k l : lexicographic4 k l -> NoDup l.
Proof.
  intros (H & _). induction H as [|s l H IH F]; constructor; auto. intros Hin. rewrite Forall_forall in F.
  destruct (F s Hin) as (u & c & d & v & w & E1 & E2 & E3). rewrite E1 in E2. clear - E2 E3. induction u as [|e u IH]; cbn in E2; injection E2 as E2; subst; [lia|auto].
Qed.

Theorem packet2_levels (data : nd C) w m maxl axes1 axes2 s1 s2 B h0 ops :
  let K := wp2 fuel junk w m [axes1; axes2] in
  pr_wavelet w -> nd_wf data -> zlen (nshape data) <= 64 -> packet2 fuel junk (Some data) w maxl [axes1; axes2] = Ok h0 ->
  resolves C (zlen (nshape data)) (One w) (One m) [axes1; axes2] [s1; s2] -> plan_good C fuel B (nshape data) [s1; s2] ->
  (forall l, maxl = Some l -> 0 <= l /\ forall s, In s [s1; s2] -> levels_ok m (dec_len w) (Z.to_nat l) (nthz (st_ax C s) (nshape data))) ->
  forallb reading ops = true ->
  exists M, (forall l, maxl = Some l -> M = l) /\ h0 = [root_node K (Some data) (Some M)] /\
  forall f L, 0 <= L <= M -> (Z.to_nat L < f)%nat ->
  exists h r ws, get_level K f 0 L false true (run K h0 ops) = (h, Ok r) /\
    paths h r = map Some ws /\ lexicographic4 (Z.to_nat L) ws /\ Z.of_nat (List.length ws) = 4 ^ L /\
    (1 <= L -> exists q g, get_level_2d_freq K f 0 L true (run K h0 ops) = (h, Ok q) /\
       (forall c, In c (concat q) <-> In c r) /\
       map (paths h) q = map (fun a => map (fun b => Some (path_of a b)) g) g /\
       NoDup g /\ (forall s, In s g <-> String.length s = Z.to_nat L /\ over "l" "h" s) /\
       chain one_letter g /\ hd_error g = Some (rep2 "l" (Z.to_nat L))).
Proof.
  intros K Hpr Hw H64 Hc HR Hg HM Ho. pose proof (pr_wf w Hpr) as Hwf. pose proof Hwf as (_ & _ & _ & _ & HF2).
  assert (Hws : forall s, In s [s1; s2] -> st_w C s = w /\ st_m C s = m).
  { destruct HR as (_ & R2 & R3). cbn [objs_per_axis] in R2, R3. injection R2 as R2 R2'. injection R3 as R3 R3'. intros s [<-|[<-|[]]]; auto. }
  assert (Ha : forall s, In s [s1; s2] -> (st_ax C s < List.length (nshape data))%nat).
  { intros s Hs. destruct Hg as (_ & _ & _ & _ & _ & G). apply (G s Hs). }
  unfold packet2 in Hc. destruct (negb (Nat.eqb (distinct [axes1; axes2]) 2)); [discriminate|].
  destruct (Z.ltb_spec (zlen (nshape data)) 2) as [|H2]; [discriminate|].
  assert (E0 : exists M, h0 = [root_node K (Some data) (Some M)] /\ (forall l, maxl = Some l -> M = l) /\
    0 <= M /\ forall s, In s [s1; s2] -> levels_ok m (dec_len w) (Z.to_nat M) (nthz (st_ax C s) (nshape data))).
  { pose proof (max_level_axes C junk w m maxl [axes1; axes2] [s1; s2] (nshape data)) as ML.
    destruct (mapM (py_index (nshape data)) [axes1; axes2]) as [sizes| | |e]; cbn [bind] in Hc; try discriminate. cbn [bind] in ML.
    destruct (match maxl with Some l => Ok l | None => _ end) as [M| | |e] eqn:EM; cbn [bind] in Hc; try discriminate.
    injection Hc as <-. exists M. split; [unfold root_node; subst K; unfold wp1, wp2, wpn; cbn [shp]; reflexivity|]. split; [intros l ->; congruence|]. apply ML; auto. apply HR. }
  destruct E0 as (M & -> & EM & HM0 & Hlv). exists M. split; auto. split; auto. clear HM Hc.
  set (good := fun l d => zlen (nshape d) = zlen (nshape data) /\ deep C fuel [s1; s2] B M l d).
  assert (EB : zlen B = zlen (nshape data)) by (destruct Hg as (_ & G & _); unfold zlen; lia).
  assert (Hg0 : good 0 data).
  { split; auto. split; auto. split; [lia|]. rewrite Z.sub_0_r. apply (levels_good_intro C fuel); auto.
    intros s Hs. destruct (Hws s Hs) as (-> & ->). auto. }
  pose proof (wp2_pr C fuel junk w m axes1 axes2 s1 s2 B M _ Hpr EB HR) as HP. fold K good in HP.
  pose proof (wp2_class C fuel junk w m [axes1; axes2]) as HK. pose proof (wp2_keys C fuel junk w m [axes1; axes2]) as Hkeys. fold K in HK, Hkeys.
  assert (Htot : fwd_total K M good).
  { intros l d Hl (HN & Hd). eexists. exact (wp2_fwd C fuel junk w m axes1 axes2 s1 s2 B M l _ d H2 EB HR (proj2 Hl) HN Hd). }
  intros f L HL Hf.
  destruct (level_total K HK Hkeys M good HP Htot data ops L f HM0 Hg0 (reading_analysing ops Ho) HL Hf) as (h & r & E).
  pose proof (level_paths K HK Hkeys data M ops f L h r HM0 (proj1 HL) Ho E) as Hp.
  pose proof (words4_lex K eq_refl (Z.to_nat L)) as Hlex.
  exists h, r, (words K (Z.to_nat L)). split; [unfold get_level, bindM; rewrite E; reflexivity|]. split; auto. split; auto.
  split; [rewrite (words4_count K eq_refl), Z2Nat.id by lia; reflexivity|]. intros HL1.
  destruct (level_2d_freq K f 0 L _ h r _ HL1 E Hp (lex4_nodup _ _ Hlex) (proj2 Hlex)) as (q & Q1 & Q2 & Q3).
  destruct (graycode2 "l" "h" ltac:(discriminate) L HL1) as (G1 & G2 & G3 & G4).
  exists q, (get_graycode_order L "l" "h"). auto 10.
Qed.

Theorem packetn_levels (data : nd C) w m maxl axes0 axes plan B h0 ops :
  let K := wpn fuel junk w m axes in
  pr_wavelet w -> nd_wf data -> zlen (nshape data) <= 64 -> packetn fuel junk (Some data) w maxl axes0 = Ok (axes, h0) -> plan <> [] ->
  resolves C (zlen (nshape data)) (One w) (One m) axes plan -> plan_good C fuel B (nshape data) plan ->
  (forall l, maxl = Some l -> 0 <= l /\ forall s, In s plan -> levels_ok m (dec_len w) (Z.to_nat l) (nthz (st_ax C s) (nshape data))) ->
  forallb reading ops = true ->
  exists M, (forall l, maxl = Some l -> M = l) /\ h0 = [root_node K (Some data) (Some M)] /\
  forall f L, 0 <= L <= M ->
  (forall h r, get_level K f 0 L false true (run K h0 ops) = (h, Ok r) ->
    exists ws, paths h r = map Some ws /\ lexicographic (List.length axes * Z.to_nat L) ws /\ Z.of_nat (List.length ws) = 2 ^ (zlen axes * L)) /\
  ((Z.to_nat L < f)%nat ->
   (forall s j, In s plan -> (j < Z.to_nat M)%nat -> approx_len m (dec_len w) j (nthz (st_ax C s) (nshape data)) mod 2 = 0) ->
   exists h r, get_level K f 0 L false true (run K h0 ops) = (h, Ok r)).
Proof.
  intros K Hpr Hw H64 Hc Hne HR Hg HM Ho.
  assert (Hax : axes <> []) by (pose proof (resolves_len C _ _ _ _ _ HR); destruct axes; destruct plan; cbn in *; congruence).
  pose proof (wpn_class C fuel junk w m axes Hax) as HK. pose proof (wpn_keys C fuel junk w m axes) as Hkeys. fold K in HK, Hkeys.
  pose proof (pr_wf w Hpr) as Hwf. pose proof Hwf as (_ & _ & _ & _ & HF2).
  assert (Hws : forall s, In s plan -> st_w C s = w /\ st_m C s = m).
  { destruct HR as (_ & R2 & R3). cbn [objs_per_axis] in R2, R3. injection R2 as R2. injection R3 as R3. intros s Hs. split.
    - apply (in_map (st_w C)) in Hs. rewrite <- R2 in Hs. apply repeat_spec in Hs. auto.
    - apply (in_map (st_m C)) in Hs. rewrite <- R3 in Hs. apply repeat_spec in Hs. auto. }
  assert (Ha : forall s, In s plan -> (st_ax C s < List.length (nshape data))%nat).
  { intros s Hs. destruct Hg as (_ & _ & _ & _ & _ & G). apply (G s Hs). }
  unfold packetn in Hc. destruct (match axes0 with Some l => Ok l | None => _ end) as [ax| | |e]; cbn [bind] in Hc; try discriminate.
  destruct (negb (Nat.eqb (distinct ax) (List.length ax))); [discriminate|].
  destruct (Z.eqb_spec (zlen (nshape data)) 0) as [|H2]; [discriminate|]. destruct (zlen (nshape data) <? zlen ax); [discriminate|].
  assert (E0 : exists M, ax = axes /\ h0 = [root_node K (Some data) (Some M)] /\ (forall l, maxl = Some l -> M = l) /\
    0 <= M /\ forall s, In s plan -> levels_ok m (dec_len w) (Z.to_nat M) (nthz (st_ax C s) (nshape data))).
  { assert (Ex : ax = axes).
    { destruct (mapM (py_index (nshape data)) ax) as [sizes| | |e]; cbn [bind] in Hc; try discriminate.
      destruct (match maxl with Some l => Ok l | None => _ end) as [M| | |e]; cbn [bind] in Hc; try discriminate. injection Hc as E _. exact E. }
    subst ax. pose proof (max_level_axes C junk w m maxl axes plan (nshape data)) as ML.
    destruct (mapM (py_index (nshape data)) axes) as [sizes| | |e]; cbn [bind] in Hc; try discriminate. cbn [bind] in ML.
    destruct (match maxl with Some l => Ok l | None => _ end) as [M| | |e] eqn:EM; cbn [bind] in Hc; try discriminate.
    injection Hc as <-. exists M. split; [unfold root_node; subst K; unfold wp1, wp2, wpn; cbn [shp]; reflexivity|]. split; [reflexivity|]. split; [intros l ->; congruence|]. apply ML; auto. apply HR. }
  destruct E0 as (M & -> & -> & EM & HM0 & Hlv). exists M. split; auto. split; auto. clear HM Hc.
  intros f L HL. split.
  - intros h r E. assert (E' : level_nodes K f 0 L true (run K [root_node K (Some data) (Some M)] ops) = (h, Ok r)).
    { unfold get_level, bindM in E. destruct (level_nodes _ _ _ _ _ _) as [h1 [r1| | |e]]; try discriminate. exact E. }
    exists (ad_keys (List.length axes * Z.to_nat L)). rewrite <- (words_adn K (List.length axes) eq_refl).
    split; [apply (level_paths K HK Hkeys data M ops f L h r HM0 (proj1 HL) Ho E')|]. rewrite (words_adn K (List.length axes) eq_refl).
    split; [apply ad_keys_lex|]. rewrite ad_keys_count, Nat2Z.inj_pow, Nat2Z.inj_mul, Z2Nat.id by lia. reflexivity.
  - intros Hf Hev.
    set (good := fun l d => zlen (nshape d) = zlen (nshape data) /\ deep C fuel plan B M l d /\
         forall j s, (j < Z.to_nat (M - l))%nat -> In s plan -> nthz (st_ax C s) (lev_shape C plan j (nshape d)) mod 2 = 0).
    assert (EB : zlen B = zlen (nshape data)) by (destruct Hg as (_ & G & _); unfold zlen; lia).
    assert (Hg0 : good 0 data).
    { split; auto. split.
      - split; auto. split; [unfold zlen in *; lia|]. rewrite Z.sub_0_r. apply (levels_good_intro C fuel); auto.
        intros s Hs. destruct (Hws s Hs) as (-> & ->). auto.
      - intros j s Hj Hs. rewrite Z.sub_0_r in Hj. rewrite (nthz_lev_shape C) by (auto; apply Hg).
        destruct (Hws s Hs) as (-> & ->). apply Hev; auto. }
    pose proof (wpn_pr C fuel junk w m axes plan B M _ Hpr Hne EB HR) as HP. fold K good in HP.
    assert (Htot : fwd_total K M good).
    { intros l d Hl (HN & Hd & _). eexists. exact (wpn_fwd C fuel junk w m axes plan B M l _ d Hne EB HR (proj2 Hl) HN Hd). }
    destruct (level_total K HK Hkeys M good HP Htot data ops L f HM0 Hg0 (reading_analysing ops Ho) HL Hf) as (h & r & E).
    exists h, r. unfold get_level, bindM. rewrite E. reflexivity.
Qed.
End F5.
