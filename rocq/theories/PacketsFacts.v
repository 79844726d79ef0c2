(** What the packet model satisfies: summary lemmas. *)
From Coq Require Import Permutation String Ascii Sorted.
From Verif Require Import Base BaseLemmas CConv Spec ExtLemmas Lengths LengthsProofs Dwt DwtProofs PR Linear Multilevel MultilevelProofs Swt SwtProofs Nd NdSpec NdLinear Axis AxisProofs AxisProofs2 Multidim MultidimProofs MultidimFacts MultilevelNd MultilevelNdProofs MultilevelNdFacts SwtNd SwtNdArgs.
From Verif Require Import Packets PacketsInv PacketsPath PacketsPath2 PacketsRead PacketsSpec PacketsLevel PacketsClasses.
Open Scope list_scope. Open Scope Z_scope.

(** ** Getting nodes succeeds, and their data *)
Section Total.
Context {D : Type}.
Variable K : wpclass D.
Hypothesis HK : class_ok K.
Hypothesis Hkeys : forall d cs, fwd K d = Ok cs -> fwd_keys K cs.
Variable M : Z.
Variable good : Z -> D -> Prop.
Hypothesis Hpr : pr_class K M good.
Definition fwd_total : Prop := forall l d, 0 <= l < M -> good l d -> exists cs, fwd K d = Ok cs.
Hypothesis Htot : fwd_total.

Lemma part_ok_in part : In part (parts K) -> part_ok K part = true.
Proof. intros H. unfold part_ok. apply existsb_exists. exists part. split; auto. apply String.eqb_refl. Qed.

Lemma coh_get_subnode h n x part : coh K M good h -> nth_error h n = Some x -> In part (parts K) -> nlevel x < M ->
  exists h' c y, get_subnode K n part true h = (h', Ok (Some c)) /\ nth_error h' c = Some y /\ nlevel y = nlevel x + 1.
Proof.
  intros Hc Hx Hp Hl. pose proof (coh_sub K HK Hkeys M good Hpr n part true h Hc) as (Hc' & _).
  assert (E : exists h' c, get_subnode K n part true h = (h', Ok (Some c)) /\ exists x', nth_error h' n = Some x' /\ dget (nkids x') part = Some c /\ nlevel x' = nlevel x).
  { unfold get_subnode. rewrite (part_ok_in part Hp). cbn [negb]. unfold bindM, get. rewrite Hx.
    destruct (dget (nkids x) part) as [c|] eqn:Ek; [exists h, c; split; [reflexivity|]; eauto|].
    destruct (proj2 Hc n x Hx) as (d & Hd & _ & Hg & _). rewrite Hd.
    destruct (proj1 (proj1 Hc) n x Hx) as (_ & L0 & _).
    destruct (Htot (nlevel x) d (conj L0 Hl) Hg) as (cs & Ef).
    destruct (decompose_made K Hkeys M n x d h (proj2 (proj1 Hc)) Hx Hd) as [(E1 & E2)|(_ & cs' & h' & Ef' & E & (A1 & (ks & A2 & A3 & A4) & A5 & A6))].
    - exfalso. apply E2. unfold decompose, bindM. rewrite (maxlevel_lev K M n h (proj2 (proj1 Hc))), Hx. unfold get. rewrite Hx.
      destruct (Z.ltb_spec (nlevel x) M); [|lia]. unfold decompose_, bindM, get. rewrite Hx, Hd. unfold lift. rewrite Ef.
      destruct (Hkeys d cs Ef) as (Hnd & Hi).
      destruct (iter_create K M n cs Hnd (fun p Hp => proj1 (Hi p) Hp) h x (proj2 (proj1 Hc)) Hx H) as (h' & Ei & _). rewrite Ei. reflexivity.
    - rewrite E, A2. cbn [nkids ret]. destruct (Hkeys d cs' Ef') as (_ & Hi). apply Hi in Hp. apply in_map_iff in Hp.
      destruct Hp as ((q & v) & Eq & Hin). cbn in Eq. subst q. destruct (A4 part v Hin) as (c & _ & Ec & _).
      exists h', c. rewrite Ec. split; [reflexivity|]. eexists. split; [exact A2|]. cbn. auto. }
  destruct E as (h' & c & E & x' & Hx' & Ek & El). rewrite E in Hc'. cbn [fst] in Hc'.
  destruct (proj1 (proj1 Hc') n x' Hx') as (_ & _ & _ & A4 & _). destruct (A4 part c Ek) as (_ & _ & y & Hy & _ & _ & Ey).
  exists h', c, y. split; auto. split; auto. lia.
Qed.

Lemma coh_getitem k : forall h n x path f, coh K M good h -> nth_error h n = Some x -> In path (words K k) ->
  nlevel x + Z.of_nat k <= M -> (k < f)%nat -> exists h' c, getitem_ K f n path h = (h', Ok c).
Proof.
  induction k as [|k IH]; intros h n x path [|f] Hc Hx Hin Hl Hf; try lia; cbn [getitem_].
  - cbn [words In] in Hin. destruct Hin as [<-|[]]. unfold bindM. rewrite (maxlevel_lev K M n h (proj2 (proj1 Hc))), Hx.
    destruct (proj1 (proj1 Hc) n x Hx) as (_ & A2 & _). unfold too_long. cbn [String.length].
    rewrite (proj2 (Z.ltb_ge _ _)) by nia. unfold ret. eauto.
  - cbn [words] in Hin. apply in_flat_map in Hin. destruct Hin as (p & Hp & Hin). apply in_map_iff in Hin. destruct Hin as (s & <- & Hs).
    destruct HK as (K1 & K2 & K3). pose proof (K3 p Hp) as Lp.
    assert (Lw : forall j t, In t (words K j) -> String.length t = (j * plen K)%nat).
    { clear - K3. induction j as [|j IHj]; intros t Ht; cbn [words] in Ht.
      - destruct Ht as [<-|[]]. reflexivity.
      - apply in_flat_map in Ht. destruct Ht as (q & Hq & Ht). apply in_map_iff in Ht. destruct Ht as (u & <- & Hu).
        rewrite append_length, (K3 q Hq), (IHj u Hu). lia. }
    unfold bindM at 1. rewrite (maxlevel_lev K M n h (proj2 (proj1 Hc))), Hx.
    destruct (proj1 (proj1 Hc) n x Hx) as (_ & A2 & _).
    unfold too_long. rewrite append_length, Lp, (Lw k s Hs). rewrite (proj2 (Z.ltb_ge _ _)) by nia.
    destruct (append p s) as [|c0 t0] eqn:Ea; [destruct p; [cbn in Lp; lia|discriminate]|]. rewrite <- Ea.
    destruct (coh_get_subnode h n x p Hc Hx Hp ltac:(lia)) as (h' & c & y & E & Hy & Ly).
    unfold bindM. replace (take (plen K) (append p s)) with p by (rewrite <- Lp, take_app; auto).
    replace (drop (plen K) (append p s)) with s by (rewrite <- Lp, drop_app; auto).
    rewrite E. apply (IH h' c y s f); auto; try lia.
    pose proof (coh_sub K HK Hkeys M good Hpr n p true h Hc) as (Hc' & _). rewrite E in Hc'. exact Hc'.
Qed.

(** Walking to a level succeeds. *)
Lemma coh_walk L : L <= M -> forall f h n x acc, coh K M good h -> nth_error h n = Some x -> nlevel x <= L -> (Z.to_nat (L - nlevel x) < f)%nat ->
  exists h' r, walk K f (level_collect L) true n acc h = (h', Ok r) /\ coh K M good h' /\ same_data h h'.
Proof.
  intros HL. induction f as [|f IH]; intros h n x acc Hc Hx Hlx Hf; [lia|]. cbn [walk].
  unfold bindM at 1, level_collect at 1. unfold bindM at 1, get at 1. rewrite Hx.
  destruct (Z.eqb_spec (nlevel x) L) as [El|El]; unfold ret at 1; cbn [snd fst negb].
  - exists h, (acc ++ [n]). split; [reflexivity|]. split; [exact Hc|apply sd_refl].
  - unfold bindM at 1, get at 1. rewrite Hx. unfold bindM at 1. rewrite (maxlevel_lev K M n h (proj2 (proj1 Hc))), Hx.
    destruct (Z.ltb_spec (nlevel x) M) as [Hl|]; [cbn [negb]|lia].
    assert (Hparts : forall l, (forall p, In p l -> In p (parts K)) -> forall h x acc, coh K M good h -> nth_error h n = Some x -> nlevel x < L -> (Z.to_nat (L - nlevel x) <= f)%nat ->
      exists h' r, walk_parts K (walk K f (level_collect L) true) true n l acc h = (h', Ok r) /\ coh K M good h' /\ same_data h h').
    { clear h x acc Hc Hx Hlx Hf El Hl. induction l as [|p l IHl]; intros Hl h x acc Hc Hx Hlx Hf; cbn [walk_parts].
      - exists h, acc. split; [reflexivity|]. split; [exact Hc|apply sd_refl].
      - unfold bindM at 1. pose proof (coh_sub K HK Hkeys M good Hpr n p true h Hc) as (Hc1 & Hs1).
        destruct (coh_get_subnode h n x p Hc Hx (Hl p (or_introl eq_refl)) ltac:(lia)) as (h1 & c & y & E & Hy & Ey). rewrite E in *. cbn [fst] in *.
        unfold bindM at 1. destruct (IH h1 c y acc Hc1 Hy ltac:(lia) ltac:(lia)) as (h2 & r & E2 & Hc2 & Hs2). rewrite E2.
        assert (Hx2 : exists x2, nth_error h2 n = Some x2 /\ nlevel x2 = nlevel x).
        { assert (G1 : grow h h1) by (pose proof (ok_get_subnode K HK n p true h (proj1 (proj1 Hc))) as (_ & G); rewrite E in G; exact G).
          destruct (ok_walk K HK (level_collect L) true (fun n acc h => ok_level_collect K L n acc h) f c acc h1 (proj1 (proj1 Hc1))) as (_ & G2).
          rewrite E2 in G2. cbn [fst] in G2. destruct (proj2 G1 n x Hx) as (x1 & Hx1 & E1 & E1'). destruct (proj2 G2 n x1 Hx1) as (x2 & Hx2' & E3 & E3'). exists x2. split; auto. lia. }
        destruct Hx2 as (x2 & Hx2 & Ex2).
        destruct (IHl (fun q Hq => Hl q (or_intror Hq)) h2 x2 r Hc2 Hx2 ltac:(lia) ltac:(lia)) as (h3 & r3 & E3 & Hc3 & Hs3).
        exists h3, r3. split; [exact E3|]. split; [exact Hc3|]. eapply sd_trans; [exact Hs1|]. eapply sd_trans; eauto. }
    apply (Hparts (parts K) (fun p Hp => Hp) h x acc Hc Hx); lia.
Qed.
Theorem level_total d ops L f : 0 <= M -> good 0 d -> forallb analysing ops = true -> 0 <= L <= M -> (Z.to_nat L < f)%nat ->
  exists h r, level_nodes K f 0 L true (run K [root_node K (Some d) (Some M)] ops) = (h, Ok r).
Proof.
  intros Hm Hg Ho HL Hf. destruct (run_analysing K HK Hkeys M good Hpr ops Ho _ (root_coh K M good d Hm Hg)) as (Hc & _).
  destruct (run_ok K HK ops _ (root_ok K (Some d) (Some M))) as (_ & G). destruct (proj2 G 0%nat _ eq_refl) as (x & Hx & E1 & E2). cbn in E2.
  unfold level_nodes, bindM. rewrite (maxlevel_lev K M 0 _ (proj2 (proj1 Hc))), Hx. destruct (Z.ltb_spec M L); [lia|].
  destruct (coh_walk L (proj2 HL) f _ 0%nat x [] Hc Hx) as (h & r & E & _); [lia|rewrite E2, Z.sub_0_r; auto|]. eauto.
Qed.

(** The data under a path is the iterated analysis. *)
Variable band_of : string -> D -> D.
Definition fwd_bands : Prop := forall l d cs p v, 0 <= l < M -> good l d -> fwd K d = Ok cs -> In (p, v) cs -> v = band_of p d.
Hypothesis Hband : fwd_bands.
Lemma coh_data h n s c : coh K M good h -> at_path h n s c -> forall x d, nth_error h n = Some x -> ndat x = Some d ->
  exists ps y, s = List.fold_right append EmptyString ps /\ (forall p, In p ps -> In p (parts K)) /\ nth_error h c = Some y /\
    ndat y = Some (List.fold_left (fun d p => band_of p d) ps d).
Proof.
  intros Hc. induction 1 as [n x0 H0|n x0 part k s e H0 Hk Hat IH]; intros x d Hx Hd.
  - exists [], x. split; [reflexivity|]. split; [intros p []|]. auto.
  - assert (x0 = x) by congruence. subst x0. destruct (proj2 Hc n x Hx) as (d0 & Hd0 & _ & Hg & [He|(Hl & cs & Ef & Hcs)]); [rewrite He in Hk; discriminate|].
    assert (d0 = d) by congruence. subst d0.
    destruct (proj1 (proj1 Hc) n x Hx) as (_ & L0 & _ & A4 & _). destruct (A4 part k Hk) as (Hp & _). pose proof Hp as Hp'.
    destruct (Hkeys d cs Ef) as (Hnd & Hi). apply Hi in Hp. apply in_map_iff in Hp. destruct Hp as ((q & v) & Eq & Hin). cbn in Eq. subst q.
    destruct (Hcs part v Hin) as (c' & y & F1 & F2 & F3). assert (c' = k) by congruence. subst c'.
    destruct (IH y v F2 F3) as (ps & z & -> & G0 & G1 & G2). exists (part :: ps), z. split; [reflexivity|]. split; [intros p [<-|Hq]; auto|]. split; auto.
    rewrite G2. cbn [List.fold_left]. rewrite (Hband (nlevel x) d cs part v (conj L0 Hl) Hg Ef Hin). reflexivity.
Qed.

(** Summary for a packet and any history of decompositions and reconstructions. *)
Theorem packet_nodes d ops k path : 0 <= M -> good 0 d -> forallb analysing ops = true -> In path (words K k) -> Z.of_nat k <= M ->
  exists h' c y ps, getitem K 0 path (run K [root_node K (Some d) (Some M)] ops) = (h', Ok c) /\ nth_error h' c = Some y /\
    npath y = path /\ nlevel y = Z.of_nat k /\ path = List.fold_right append EmptyString ps /\ (forall p, In p ps -> In p (parts K)) /\
    ndat y = Some (List.fold_left (fun d p => band_of p d) ps d).
Proof.
  intros Hm Hg Ho Hin Hk. set (h := run K _ ops).
  destruct (run_analysing K HK Hkeys M good Hpr ops Ho _ (root_coh K M good d Hm Hg)) as (Hc & Hs). fold h in Hc, Hs.
  destruct (run_ok K HK ops _ (root_ok K (Some d) (Some M))) as (_ & _ & G). destruct (G 0%nat _ eq_refl) as (x & Hx & E1 & E2). fold h in Hx.
  destruct (Hs 0%nat _ eq_refl) as (x2 & Hx2 & Ed). assert (x2 = x) by congruence. subst x2. cbn in E1, E2, Ed.
  assert (Lw : forall j t, In t (words K j) -> String.length t = (j * plen K)%nat).
  { destruct HK as (K1 & K2 & K3). clear - K3. induction j as [|j IHj]; intros t Ht; cbn [words] in Ht.
    - destruct Ht as [<-|[]]. reflexivity.
    - apply in_flat_map in Ht. destruct Ht as (q & Hq & Ht). apply in_map_iff in Ht. destruct Ht as (u & <- & Hu).
      rewrite append_length, (K3 q Hq), (IHj u Hu). lia. }
  pose proof (Lw k path Hin) as Lp.
  destruct HK as (K1 & K2 & K3).
  destruct (coh_getitem k h 0 x path (S (String.length path)) Hc Hx Hin) as (h' & c & E); [lia|nia|].
  fold (getitem K 0 path) in E. pose proof (getitem_at K HK 0 path h h' c (proj1 (proj1 Hc)) E) as Hat.
  pose proof (pv_getitem_ K (coh K M good) same_data sd_refl sd_trans (coh_max K M good) (coh_sub K HK Hkeys M good Hpr) (S (String.length path)) 0%nat path h Hc) as (Hc' & Hs').
  fold (getitem K 0 path) in Hc', Hs'. rewrite E in Hc', Hs'. cbn [fst] in Hc', Hs'.
  destruct (Hs' 0%nat x Hx) as (x' & Hx' & Ed').
  pose proof (ok_getitem_ K HK (S (String.length path)) 0%nat path h (proj1 (proj1 Hc))) as (T1 & _ & G1).
  fold (getitem K 0 path) in T1, G1. rewrite E in T1, G1. cbn [fst] in T1, G1. destruct (G1 0%nat x Hx) as (x'' & Hx'' & F1 & F2).
  assert (x'' = x') by congruence. subst x''.
  destruct (coh_data h' 0 path c Hc' Hat x' d Hx' ltac:(congruence)) as (ps & y & P1 & P2 & P3 & P4).
  destruct (at_path_node K HK h' 0 path c T1 Hat x' Hx') as (y' & Hy' & Q1 & Q2 & Q3). assert (y' = y) by congruence. subst y'.
  exists h', c, y, ps. split; auto. split; auto. split; [rewrite Q1, F1, E1; reflexivity|]. split; [|auto].
  rewrite Lp in Q2. assert (nlevel x' = 0) by congruence. nia.
Qed.
End Total.

(** ** Reading keeps trees in which every node has data *)
Section DataRuns.
Context {D : Type}.
Variable K : wpclass D.
Hypothesis HK : class_ok K.
Hypothesis Hkeys : forall d cs, fwd K d = Ok cs -> fwd_keys K cs.
Lemma data_op M o h : reading o = true -> pv (dataG K M) mono h (do_op K o).
Proof.
  pose proof (fun n h => data_max K M n h) as Hmax. pose proof (fun n part dec h => data_sub K HK Hkeys M n part dec h) as Hsub.
  destruct o; cbn [reading do_op]; try discriminate; intros Hr; try apply (pv_seq (dataG K M) mono mono_refl mono_trans).
  - apply pv_getitem_; auto using mono_refl. exact mono_trans.
  - apply Hsub.
  - destruct update; [discriminate|]. apply pv_pure; auto using mono_refl. apply reconstruct_pure.
  - destruct update; [discriminate|]. apply pv_pure; auto using mono_refl. apply root_pure.
  - apply Hmax.
  - apply pv_level; auto using mono_refl. exact mono_trans.
  - apply pv_walk; auto using mono_refl; [exact mono_trans|]. intros. apply pv_leaf; auto using mono_refl. exact mono_trans.
Qed.
Theorem run_data M ops : forallb reading ops = true -> forall h, dataG K M h -> dataG K M (run K h ops).
Proof.
  unfold run. induction ops as [|o ops IH]; cbn [forallb fold_left]; intros Hr h Hh; auto.
  apply andb_true_iff in Hr. destruct Hr as (Ho & Hr). apply (IH Hr). apply (data_op M o h Ho Hh).
Qed.
Lemma root_data d M : 0 <= M -> dataG K M [root_node K (Some d) (Some M)].
Proof.
  intros Hm. split; [split; [apply root_inv2; auto|]|].
  - intros [|[|k]] x Hx; cbn in Hx; try discriminate. injection Hx as <-. left. reflexivity.
  - intros [|[|k]] x Hx; cbn in Hx; try discriminate. injection Hx as <-. discriminate.
Qed.
Lemma root_grow d M ops : exists x, nth_error (run K [root_node K d M] ops) 0 = Some x /\ npath x = EmptyString /\ nlevel x = 0.
Proof.
  destruct (run_ok K HK ops _ (root_ok K d M)) as (_ & _ & G). destruct (G 0%nat _ eq_refl) as (x & Hx & E1 & E2). exists x. auto.
Qed.
End DataRuns.

(** ** get_level of WaveletPacket *)
Section Orders.
Variable C : CRing.
Variable fuel : nat.
Variable junk : Z -> C.
Lemma ad_keys_count n : List.length (ad_keys n) = (2 ^ n)%nat.
Proof. induction n as [|n IH]; cbn [ad_keys]; auto. rewrite app_length, !map_length, IH. cbn. lia. Qed.
Theorem level_natural w m axis d M ops f L h r : let K := wp1 fuel junk w m axis in
  0 <= M -> 0 <= L -> forallb reading ops = true ->
  get_level K f 0 L false true (run K [root_node K (Some d) (Some M)] ops) = (h, Ok r) ->
  exists ws, paths h r = map Some ws /\ lexicographic (Z.to_nat L) ws /\ Z.of_nat (List.length ws) = 2 ^ L.
Proof.
  intros K HM HL Hr E. set (h0 := run K _ ops) in E.
  assert (Hd : dataG K M h0) by (apply run_data; [apply wp1_class|apply wp1_keys|auto|apply root_data; auto]).
  destruct (root_grow K (wp1_class C fuel junk w m axis) (Some d) (Some M) ops) as (x & Hx & Ep & El). fold h0 in Hx.
  assert (E' : level_nodes K f 0 L true h0 = (h, Ok r)).
  { unfold get_level, bindM in E. destruct (level_nodes K f 0 L true h0) as [h1 [r1| | |e]]; try discriminate. exact E. }
  destruct (level_nodes_words K (wp1_class C fuel junk w m axis) (wp1_keys C fuel junk w m axis) M L f 0 x h0 h r ltac:(lia) Hd Hx E') as (_ & Hd' & Hm & HF).
  exists (ad_keys (Z.to_nat L)). rewrite El, Z.sub_0_r in HF. rewrite (words_ad K eq_refl) in HF.
  destruct (Hm 0%nat x Hx) as (x' & Hx' & _).
  split; [|split; [apply ad_keys_lex|rewrite ad_keys_count; rewrite Nat2Z.inj_pow, Z2Nat.id by lia; reflexivity]].
  assert (Px : npath x' = EmptyString).
  { pose proof (ok_level_nodes K (wp1_class C fuel junk w m axis) f 0%nat L true h0 (proj1 (proj1 (proj1 Hd)))) as (_ & _ & G).
    rewrite E' in G. cbn [fst] in G. destruct (G 0%nat x Hx) as (x2 & Hx2 & E2 & _). congruence. }
  apply (paths_at K (wp1_class C fuel junk w m axis) h 0 x'); auto. apply (proj1 (proj1 (proj1 Hd'))).
Qed.
Theorem level_freq w m axis d M ops f L h q : let K := wp1 fuel junk w m axis in
  0 <= M -> 1 <= L -> forallb reading ops = true ->
  get_level K f 0 L true true (run K [root_node K (Some d) (Some M)] ops) = (h, Ok q) ->
  exists r ws g, get_level K f 0 L false true (run K [root_node K (Some d) (Some M)] ops) = (h, Ok r) /\ Permutation q r /\
    paths h r = map Some ws /\ lexicographic (Z.to_nat L) ws /\
    paths h q = map Some g /\ Permutation g ws /\ chain one_letter g /\ hd_error g = Some (rep (Z.to_nat L)).
Proof.
  intros K HM HL Hr E. set (h0 := run K _ ops) in *.
  assert (E' : exists r, level_nodes K f 0 L true h0 = (h, Ok r)).
  { unfold get_level, bindM in E. destruct (level_nodes K f 0 L true h0) as [h1 [r1| | |e]]; try discriminate. cbn [negb] in E.
    exists r1. destruct (mapMM node_path r1 h1) as [h2 [ps| | |e]] eqn:Em; try discriminate.
    assert (h2 = h1).
    { clear - Em. revert h2 ps Em. induction r1 as [|c r IH]; intros h2 ps Em; cbn [mapMM] in Em; [injection Em as <- _; auto|].
      unfold bindM at 1 in Em. unfold node_path at 1, bindM at 1, get at 1 in Em. destruct (nth_error h1 c); [|discriminate].
      cbn [ret] in Em. unfold bindM in Em. destruct (mapMM node_path r h1) as [h3 [bs| | |e]] eqn:Er; try discriminate.
      cbn [ret] in Em. injection Em as <- _. eapply IH; eauto. }
    subst h2. cbn [ret] in E. injection E as <- _. reflexivity. }
  destruct E' as (r & E').
  assert (En : get_level K f 0 L false true h0 = (h, Ok r)) by (unfold get_level, bindM; rewrite E'; reflexivity).
  destruct (level_natural w m axis d M ops f L h r HM ltac:(lia) Hr En) as (ws & Hp & Hlex & _).
  destruct (graycode_spec L HL) as (G1 & G2 & G3). set (g := get_graycode_order L "a" "d") in *.
  assert (Hnd : NoDup ws).
  { destruct Hlex as (S & _). clear - S. induction S as [|a l S IH HF]; constructor; auto. intros Hin. rewrite Forall_forall in HF.
    specialize (HF a Hin). rewrite ltb_irrefl in HF. discriminate. }
  assert (Hpw : Permutation g ws).
  { eapply Permutation_trans; [exact G1|]. apply NoDup_Permutation; [apply ad_keys_NoDup|auto|]. intros s.
    destruct Hlex as (_ & HI). rewrite HI. destruct (ad_keys_lex (Z.to_nat L)) as (_ & HI2). apply HI2. }
  destruct (get_level_freq K f 0 L h0 h r ws E' Hp Hnd Hpw) as (q' & Eq & P1 & P2). rewrite Eq in E. injection E as <-.
  exists r, ws, g. auto 10.
Qed.
End Orders.

(** Depth of the default maximal level. *)
Lemma approx_len_half m F j N : 2 <= F -> 1 <= N -> N <= approx_len m F j N * 2 ^ Z.of_nat j.
Proof.
  intros HF HN. induction j as [|j IH]; cbn [approx_len]; [lia|].
  assert (H1 : 1 <= approx_len m F j N) by (apply approx_len_pos; auto).
  assert (H2 : approx_len m F j N <= 2 * coeff_len m (approx_len m F j N) F) by (destruct m; cbn [coeff_len]; lia).
  replace (Z.of_nat (S j)) with (Z.of_nat j + 1) by lia. rewrite Z.pow_add_r by lia.
  assert (0 < 2 ^ Z.of_nat j) by (apply Z.pow_pos_nonneg; lia). nia.
Qed.
Lemma default_levels m F N : 2 <= F -> levels_ok m F (Z.to_nat (dwt_max_level_c N F)) N.
Proof.
  intros HF j Hj. destruct (Z.ltb_spec N (F - 1)) as [Hs|Hs].
  { rewrite dwt_max_level_zero in Hj by auto. cbn in Hj. lia. }
  destruct (dwt_max_level_largest N F HF Hs) as (H0 & HL). set (L := dwt_max_level_c N F) in *.
  pose proof (proj2 (HL L H0) ltac:(lia)) as HN.
  assert (H1 : 1 <= N) by lia. pose proof (approx_len_half m F j N HF H1) as Ha.
  assert (E : 2 ^ L = 2 ^ (L - 1 - Z.of_nat j) * 2 * 2 ^ Z.of_nat j).
  { rewrite <- (Z.pow_1_r 2) at 3. rewrite <- !Z.pow_add_r by lia. f_equal. lia. }
  assert (0 < 2 ^ (L - 1 - Z.of_nat j)) by (apply Z.pow_pos_nonneg; lia).
  assert (0 < 2 ^ Z.of_nat j) by (apply Z.pow_pos_nonneg; lia).
  assert (2 * 2 ^ Z.of_nat j <= approx_len m F j N * 2 ^ Z.of_nat j) by nia.
  assert (2 <= approx_len m F j N) by nia. destruct m; cbn [min_len]; lia.
Qed.
(** ** The three classes *)
Section Class1.
Variable C : CRing.
Variable fuel : nat.
Variable junk : Z -> C.

Lemma wp1_fwd w m axis (ax : nat) B M l N (d : nd C) : zlen B = N -> norm_axis N axis = Z.of_nat ax -> l < M ->
  zlen (nshape d) = N -> deep C fuel [(ax, (w, m))] B M l d ->
  fwd (wp1 fuel junk w m axis) d = Ok [("a", band C "a" [(ax, (w, m))] d); ("d", band C "d" [(ax, (w, m))] d)]%string.
Proof.
  intros HB Hax Hl HN Hd. pose proof (deep_good C fuel junk _ _ _ _ _ Hl Hd) as Hg. pose proof Hd as (Hw & Hn & _).
  pose proof (plan_good_ok _ _ _ _ _ Hg) as Hp. pose proof Hp as (Hs & Hal & _). pose proof Hs as (Ha & Hwb & Hm & Hr).
  cbn [st_ax st_w st_m fst snd] in *. cbn [wp1 fwd].
  rewrite (py_dwt_spec C fuel junk (of_nd d) w m axis ax); auto.
  - cbn [bind]. rewrite (val_of_nd C d) by auto.
    change (dax ax m (dec_lo w) d) with (band C "a" [(ax, (w, m))] d). change (dax ax m (dec_hi w) d) with (band C "d" [(ax, (w, m))] d).
    rewrite !val_of_nd; auto; apply (band_wf C fuel); auto.
  - apply of_nd_ok; auto.
  - unfold ndim. cbn [of_nd sshape]. lia.
  - unfold ndim. cbn [of_nd sshape]. rewrite HN. auto.
Qed.
Lemma wpn_fwd w m axes plan B M l N (d : nd C) : plan <> [] -> zlen B = N -> resolves C N (One w) (One m) axes plan -> l < M ->
  zlen (nshape d) = N -> deep C fuel plan B M l d ->
  fwd (wpn fuel junk w m axes) d = Ok (map (fun k => (k, band C k plan d)) (ad_keys (List.length plan))).
Proof.
  intros Hne HB HR Hl HN Hd. pose proof (deep_good C fuel junk _ _ _ _ _ Hl Hd) as Hg. pose proof Hd as (Hw & Hn & _).
  pose proof (plan_good_ok _ _ _ _ _ Hg) as Hp. cbn [wpn fwd].
  rewrite (dwtn_bands C fuel junk (of_nd d) (One w) (One m) (Some axes) plan); auto.
  - cbn [bind]. f_equal. rewrite map_map. apply map_ext. intros k. rewrite (val_of_nd C d) by auto.
    rewrite val_of_nd; auto; apply (band_wf C fuel); auto.
  - apply of_nd_ok; auto.
  - unfold ndim. cbn [of_nd sshape default_axes]. rewrite HN. auto.
Qed.
Lemma wp2_fwd w m ax1 ax2 s1 s2 B M l N (d : nd C) : 2 <= N -> zlen B = N -> resolves C N (One w) (One m) [ax1; ax2] [s1; s2] -> l < M ->
  zlen (nshape d) = N -> deep C fuel [s1; s2] B M l d ->
  fwd (wp2 fuel junk w m [ax1; ax2]) d = Ok [("a", band C "aa" [s1; s2] d); ("v", band C "ad" [s1; s2] d);
    ("h", band C "da" [s1; s2] d); ("d", band C "dd" [s1; s2] d)]%string.
Proof.
  intros H2 HB HR Hl HN Hd. pose proof (deep_good C fuel junk _ _ _ _ _ Hl Hd) as Hg. pose proof Hd as (Hw & Hn & _).
  pose proof (plan_good_ok _ _ _ _ _ Hg) as Hp. cbn [wp2 fwd].
  assert (Ed : dwtn fuel junk (of_nd d) (One w) (One m) (Some [ax1; ax2]) = Ok (map (fun k => (k, of_nd (band C k [s1; s2] d))) (ad_keys (List.length [s1; s2])))).
  { rewrite (dwtn_bands C fuel junk (of_nd d) (One w) (One m) (Some [ax1; ax2]) [s1; s2]); auto.
    - rewrite val_of_nd by auto. reflexivity.
    - apply of_nd_ok; auto.
    - discriminate.
    - unfold ndim. cbn [of_nd sshape default_axes]. rewrite HN. auto. }
  unfold dwt2. cbn [List.length Nat.eqb negb].
  pose proof (distinct_le [ax1; ax2]) as Hdl. cbn [List.length] in Hdl.
  rewrite (proj2 (Z.ltb_ge _ _)) by (unfold ndim; cbn [of_nd sshape]; lia).
  assert (Hbf : exists bf, forall k, bf k = band C k [s1; s2] d) by (exists (fun k => band C k [s1; s2] d); auto).
  destruct Hbf as (bf & Hbf).
  assert (Ed' : dwtn fuel junk (of_nd d) (One w) (One m) (Some [ax1; ax2])
    = Ok [("aa", of_nd (bf "aa")); ("ad", of_nd (bf "ad")); ("da", of_nd (bf "da")); ("dd", of_nd (bf "dd"))]%string).
  { rewrite Ed, !Hbf. reflexivity. }
  rewrite Ed'. rewrite <- !Hbf. unfold dgetE. cbn [bind dget String.eqb Ascii.eqb Bool.eqb].
  rewrite !val_of_nd by (rewrite Hbf; apply (band_wf C fuel); auto). reflexivity.
Qed.

End Class1.
