(** Walking a packet to its maximal level succeeds; summary. *)
From Coq Require Import Permutation String Ascii Sorted.
From Verif Require Import Base BaseLemmas CConv Spec ExtLemmas Lengths LengthsProofs Dwt DwtProofs PR Linear Multilevel MultilevelProofs Swt SwtProofs Nd NdSpec NdLinear Axis AxisProofs AxisProofs2 Multidim MultidimProofs MultidimFacts MultilevelNd MultilevelNdProofs MultilevelNdFacts SwtNd SwtNdArgs.
From Verif Require Import Packets PacketsInv PacketsPath PacketsPath2 PacketsRead PacketsSpec PacketsLevel PacketsClasses PacketsFacts PacketsFacts2 PacketsFacts3 PacketsLevel2 PacketsLevel3 PacketsWalk PacketsWalkSpec PacketsWalkProofs.
Open Scope list_scope. Open Scope Z_scope.

Section Any.
Context {D : Type}.
Variable K : wpclass D.
Hypothesis HK : class_ok K.
Hypothesis Hkeys : forall d cs, fwd K d = Ok cs -> fwd_keys K cs.

(** ** All nodes, in any state *)
Theorem walk_nodes M (data : option D) ops f n x : 0 <= M -> let h := run K [root_node K data (Some M)] ops in
  nth_error h n = Some x -> (Z.to_nat M < f)%nat ->
  (forall q, exists r, walk_visits K f q false n h = (h, Ok r) /\ preorder (parts K) h q n r) /\
  (exists s, walk_depth_visits K f false n h = (h, Ok s) /\ postorder (parts K) h n s /\ forall e, In e s <-> exists p, at_path h n p e).
Proof.
  intros HM h Hx Hf. split.
  - intros q. destruct (walk_any K HK M data ops f n x q HM Hx Hf) as (r & s & E1 & P1 & _). eauto.
  - destruct (walk_any K HK M data ops f n x (fun _ => true) HM Hx Hf) as (r & s & E1 & P1 & E2 & P2). exists s. split; auto. split; auto.
    pose proof (post_perm K h n s P2 (fun _ => true) r (fun _ => eq_refl) P1) as Pm. intros e. split.
    + intros He. apply (pre_sound K h (fun _ => true) n r P1). eapply Permutation_in; eauto.
    + intros (p & Hp). eapply Permutation_in; [symmetry; exact Pm|]. eapply pre_complete; eauto; [apply (run_ok K HK ops _ (root_ok K data (Some M)))|reflexivity].
Qed.

(** ** All words, when the walk decomposes *)
Theorem walk_all M (d : D) ops f q : 0 <= M -> forallb reading ops = true -> let h0 := run K [root_node K (Some d) (Some M)] ops in
  (forall h r, walk_visits K f q true 0 h0 = (h, Ok r) -> paths h r = map Some (words_pre (parts K) q EmptyString (Z.to_nat M))) /\
  (forall h r, walk_depth_visits K f true 0 h0 = (h, Ok r) -> paths h r = map Some (words_post (parts K) (Z.to_nat M))).
Proof.
  intros HM Ho h0. assert (Hg : dataG K M h0) by (apply run_data; auto; apply root_data; auto).
  destruct (root_grow K HK (Some d) (Some M) ops) as (x & Hx & Ep & El). fold h0 in Hx. split; intros h r E.
  - destruct (walk_words K HK Hkeys M q f 0 x [] h0 h r Hg Hx E) as (ns & -> & Hg' & _ & F). cbn [List.app]. rewrite Ep, El, Z.sub_0_r in F.
    assert (G : grow h0 h) by (pose proof (ok_walk K HK (visit q) true (fun n acc h => ok_visit K q n acc h) f 0%nat [] h0 (proj1 (proj1 (proj1 Hg)))) as (_ & G); unfold walk_visits in E; rewrite E in G; exact G).
    destruct (proj2 G 0%nat x Hx) as (x' & Hx' & Ep' & _). eapply paths_at; eauto; [exact (proj1 (proj1 (proj1 Hg')))|congruence].
  - destruct (walk_depth_words K HK Hkeys M f 0 x [] h0 h r Hg Hx E) as (ns & -> & Hg' & _ & F). cbn [List.app]. rewrite El, Z.sub_0_r in F.
    assert (G : grow h0 h) by (pose proof (ok_walk_depth K HK (fun n acc => ret (acc ++ [n])) true (fun n acc h => ok_pure K h (ret (acc ++ [n])) eq_refl) f 0%nat [] h0 (proj1 (proj1 (proj1 Hg)))) as (_ & G); unfold walk_depth_visits in E; rewrite E in G; exact G).
    destruct (proj2 G 0%nat x Hx) as (x' & Hx' & Ep' & _). eapply paths_at; eauto; [exact (proj1 (proj1 (proj1 Hg')))|congruence].
Qed.

Variable M : Z.
Variable good : Z -> D -> Prop.
Hypothesis Hpr : pr_class K M good.
Hypothesis Htot : fwd_total K M good.
Lemma coh_parts sub n lv : (forall c acc h, ok K h (sub c acc)) ->
  (forall c y acc h, coh K M good h -> nth_error h c = Some y -> nlevel y = lv + 1 -> exists h' r, sub c acc h = (h', Ok r) /\ coh K M good h' /\ same_data h h') -> lv < M ->
  forall l, (forall p, In p l -> In p (parts K)) -> forall h x acc, coh K M good h -> nth_error h n = Some x -> nlevel x = lv ->
  exists h' r, walk_parts K sub true n l acc h = (h', Ok r) /\ coh K M good h' /\ same_data h h'.
Proof.
  intros Hok Hsub Hlv. induction l as [|p l IHl]; intros Hl h x acc Hc Hx Hlx; cbn [walk_parts].
  - exists h, acc. split; [reflexivity|]. split; [exact Hc|apply sd_refl].
  - unfold bindM at 1. pose proof (coh_sub K HK Hkeys M good Hpr n p true h Hc) as (Hc1 & Hs1).
    destruct (coh_get_subnode K HK Hkeys M good Hpr Htot h n x p Hc Hx (Hl p (or_introl eq_refl)) ltac:(lia)) as (h1 & c & y & E & Hy & Ey). rewrite E in *. cbn [fst] in *.
    unfold bindM at 1. destruct (Hsub c y acc h1 Hc1 Hy ltac:(lia)) as (h2 & r & E2 & Hc2 & Hs2). rewrite E2.
    assert (Hx2 : exists x2, nth_error h2 n = Some x2 /\ nlevel x2 = nlevel x).
    { assert (G1 : grow h h1) by (pose proof (ok_get_subnode K HK n p true h (proj1 (proj1 Hc))) as (_ & G); rewrite E in G; exact G).
      destruct (Hok c acc h1 (proj1 (proj1 Hc1))) as (_ & G2).
      rewrite E2 in G2. cbn [fst] in G2. destruct (proj2 G1 n x Hx) as (x1 & Hx1 & E1 & E1'). destruct (proj2 G2 n x1 Hx1) as (x2 & Hx2' & E3 & E3'). exists x2. split; auto. lia. }
    destruct Hx2 as (x2 & Hx2 & Ex2).
    destruct (IHl (fun q Hq => Hl q (or_intror Hq)) h2 x2 r Hc2 Hx2 ltac:(lia)) as (h3 & r3 & E3 & Hc3 & Hs3).
    exists h3, r3. split; [exact E3|]. split; [exact Hc3|]. eapply sd_trans; [exact Hs1|]. eapply sd_trans; eauto.
Qed.
Lemma coh_walk_visit q : forall f h n x acc, coh K M good h -> nth_error h n = Some x -> (Z.to_nat (M - nlevel x) < f)%nat ->
  exists h' r, walk K f (visit q) true n acc h = (h', Ok r) /\ coh K M good h' /\ same_data h h'.
Proof.
  induction f as [|f IH]; intros h n x acc Hc Hx Hf; [lia|]. cbn [walk].
  unfold visit at 1. unfold bindM at 1 2, get at 1. rewrite Hx. unfold ret at 1. cbn [snd fst].
  assert (Z0 : forall r : list nat, exists h' (r' : list nat), (h, Ok r) = (h', Ok r') /\ coh K M good h' /\ same_data h h') by (intros r; exists h, r; split; auto; split; auto; apply sd_refl).
  destruct (negb _); [apply Z0|]. unfold bindM at 1, get at 1. rewrite Hx. unfold bindM at 1. rewrite (maxlevel_lev K M n h (proj2 (proj1 Hc))), Hx.
  destruct (Z.ltb_spec (nlevel x) M) as [Hl|]; cbn [negb]; [|apply Z0].
  apply (coh_parts _ n (nlevel x)) with (x := x); auto.
  - intros. apply ok_walk; auto. intros. apply ok_visit.
  - intros c y acc1 h1 Hc1 Hy Ey. apply (IH h1 c y); auto. lia.
Qed.
Lemma coh_walk_depth : forall f h n x acc, coh K M good h -> nth_error h n = Some x -> (Z.to_nat (M - nlevel x) < f)%nat ->
  exists h' r, walk_depth K f (fun n acc => ret (acc ++ [n])) true n acc h = (h', Ok r) /\ coh K M good h' /\ same_data h h'.
Proof.
  induction f as [|f IH]; intros h n x acc Hc Hx Hf; [lia|]. cbn [walk_depth].
  unfold bindM at 1, get at 1. rewrite Hx. unfold bindM at 1. rewrite (maxlevel_lev K M n h (proj2 (proj1 Hc))), Hx.
  destruct (Z.ltb_spec (nlevel x) M) as [Hl|].
  - destruct (coh_parts (walk_depth K f (fun n acc => ret (acc ++ [n])) true) n (nlevel x)) with (l := parts K) (h := h) (x := x) (acc := acc) as (h' & r & E & Hc' & Hs'); auto.
    + intros. apply ok_walk_depth; auto. intros. apply ok_pure. reflexivity.
    + intros c y acc1 h1 Hc1 Hy Ey. apply (IH h1 c y); auto. lia.
    + unfold bindM at 1. rewrite E. unfold ret. eauto 6.
  - unfold bindM at 1, ret. exists h, (acc ++ [n]). split; [reflexivity|]. split; auto. apply sd_refl.
Qed.
Theorem walk_total d ops f : 0 <= M -> good 0 d -> forallb analysing ops = true -> (Z.to_nat M < f)%nat ->
  let h0 := run K [root_node K (Some d) (Some M)] ops in
  (forall q, exists h r, walk_visits K f q true 0 h0 = (h, Ok r) /\ same_data h0 h) /\
  exists h r, walk_depth_visits K f true 0 h0 = (h, Ok r) /\ same_data h0 h.
Proof.
  intros Hm Hg Ho Hf h0. destruct (run_analysing K HK Hkeys M good Hpr ops Ho _ (root_coh K M good d Hm Hg)) as (Hc & _). fold h0 in Hc.
  destruct (root_grow K HK (Some d) (Some M) ops) as (x & Hx & Ep & El). fold h0 in Hx. split; [intros q|].
  - destruct (coh_walk_visit q f h0 0%nat x [] Hc Hx) as (h & r & E & _ & Hs); [rewrite El, Z.sub_0_r; auto|]. eauto.
  - destruct (coh_walk_depth f h0 0%nat x [] Hc Hx) as (h & r & E & _ & Hs); [rewrite El, Z.sub_0_r; auto|]. eauto.
Qed.
End Any.

Section P1.
Variable C : CRing.
Variable fuel : nat.
Variable junk : Z -> C.
Theorem packet1_walk (data : nd C) w m maxl axis (ax : nat) h0 ops f :
  let K := wp1 fuel junk w m (Z.of_nat ax) in
  let n := nthz ax (nshape data) in
  let M := match maxl with Some M => M | None => dwt_max_level_c n (dec_len w) end in
  pr_wavelet w -> nd_wf data -> zlen (nshape data) <= 64 -> packet1 fuel junk (Some data) w maxl axis = Ok (Z.of_nat ax, h0) ->
  (forall M, maxl = Some M -> 0 <= M /\ levels_ok m (dec_len w) (Z.to_nat M) n) ->
  resources fuel n (dec_len w) -> prodZ (setn ax (2 * Z.max n (dec_len w)) (nshape data)) < max_alloc ->
  forallb reading ops = true -> (Z.to_nat M < f)%nat ->
  (forall q, exists h r, walk_visits K f q true 0 (run K h0 ops) = (h, Ok r) /\ paths h r = map Some (words_pre ["a"; "d"]%string q EmptyString (Z.to_nat M)) /\ same_data (run K h0 ops) h) /\
  exists h r, walk_depth_visits K f true 0 (run K h0 ops) = (h, Ok r) /\ paths h r = map Some (words_post ["a"; "d"]%string (Z.to_nat M)) /\ same_data (run K h0 ops) h.
Proof.
  intros K n M Hpr Hw H64 Hc HM Hr Hb Ho Hf.
  destruct (packet1_setup C fuel junk data w m maxl axis ax h0 Hpr Hw H64 Hc HM Hr Hb) as (-> & HM0 & EB & Hax & Hg0). fold K n M in HM0, Hg0, EB |- *. clear HM Hc.
  set (B := setn ax (2 * Z.max n (dec_len w)) (nshape data)) in *.
  set (good := fun l d => zlen (nshape d) = zlen (nshape data) /\ deep C fuel [(ax, (w, m))] B M l d). change (good 0 data) in Hg0.
  pose proof (wp1_pr C fuel junk w m (Z.of_nat ax) ax B M _ Hpr EB Hax) as HP. fold K good in HP.
  pose proof (wp1_class C fuel junk w m (Z.of_nat ax)) as HK. pose proof (wp1_keys C fuel junk w m (Z.of_nat ax)) as Hkeys. fold K in HK, Hkeys.
  assert (Htot : fwd_total K M good).
  { intros l d Hl (HN & Hd). eexists. exact (wp1_fwd C fuel junk w m (Z.of_nat ax) ax B M l _ d EB Hax (proj2 Hl) HN Hd). }
  destruct (walk_total K HK Hkeys M good HP Htot data ops f HM0 Hg0 (reading_analysing ops Ho) Hf) as (T1 & T2).
  split; [intros q; destruct (T1 q) as (h & r & E & S)|destruct T2 as (h & r & E & S)]; exists h, r; (split; [exact E|]; split; [|exact S]).
  - apply (proj1 (walk_all K HK Hkeys M data ops f q HM0 Ho) h r E).
  - apply (proj2 (walk_all K HK Hkeys M data ops f (fun _ => true) HM0 Ho) h r E).
Qed.
End P1.

Section Classes.
Context {C : CRing}.
Variables (fuel : nat) (junk : Z -> C) (K : wpclass (nd C)).
Hypothesis HC : packet_class fuel junk K.
Theorem packet_walk_nodes M (data : option (nd C)) ops f n x : 0 <= M -> let h := run K [root_node K data (Some M)] ops in
  nth_error h n = Some x -> (Z.to_nat M < f)%nat ->
  (forall q, exists r, walk_visits K f q false n h = (h, Ok r) /\ preorder (parts K) h q n r) /\
  (exists s, walk_depth_visits K f false n h = (h, Ok s) /\ postorder (parts K) h n s /\ forall e, In e s <-> exists p, at_path h n p e).
Proof. exact (walk_nodes K (pc_ok fuel junk K HC) M data ops f n x). Qed.
Theorem packet_walk_all M (d : nd C) ops f q : 0 <= M -> forallb reading ops = true -> let h0 := run K [root_node K (Some d) (Some M)] ops in
  (forall h r, walk_visits K f q true 0 h0 = (h, Ok r) -> paths h r = map Some (words_pre (parts K) q EmptyString (Z.to_nat M))) /\
  (forall h r, walk_depth_visits K f true 0 h0 = (h, Ok r) -> paths h r = map Some (words_post (parts K) (Z.to_nat M))).
Proof. exact (walk_all K (pc_ok fuel junk K HC) (pc_keys fuel junk K HC) M d ops f q). Qed.
End Classes.

Section P2.
Variable C : CRing.
Variable fuel : nat.
Variable junk : Z -> C.
Theorem packet2_walk (data : nd C) w m maxl axes1 axes2 s1 s2 B h0 ops :
  let K := wp2 fuel junk w m [axes1; axes2] in
  pr_wavelet w -> nd_wf data -> zlen (nshape data) <= 64 -> packet2 fuel junk (Some data) w maxl [axes1; axes2] = Ok h0 ->
  resolves C (zlen (nshape data)) (One w) (One m) [axes1; axes2] [s1; s2] -> plan_good C fuel B (nshape data) [s1; s2] ->
  (forall l, maxl = Some l -> 0 <= l /\ forall s, In s [s1; s2] -> levels_ok m (dec_len w) (Z.to_nat l) (nthz (st_ax C s) (nshape data))) ->
  forallb reading ops = true ->
  exists M, (forall l, maxl = Some l -> M = l) /\ h0 = [root_node K (Some data) (Some M)] /\ forall f, (Z.to_nat M < f)%nat ->
  (forall q, exists h r, walk_visits K f q true 0 (run K h0 ops) = (h, Ok r) /\ paths h r = map Some (words_pre ["a"; "h"; "v"; "d"]%string q EmptyString (Z.to_nat M)) /\ same_data (run K h0 ops) h) /\
  exists h r, walk_depth_visits K f true 0 (run K h0 ops) = (h, Ok r) /\ paths h r = map Some (words_post ["a"; "h"; "v"; "d"]%string (Z.to_nat M)) /\ same_data (run K h0 ops) h.
Proof.
  intros K Hpr Hw H64 Hc HR Hg HM Ho. pose proof (pr_wf w Hpr) as Hwf. pose proof Hwf as (_ & _ & _ & _ & HF2).
  assert (Hws : forall s, In s [s1; s2] -> st_w C s = w /\ st_m C s = m).
  { destruct HR as (_ & R2 & R3). cbn [objs_per_axis] in R2, R3. injection R2 as R2 R2'. injection R3 as R3 R3'. intros s [<-|[<-|[]]]; auto. }
  assert (Ha : forall s, In s [s1; s2] -> (st_ax C s < List.length (nshape data))%nat).
  { intros s Hs. destruct Hg as (_ & _ & _ & _ & _ & G). apply (G s Hs). }
  unfold packet2 in Hc. destruct (negb (Nat.eqb (distinct [axes1; axes2]) 2)); [discriminate|].
  destruct (Z.ltb_spec (zlen (nshape data)) 2) as [|H2]; [discriminate|].
  assert (E0 : exists M, h0 = [root_node K (Some data) (Some M)] /\ (forall l, maxl = Some l -> M = l) /\
    0 <= M /\ forall s, In s [s1; s2] -> levels_ok m (dec_len w) (Z.to_nat M) (nthz (st_ax C s) (nshape data))).
  { pose proof (max_level_axes C junk w m maxl [axes1; axes2] [s1; s2] (nshape data)) as ML.
    destruct (mapM (py_index (nshape data)) [axes1; axes2]) as [sizes| | |e]; cbn [bind] in Hc; try discriminate. cbn [bind] in ML.
    destruct (match maxl with Some l => Ok l | None => _ end) as [M| | |e] eqn:EM; cbn [bind] in Hc; try discriminate.
    injection Hc as <-. exists M. split; [unfold root_node; subst K; unfold wp1, wp2, wpn; cbn [shp]; reflexivity|]. split; [intros l ->; congruence|]. apply ML; auto. apply HR. }
  destruct E0 as (M & -> & EM & HM0 & Hlv). exists M. split; auto. split; auto. clear HM Hc.
  set (good := fun l d => zlen (nshape d) = zlen (nshape data) /\ deep C fuel [s1; s2] B M l d).
  assert (EB : zlen B = zlen (nshape data)) by (destruct Hg as (_ & G & _); unfold zlen; lia).
  assert (Hg0 : good 0 data).
  { split; auto. split; auto. split; [lia|]. rewrite Z.sub_0_r. apply (levels_good_intro C fuel); auto.
    intros s Hs. destruct (Hws s Hs) as (-> & ->). auto. }
  pose proof (wp2_pr C fuel junk w m axes1 axes2 s1 s2 B M _ Hpr EB HR) as HP. fold K good in HP.
  pose proof (wp2_class C fuel junk w m [axes1; axes2]) as HK. pose proof (wp2_keys C fuel junk w m [axes1; axes2]) as Hkeys. fold K in HK, Hkeys.
  assert (Htot : fwd_total K M good).
  { intros l d Hl (HN & Hd). eexists. exact (wp2_fwd C fuel junk w m axes1 axes2 s1 s2 B M l _ d H2 EB HR (proj2 Hl) HN Hd). }
  intros f Hf.
  destruct (walk_total K HK Hkeys M good HP Htot data ops f HM0 Hg0 (reading_analysing ops Ho) Hf) as (T1 & T2).
  split; [intros q; destruct (T1 q) as (h & r & E & S)|destruct T2 as (h & r & E & S)]; exists h, r; (split; [exact E|]; split; [|exact S]).
  - apply (proj1 (walk_all K HK Hkeys M data ops f q HM0 Ho) h r E).
  - apply (proj2 (walk_all K HK Hkeys M data ops f (fun _ => true) HM0 Ho) h r E).
Qed.
End P2.
