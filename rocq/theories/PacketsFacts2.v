(** The packets as constructed: reconstruction and the data of the nodes. *)
From Coq Require Import Permutation String Ascii Sorted.
From Verif Require Import Base BaseLemmas CConv Spec ExtLemmas Lengths LengthsProofs Dwt DwtProofs PR Linear Multilevel MultilevelProofs Swt SwtProofs Nd NdSpec NdLinear Axis AxisProofs AxisProofs2 Multidim MultidimProofs MultidimFacts MultilevelNd MultilevelNdProofs MultilevelNdFacts SwtNd SwtNdArgs.
From Verif Require Import Packets PacketsInv PacketsPath PacketsPath2 PacketsRead PacketsSpec PacketsLevel PacketsClasses PacketsFacts.
Open Scope list_scope. Open Scope Z_scope.

(** The data wanted under a path of WaveletPacket: low pass for "a", high pass
    for "d", one letter after the other. *)
Fixpoint packet_data {C : CRing} (ax : nat) (m : mode) (w : wavelet C) (path : string) (d : nd C) : nd C :=
  match path with
  | EmptyString => d
  | String c s => packet_data ax m w s (dax ax m (if Ascii.eqb c "a" then dec_lo w else dec_hi w) d)
  end.
(** WaveletPacket2D: "h" is high pass along the first axis and low pass along the
    second, "v" the other way round. *)
Fixpoint packet_data2 {C : CRing} (ax1 ax2 : nat) (m : mode) (w : wavelet C) (path : string) (d : nd C) : nd C :=
  match path with
  | EmptyString => d
  | String c s =>
      let f1 := if Ascii.eqb c "a" || Ascii.eqb c "v" then dec_lo w else dec_hi w in
      let f2 := if Ascii.eqb c "a" || Ascii.eqb c "h" then dec_lo w else dec_hi w in
      packet_data2 ax1 ax2 m w s (dax ax2 m f2 (dax ax1 m f1 d))
  end.
(** Paths over the alphabet of WaveletPacket2D. *)
Fixpoint over4 (s : string) : Prop :=
  match s with EmptyString => True | String c t => (c = "a" \/ c = "h" \/ c = "v" \/ c = "d")%char /\ over4 t end.

Section F2.
Variable C : CRing.
Variable fuel : nat.
Variable junk : Z -> C.

Lemma words_over4 {D} (K : wpclass D) : parts K = ["a"; "h"; "v"; "d"]%string -> forall s, over4 s -> In s (words K (String.length s)).
Proof.
  intros H. induction s as [|c s IH]; cbn [over4 String.length words]; [cbn; auto|]. intros (Hc & Hs). apply in_flat_map.
  exists (String c EmptyString). rewrite H. split; [cbn; destruct Hc as [->|[->|[->| ->]]]; auto|]. apply in_map_iff. exists s. split; auto.
Qed.
Lemma ones_data {D} (f : ascii -> D -> D) ps : forall d, (forall p, In p ps -> String.length p = 1%nat) ->
  List.fold_left (fun d p => match p with String c _ => f c d | EmptyString => d end) ps d
  = (fix go (s : string) (d : D) := match s with EmptyString => d | String c t => go t (f c d) end) (List.fold_right append EmptyString ps) d.
Proof.
  induction ps as [|p ps IH]; intros d H; cbn [List.fold_left List.fold_right]; auto.
  destruct p as [|c [|c' p]]; [specialize (H _ (or_introl eq_refl)); discriminate| |specialize (H _ (or_introl eq_refl)); discriminate].
  cbn [append]. apply IH. intros q Hq. apply H. right; auto.
Qed.

Lemma packet1_setup (data : nd C) w m maxl axis (ax : nat) h0 :
  let K := wp1 fuel junk w m (Z.of_nat ax) in
  let n := nthz ax (nshape data) in
  let M := match maxl with Some M => M | None => dwt_max_level_c n (dec_len w) end in
  let B := setn ax (2 * Z.max n (dec_len w)) (nshape data) in
  pr_wavelet w -> nd_wf data -> zlen (nshape data) <= 64 -> packet1 fuel junk (Some data) w maxl axis = Ok (Z.of_nat ax, h0) ->
  (forall M, maxl = Some M -> 0 <= M /\ levels_ok m (dec_len w) (Z.to_nat M) n) ->
  resources fuel n (dec_len w) -> prodZ B < max_alloc ->
  h0 = [root_node K (Some data) (Some M)] /\ 0 <= M /\ zlen B = zlen (nshape data) /\
  norm_axis (zlen (nshape data)) (Z.of_nat ax) = Z.of_nat ax /\
  zlen (nshape data) = zlen (nshape data) /\ deep C fuel [(ax, (w, m))] B M 0 data.
Proof.
  intros K n M B Hpr Hw H64 Hc HM Hr Hb. pose proof (pr_wf w Hpr) as Hwf. pose proof Hwf as (_ & _ & _ & _ & HF2).
  assert (E0 : h0 = [root_node K (Some data) (Some M)] /\ (ax < List.length (nshape data))%nat /\ 0 <= M /\ levels_ok m (dec_len w) (Z.to_nat M) n).
  { unfold packet1 in Hc. set (a := if axis <? 0 then axis + zlen (nshape data) else axis) in Hc.
    destruct (_ && _) eqn:Ea; cbn [negb] in Hc; [|discriminate]. apply andb_true_iff in Ea. destruct Ea as (Ea1 & Ea2).
    destruct maxl as [l|]; cbn [bind] in Hc.
    - injection Hc as E1 E2. subst h0. destruct (HM l eq_refl). split; [unfold root_node; subst K; unfold wp1, wp2, wpn; cbn [shp]; reflexivity|]. unfold zlen in Ea2. split; [lia|auto].
    - assert (EM : dwt_max_level (nthz (Z.to_nat a) (nshape data)) (dec_len w) = Ok (dwt_max_level_c (nthz (Z.to_nat a) (nshape data)) (dec_len w))).
      { unfold dwt_max_level in *. destruct (_ <? 2) eqn:E2; [lia|]. reflexivity. }
      rewrite EM in Hc. cbn [bind] in Hc. injection Hc as E1 E2. subst h0. rewrite E1, Nat2Z.id. split; [unfold root_node; subst K; unfold wp1, wp2, wpn; cbn [shp]; reflexivity|].
      unfold zlen in Ea2. split; [lia|]. split; [|apply default_levels; auto].
      unfold M. destruct (Z.ltb_spec n (dec_len w - 1)) as [Hs|Hs].
      + rewrite dwt_max_level_zero by auto. lia.
      + exact (proj1 (dwt_max_level_largest n (dec_len w) HF2 Hs)). }
  destruct E0 as (-> & Ha & HM0 & Hlv). clear HM Hc.
  assert (EB : zlen B = zlen (nshape data)) by (unfold B, zlen; rewrite setn_length; auto).
  assert (Hax : norm_axis (zlen (nshape data)) (Z.of_nat ax) = Z.of_nat ax).
  { unfold norm_axis. destruct (Z.ltb_spec (Z.of_nat ax) 0); lia. }
  assert (Hg0 : zlen (nshape data) = zlen (nshape data) /\ deep C fuel [(ax, (w, m))] B M 0 data).
  { split; auto. split; auto. split; [unfold zlen in *; lia|]. rewrite Z.sub_0_r. destruct (Z.eq_dec M 0) as [EM|HM1].
    - rewrite EM. intros j Hj. lia.
    - apply (levels_good_intro C fuel).
      + assert (Hml : min_len m <= n) by (specialize (Hlv 0%nat ltac:(lia)); cbn [approx_len] in Hlv; auto).
        pose proof (min_len_1 m). destruct Hw as (Hs & _).
        split; [exact Hb|]. split; [unfold zlen in EB; lia|]. split; [auto|]. split; [|split].
        * intros k. unfold B. destruct (Nat.eq_dec k ax) as [->|Hne]; [rewrite nthz_setn by auto; fold n; lia|rewrite nthz_setn_ne by auto; lia].
        * cbn. constructor; [intros []|constructor].
        * intros s [<-|[]]. cbn [st_ax st_w st_m fst snd]. split; [|unfold B; rewrite nthz_setn by auto; fold n; lia].
          split; [auto|]. split; [auto|]. split; [exact Hml|exact Hr].
      + intros s [<-|[]]. cbn [st_ax st_w st_m fst snd]. exact Hlv. }
  split; [reflexivity|]. split; [auto|]. split; [auto|]. split; [auto|]. exact Hg0.
Qed.

Theorem packet1_spec (data : nd C) w m maxl axis (ax : nat) h0 ops :
  let K := wp1 fuel junk w m (Z.of_nat ax) in
  let n := nthz ax (nshape data) in
  let M := match maxl with Some M => M | None => dwt_max_level_c n (dec_len w) end in
  pr_wavelet w -> nd_wf data -> zlen (nshape data) <= 64 -> packet1 fuel junk (Some data) w maxl axis = Ok (Z.of_nat ax, h0) ->
  (forall M, maxl = Some M -> 0 <= M /\ levels_ok m (dec_len w) (Z.to_nat M) n) ->
  resources fuel n (dec_len w) -> prodZ (setn ax (2 * Z.max n (dec_len w)) (nshape data)) < max_alloc ->
  forallb analysing ops = true ->
  (forall u, root_reconstruct K (Some (nshape data)) 0 u (run K h0 ops) = (run K h0 ops, Ok (Some data))) /\
  (forall k x u, nth_error (run K h0 ops) k = Some x -> exists d, ndat x = Some d /\ reconstruct K k u (run K h0 ops) = (run K h0 ops, Ok (Some d))) /\
  (forall path, over "a" "d" path -> Z.of_nat (String.length path) <= M ->
     exists h c x, getitem K 0 path (run K h0 ops) = (h, Ok c) /\ nth_error h c = Some x /\ npath x = path /\
       nlevel x = Z.of_nat (String.length path) /\ ndat x = Some (packet_data ax m w path data)).
Proof.
  intros K n M Hpr Hw H64 Hc HM Hr Hb Ho.
  destruct (packet1_setup data w m maxl axis ax h0 Hpr Hw H64 Hc HM Hr Hb) as (-> & HM0 & EB & Hax & Hg0). fold K n M in HM0, Hg0, EB |- *. clear HM Hc.
  set (B := setn ax (2 * Z.max n (dec_len w)) (nshape data)) in *.
  set (good := fun l d => zlen (nshape d) = zlen (nshape data) /\ deep C fuel [(ax, (w, m))] B M l d). change (good 0 data) in Hg0.
  pose proof (wp1_pr C fuel junk w m (Z.of_nat ax) ax B M _ Hpr EB Hax) as HP. fold K good in HP.
  pose proof (wp1_class C fuel junk w m (Z.of_nat ax)) as HK. pose proof (wp1_keys C fuel junk w m (Z.of_nat ax)) as Hkeys. fold K in HK, Hkeys.
  split; [|split].
  - intros u. destruct (root_grow K HK (Some data) (Some M) ops) as (x & Hx & _).
    apply (packet_pr K HK Hkeys M good HP data ops 0%nat x u HM0 Hg0 Ho Hx).
  - intros k x u Hx. apply (packet_pr K HK Hkeys M good HP data ops k x u HM0 Hg0 Ho Hx).
  - intros path Hov Hlen.
    assert (Htot : fwd_total K M good).
    { intros l d Hl (HN & Hd). eexists. exact (wp1_fwd C fuel junk w m (Z.of_nat ax) ax B M l _ d EB Hax (proj2 Hl) HN Hd). }
    assert (Hband : fwd_bands K M good (fun p d => match p with String c _ => dax ax m (if Ascii.eqb c "a" then dec_lo w else dec_hi w) d | EmptyString => d end)).
    { intros l d cs p v Hl (HN & Hd) Ef Hin. unfold K in Ef. rewrite (wp1_fwd C fuel junk w m (Z.of_nat ax) ax B M l _ d EB Hax (proj2 Hl) HN Hd) in Ef.
      assert (Ecs : cs = [("a", band C "a" [(ax, (w, m))] d); ("d", band C "d" [(ax, (w, m))] d)]%string) by congruence. clear Ef. subst cs.
      destruct Hin as [E|[E|[]]]; [apply (f_equal snd) in E as E2; apply (f_equal fst) in E as E1..]; cbn [fst snd] in E1, E2; subst p v; reflexivity. }
    destruct (packet_nodes K HK Hkeys M good HP Htot _ Hband data ops (String.length path) path HM0 Hg0 Ho) as (h & c & x & ps & G1 & G2 & G3 & G4 & G5 & G6 & G7); auto.
    { rewrite (words_ad K eq_refl). apply (proj2 (ad_keys_lex _)). auto. }
    exists h, c, x. split; auto. split; auto. split; auto. split; auto. rewrite G7. f_equal.
    rewrite (ones_data (fun c d => dax ax m (if Ascii.eqb c "a" then dec_lo w else dec_hi w) d)).
    + rewrite <- G5. clear. revert data. induction path as [|c s IH]; intros d; cbn [packet_data]; auto.
    + intros p Hp. apply G6 in Hp. cbn in Hp. destruct Hp as [<-|[<-|[]]]; reflexivity.
Qed.

Lemma mapMM_paths (h : nheap (nd C)) : forall r ws, paths h r = map Some ws -> mapMM node_path r h = (h, Ok ws).
Proof.
  induction r as [|c r IH]; intros [|u ws] E; cbn in E; try discriminate; [reflexivity|]. injection E as E1 E2.
  cbn [mapMM]. unfold bindM at 1, node_path at 1, bindM at 1, get at 1. destruct (nth_error h c) as [x|]; [|discriminate]. cbn in E1. injection E1 as ->.
  unfold ret at 1. unfold bindM. rewrite (IH ws E2). reflexivity.
Qed.
Theorem packet1_levels (data : nd C) w m maxl axis (ax : nat) h0 ops f L :
  let K := wp1 fuel junk w m (Z.of_nat ax) in
  let n := nthz ax (nshape data) in
  let M := match maxl with Some M => M | None => dwt_max_level_c n (dec_len w) end in
  pr_wavelet w -> nd_wf data -> zlen (nshape data) <= 64 -> packet1 fuel junk (Some data) w maxl axis = Ok (Z.of_nat ax, h0) ->
  (forall M, maxl = Some M -> 0 <= M /\ levels_ok m (dec_len w) (Z.to_nat M) n) ->
  resources fuel n (dec_len w) -> prodZ (setn ax (2 * Z.max n (dec_len w)) (nshape data)) < max_alloc ->
  forallb reading ops = true -> 0 <= L <= M -> (Z.to_nat L < f)%nat ->
  exists h r ws, get_level K f 0 L false true (run K h0 ops) = (h, Ok r) /\
    paths h r = map Some ws /\ lexicographic (Z.to_nat L) ws /\ Z.of_nat (List.length ws) = 2 ^ L /\
    (1 <= L -> exists q g, get_level K f 0 L true true (run K h0 ops) = (h, Ok q) /\ Permutation q r /\
       paths h q = map Some g /\ Permutation g ws /\ chain one_letter g /\ hd_error g = Some (rep (Z.to_nat L))).
Proof.
  intros K n M Hpr Hw H64 Hc HM Hr Hb Ho HL Hf.
  destruct (packet1_setup data w m maxl axis ax h0 Hpr Hw H64 Hc HM Hr Hb) as (-> & HM0 & EB & Hax & Hg0). fold K n M in HM0, Hg0, EB |- *. clear HM Hc.
  set (B := setn ax (2 * Z.max n (dec_len w)) (nshape data)) in *.
  set (good := fun l d => zlen (nshape d) = zlen (nshape data) /\ deep C fuel [(ax, (w, m))] B M l d). change (good 0 data) in Hg0.
  pose proof (wp1_pr C fuel junk w m (Z.of_nat ax) ax B M _ Hpr EB Hax) as HP. fold K good in HP.
  pose proof (wp1_class C fuel junk w m (Z.of_nat ax)) as HK. pose proof (wp1_keys C fuel junk w m (Z.of_nat ax)) as Hkeys. fold K in HK, Hkeys.
  assert (Htot : fwd_total K M good).
  { intros l d Hl (HN & Hd). eexists. exact (wp1_fwd C fuel junk w m (Z.of_nat ax) ax B M l _ d EB Hax (proj2 Hl) HN Hd). }
  assert (Ho' : forallb analysing ops = true).
  { rewrite forallb_forall in Ho |- *. intros o Hin. specialize (Ho o Hin). destruct o; cbn in *; auto. }
  destruct (level_total K HK Hkeys M good HP Htot data ops L f HM0 Hg0 Ho' HL Hf) as (h & r & E).
  assert (E1 : get_level K f 0 L false true (run K [root_node K (Some data) (Some M)] ops) = (h, Ok r)).
  { unfold get_level, bindM. rewrite E. reflexivity. }
  destruct (level_natural C fuel junk w m (Z.of_nat ax) data M ops f L h r HM0 (proj1 HL) Ho E1) as (ws & W1 & W2 & W3).
  exists h, r, ws. split; auto. split; auto. split; auto. split; auto. intros HL1.
  assert (E2 : exists q, get_level K f 0 L true true (run K [root_node K (Some data) (Some M)] ops) = (h, Ok q)).
  { unfold get_level, bindM. rewrite E. cbn [negb]. rewrite (mapMM_paths h r ws W1). eexists. reflexivity. }
  destruct E2 as (q & E2).
  destruct (level_freq C fuel junk w m (Z.of_nat ax) data M ops f L h q HM0 HL1 Ho E2) as (r' & ws' & g & F1 & F2 & F3 & F4 & F5 & F6 & F7 & F8).
  fold K in F1. rewrite E1 in F1. injection F1 as <-. assert (ws' = ws).
  { rewrite W1 in F3. clear - F3. revert ws' F3. induction ws as [|a l IH]; intros [|b l'] E; cbn in E; try discriminate; auto. injection E as -> E. f_equal. auto. }
  subst ws'. exists q, g. split; auto.
Qed.

(** The maximal level of the 2-D and n-D packets. *)
Lemma max_level_axes (w : wavelet C) m (maxl : option Z) axes (plan : list (step C)) sh M : 2 <= dec_len w ->
  norm_axes (zlen sh) axes = map (fun s => Z.of_nat (st_ax C s)) plan ->
  (forall s, In s plan -> (st_ax C s < List.length sh)%nat) ->
  (sizes <- mapM (py_index sh) axes ;;
   match maxl with Some l => Ok l
   | None => match list_min sizes with Some n => dwt_max_level n (dec_len w) | None => Err ValueError end end) = Ok M ->
  (forall l, maxl = Some l -> 0 <= l /\ forall s, In s plan -> levels_ok m (dec_len w) (Z.to_nat l) (nthz (st_ax C s) sh)) ->
  0 <= M /\ forall s, In s plan -> levels_ok m (dec_len w) (Z.to_nat M) (nthz (st_ax C s) sh).
Proof.
  intros HF E Ha Em HM.
  assert (Es : mapM (py_index sh) axes = Ok (map (fun s => nthz (st_ax C s) sh) plan)).
  { clear Em HM. revert axes E. induction plan as [|s p IH]; intros [|a axes] E; cbn [norm_axes map] in E; try discriminate; [reflexivity|].
    injection E as E1 E2. cbn [mapM map]. rewrite (py_index_ok sh a (st_ax C s)) by (auto; apply Ha; left; auto). cbn [bind].
    rewrite (IH (fun t Ht => Ha t (or_intror Ht)) axes E2). reflexivity. }
  rewrite Es in Em. cbn [bind] in Em. destruct maxl as [l|].
  - injection Em as <-. apply HM. reflexivity.
  - destruct (list_min _) as [v|] eqn:Ev; [|discriminate]. destruct (list_min_spec _ _ Ev) as (_ & Hv).
    unfold dwt_max_level in Em. destruct (_ <? 2) eqn:E2; [lia|]. injection Em as <-. split.
    + destruct (Z.ltb_spec v (dec_len w - 1)) as [Hs|Hs].
      * rewrite dwt_max_level_zero by auto. lia.
      * exact (proj1 (dwt_max_level_largest v (dec_len w) HF Hs)).
    + intros s Hs j Hj. apply (default_levels m (dec_len w) (nthz (st_ax C s) sh) HF j).
      assert (v <= nthz (st_ax C s) sh) by (apply Hv; apply in_map_iff; exists s; auto).
      pose proof (dwt_max_level_mono v (nthz (st_ax C s) sh) (dec_len w) (dec_len w)). lia.
Qed.

Theorem packet2_spec (data : nd C) w m maxl axes1 axes2 s1 s2 B h0 ops :
  let K := wp2 fuel junk w m [axes1; axes2] in
  pr_wavelet w -> nd_wf data -> zlen (nshape data) <= 64 -> packet2 fuel junk (Some data) w maxl [axes1; axes2] = Ok h0 ->
  resolves C (zlen (nshape data)) (One w) (One m) [axes1; axes2] [s1; s2] -> plan_good C fuel B (nshape data) [s1; s2] ->
  (forall l, maxl = Some l -> 0 <= l /\ forall s, In s [s1; s2] -> levels_ok m (dec_len w) (Z.to_nat l) (nthz (st_ax C s) (nshape data))) ->
  forallb analysing ops = true ->
  exists M, (forall l, maxl = Some l -> M = l) /\
  (forall u, root_reconstruct K (Some (nshape data)) 0 u (run K h0 ops) = (run K h0 ops, Ok (Some data))) /\
  (forall k x u, nth_error (run K h0 ops) k = Some x -> exists d, ndat x = Some d /\ reconstruct K k u (run K h0 ops) = (run K h0 ops, Ok (Some d))) /\
  (forall path, over4 path -> Z.of_nat (String.length path) <= M ->
     exists h c x, getitem K 0 path (run K h0 ops) = (h, Ok c) /\ nth_error h c = Some x /\ npath x = path /\
       nlevel x = Z.of_nat (String.length path) /\ ndat x = Some (packet_data2 (st_ax C s1) (st_ax C s2) m w path data)).
Proof.
  intros K Hpr Hw H64 Hc HR Hg HM Ho. pose proof (pr_wf w Hpr) as Hwf. pose proof Hwf as (_ & _ & _ & _ & HF2).
  assert (Hws : forall s, In s [s1; s2] -> st_w C s = w /\ st_m C s = m).
  { destruct HR as (_ & R2 & R3). cbn [objs_per_axis] in R2, R3. injection R2 as R2 R2'. injection R3 as R3 R3'. intros s [<-|[<-|[]]]; auto. }
  assert (Ha : forall s, In s [s1; s2] -> (st_ax C s < List.length (nshape data))%nat).
  { intros s Hs. destruct Hg as (_ & _ & _ & _ & _ & G). apply (G s Hs). }
  unfold packet2 in Hc. destruct (negb (Nat.eqb (distinct [axes1; axes2]) 2)); [discriminate|].
  destruct (Z.ltb_spec (zlen (nshape data)) 2) as [|H2]; [discriminate|].
  assert (E0 : exists M, h0 = [root_node K (Some data) (Some M)] /\ (forall l, maxl = Some l -> M = l) /\
    0 <= M /\ forall s, In s [s1; s2] -> levels_ok m (dec_len w) (Z.to_nat M) (nthz (st_ax C s) (nshape data))).
  { pose proof (max_level_axes w m maxl [axes1; axes2] [s1; s2] (nshape data)) as ML.
    destruct (mapM (py_index (nshape data)) [axes1; axes2]) as [sizes| | |e]; cbn [bind] in Hc; try discriminate. cbn [bind] in ML.
    destruct (match maxl with Some l => Ok l | None => _ end) as [M| | |e] eqn:EM; cbn [bind] in Hc; try discriminate.
    injection Hc as <-. exists M. split; [unfold root_node; subst K; unfold wp1, wp2, wpn; cbn [shp]; reflexivity|]. split; [intros l ->; congruence|]. apply ML; auto. apply HR. }
  destruct E0 as (M & -> & EM & HM0 & Hlv). exists M. split; auto. clear HM Hc.
  set (good := fun l d => zlen (nshape d) = zlen (nshape data) /\ deep C fuel [s1; s2] B M l d).
  assert (EB : zlen B = zlen (nshape data)) by (destruct Hg as (_ & G & _); unfold zlen; lia).
  assert (Hg0 : good 0 data).
  { split; auto. split; auto. split; [lia|]. rewrite Z.sub_0_r. apply (levels_good_intro C fuel); auto.
    intros s Hs. destruct (Hws s Hs) as (-> & ->). auto. }
  pose proof (wp2_pr C fuel junk w m axes1 axes2 s1 s2 B M _ Hpr EB HR) as HP. fold K good in HP.
  pose proof (wp2_class C fuel junk w m [axes1; axes2]) as HK. pose proof (wp2_keys C fuel junk w m [axes1; axes2]) as Hkeys. fold K in HK, Hkeys.
  split; [|split].
  - intros u. destruct (root_grow K HK (Some data) (Some M) ops) as (x & Hx & _).
    apply (packet_pr K HK Hkeys M good HP data ops 0%nat x u HM0 Hg0 Ho Hx).
  - intros k x u Hx. apply (packet_pr K HK Hkeys M good HP data ops k x u HM0 Hg0 Ho Hx).
  - intros path Hov Hlen.
    assert (Htot : fwd_total K M good).
    { intros l d Hl (HN & Hd). eexists. exact (wp2_fwd C fuel junk w m axes1 axes2 s1 s2 B M l _ d H2 EB HR (proj2 Hl) HN Hd). }
    pose (bd := fun c (d : nd C) => let f1 := if Ascii.eqb c "a" || Ascii.eqb c "v" then dec_lo w else dec_hi w in
      let f2 := if Ascii.eqb c "a" || Ascii.eqb c "h" then dec_lo w else dec_hi w in
      dax (st_ax C s2) m f2 (dax (st_ax C s1) m f1 d)).
    assert (Hband : fwd_bands K M good (fun p d => match p with String c _ => bd c d | EmptyString => d end)).
    { intros l d cs p v Hl (HN & Hd) Ef Hin. unfold K in Ef. rewrite (wp2_fwd C fuel junk w m axes1 axes2 s1 s2 B M l _ d H2 EB HR (proj2 Hl) HN Hd) in Ef.
      assert (Ecs : cs = [("a", band C "aa" [s1; s2] d); ("v", band C "ad" [s1; s2] d); ("h", band C "da" [s1; s2] d); ("d", band C "dd" [s1; s2] d)]%string) by congruence. clear Ef. subst cs.
      destruct (Hws s1 (or_introl eq_refl)) as (W1 & M1). destruct (Hws s2 (or_intror (or_introl eq_refl))) as (W2 & M2).
      destruct Hin as [E|[E|[E|[E|[]]]]]; [apply (f_equal snd) in E as E2; apply (f_equal fst) in E as E1..]; cbn [fst snd] in E1, E2; subst p v;
        cbn [band]; unfold bd, pick; rewrite W1, W2, M1, M2; reflexivity. }
    destruct (packet_nodes K HK Hkeys M good HP Htot _ Hband data ops (String.length path) path HM0 Hg0 Ho) as (h & c & x & ps & G1 & G2 & G3 & G4 & G5 & G6 & G7); auto.
    { apply words_over4; auto. }
    exists h, c, x. split; auto. split; auto. split; auto. split; auto. rewrite G7. f_equal.
    rewrite (ones_data bd).
    + rewrite <- G5. clear. revert data. induction path as [|c s IH]; intros d; cbn [packet_data2]; auto.
    + intros p Hp. apply G6 in Hp. cbn in Hp. destruct Hp as [<-|[<-|[<-|[<-|[]]]]]; reflexivity.
Qed.

Theorem packetn_spec (data : nd C) w m maxl axes0 axes plan B h0 ops :
  let K := wpn fuel junk w m axes in
  pr_wavelet w -> nd_wf data -> zlen (nshape data) <= 64 -> packetn fuel junk (Some data) w maxl axes0 = Ok (axes, h0) -> plan <> [] ->
  resolves C (zlen (nshape data)) (One w) (One m) axes plan -> plan_good C fuel B (nshape data) plan ->
  (forall l, maxl = Some l -> 0 <= l /\ forall s, In s plan -> levels_ok m (dec_len w) (Z.to_nat l) (nthz (st_ax C s) (nshape data))) ->
  forallb analysing ops = true ->
  exists M, (forall l, maxl = Some l -> M = l) /\ h0 = [root_node K (Some data) (Some M)] /\
  ((forall s j, In s plan -> (j < Z.to_nat M)%nat -> approx_len m (dec_len w) j (nthz (st_ax C s) (nshape data)) mod 2 = 0) ->
  (forall u, root_reconstruct K (Some (nshape data)) 0 u (run K h0 ops) = (run K h0 ops, Ok (Some data))) /\
  (forall k x u, nth_error (run K h0 ops) k = Some x -> exists d, ndat x = Some d /\ reconstruct K k u (run K h0 ops) = (run K h0 ops, Ok (Some d))) /\
  (forall path k, In path (words K k) -> Z.of_nat k <= M ->
     exists h c x ps, getitem K 0 path (run K h0 ops) = (h, Ok c) /\ nth_error h c = Some x /\ npath x = path /\ nlevel x = Z.of_nat k /\
       path = List.fold_right append EmptyString ps /\ (forall p, In p ps -> String.length p = List.length axes) /\
       ndat x = Some (List.fold_left (fun d p => band C p plan d) ps data))).
Proof.
  intros K Hpr Hw H64 Hc Hne HR Hg HM Ho. pose proof (pr_wf w Hpr) as Hwf. pose proof Hwf as (_ & _ & _ & _ & HF2).
  assert (Hws : forall s, In s plan -> st_w C s = w /\ st_m C s = m).
  { destruct HR as (_ & R2 & R3). cbn [objs_per_axis] in R2, R3. injection R2 as R2. injection R3 as R3. intros s Hs. split.
    - apply (in_map (st_w C)) in Hs. rewrite <- R2 in Hs. apply repeat_spec in Hs. auto.
    - apply (in_map (st_m C)) in Hs. rewrite <- R3 in Hs. apply repeat_spec in Hs. auto. }
  assert (Ha : forall s, In s plan -> (st_ax C s < List.length (nshape data))%nat).
  { intros s Hs. destruct Hg as (_ & _ & _ & _ & _ & G). apply (G s Hs). }
  assert (Hax : axes <> []) by (pose proof (resolves_len C _ _ _ _ _ HR); destruct axes; destruct plan; cbn in *; congruence).
  unfold packetn in Hc. destruct (match axes0 with Some l => Ok l | None => _ end) as [ax| | |e]; cbn [bind] in Hc; try discriminate.
  destruct (negb (Nat.eqb (distinct ax) (List.length ax))); [discriminate|].
  destruct (Z.eqb_spec (zlen (nshape data)) 0) as [|H2]; [discriminate|]. destruct (zlen (nshape data) <? zlen ax); [discriminate|].
  assert (E0 : exists M, ax = axes /\ h0 = [root_node K (Some data) (Some M)] /\ (forall l, maxl = Some l -> M = l) /\
    0 <= M /\ forall s, In s plan -> levels_ok m (dec_len w) (Z.to_nat M) (nthz (st_ax C s) (nshape data))).
  { assert (Ex : ax = axes).
    { destruct (mapM (py_index (nshape data)) ax) as [sizes| | |e]; cbn [bind] in Hc; try discriminate.
      destruct (match maxl with Some l => Ok l | None => _ end) as [M| | |e]; cbn [bind] in Hc; try discriminate. injection Hc as E _. exact E. }
    subst ax. pose proof (max_level_axes w m maxl axes plan (nshape data)) as ML.
    destruct (mapM (py_index (nshape data)) axes) as [sizes| | |e]; cbn [bind] in Hc; try discriminate. cbn [bind] in ML.
    destruct (match maxl with Some l => Ok l | None => _ end) as [M| | |e] eqn:EM; cbn [bind] in Hc; try discriminate.
    injection Hc as <-. exists M. split; [unfold root_node; subst K; unfold wp1, wp2, wpn; cbn [shp]; reflexivity|]. split; [reflexivity|]. split; [intros l ->; congruence|]. apply ML; auto. apply HR. }
  destruct E0 as (M & -> & -> & EM & HM0 & Hlv). exists M. split; auto. split; auto. intros Hev. clear HM Hc.
  set (good := fun l d => zlen (nshape d) = zlen (nshape data) /\ deep C fuel plan B M l d /\
       forall j s, (j < Z.to_nat (M - l))%nat -> In s plan -> nthz (st_ax C s) (lev_shape C plan j (nshape d)) mod 2 = 0).
  assert (EB : zlen B = zlen (nshape data)) by (destruct Hg as (_ & G & _); unfold zlen; lia).
  assert (Hg0 : good 0 data).
  { split; auto. split.
    - split; auto. split; [unfold zlen in *; lia|]. rewrite Z.sub_0_r. apply (levels_good_intro C fuel); auto.
      intros s Hs. destruct (Hws s Hs) as (-> & ->). auto.
    - intros j s Hj Hs. rewrite Z.sub_0_r in Hj. rewrite (nthz_lev_shape C) by (auto; apply Hg).
      destruct (Hws s Hs) as (-> & ->). apply Hev; auto. }
  pose proof (wpn_pr C fuel junk w m axes plan B M _ Hpr Hne EB HR) as HP. fold K good in HP.
  pose proof (wpn_class C fuel junk w m axes Hax) as HK. pose proof (wpn_keys C fuel junk w m axes) as Hkeys. fold K in HK, Hkeys.
  split; [|split].
  - intros u. destruct (root_grow K HK (Some data) (Some M) ops) as (x & Hx & _).
    apply (packet_pr K HK Hkeys M good HP data ops 0%nat x u HM0 Hg0 Ho Hx).
  - intros k x u Hx. apply (packet_pr K HK Hkeys M good HP data ops k x u HM0 Hg0 Ho Hx).
  - intros path k Hov Hlen.
    assert (Htot : fwd_total K M good).
    { intros l d Hl (HN & Hd & _). eexists. exact (wpn_fwd C fuel junk w m axes plan B M l _ d Hne EB HR (proj2 Hl) HN Hd). }
    assert (Hband : fwd_bands K M good (fun p d => band C p plan d)).
    { intros l d cs p v Hl (HN & Hd & _) Ef Hin. unfold K in Ef. rewrite (wpn_fwd C fuel junk w m axes plan B M l _ d Hne EB HR (proj2 Hl) HN Hd) in Ef.
      assert (Ecs : cs = map (fun k => (k, band C k plan d)) (ad_keys (List.length plan))) by congruence. clear Ef. subst cs.
      apply in_map_iff in Hin. destruct Hin as (q & E & _). congruence. }
    destruct (packet_nodes K HK Hkeys M good HP Htot _ Hband data ops k path HM0 Hg0 Ho) as (h & c & x & ps & G1 & G2 & G3 & G4 & G5 & G6 & G7); auto.
    exists h, c, x, ps. split; auto. split; auto. split; auto. split; auto. split; auto. split; auto.
    intros p Hp. apply G6 in Hp. cbn in Hp. apply ad_keys_length; auto.
Qed.
End F2.
