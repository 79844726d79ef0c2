(** Rebuilding the packets of the three classes from their leaves. *)
From Coq Require Import Permutation String Ascii.
From Verif Require Import Base BaseLemmas CConv Spec ExtLemmas Lengths LengthsProofs Dwt DwtProofs PR Multilevel MultilevelProofs Swt Nd NdSpec Axis AxisProofs AxisProofs2 Multidim MultidimProofs MultidimFacts MultilevelNd MultilevelNdProofs MultilevelNdFacts SwtNd SwtNdArgs.
From Verif Require Import Packets PacketsInv PacketsPath PacketsRead PacketsSpec PacketsLevel PacketsClasses PacketsFacts PacketsFacts2 PacketsRebuild.
Open Scope list_scope. Open Scope Z_scope.

(** The paths of the leaves of a tree shape. *)
Fixpoint leaf_paths (ps : list string) (T : ptree) : list string :=
  match T with PLeaf => [EmptyString] | PSplit sub => flat_map (fun p => map (append p) (leaf_paths ps (sub p))) ps end.

Lemma leaf_data_paths {D} ps (band : string -> D -> D) (at_ : string -> D -> D) : (forall d, at_ EmptyString d = d) ->
  (forall p s d, In p ps -> at_ (append p s) d = at_ s (band p d)) ->
  forall T d, leaf_data ps band T d = map (fun s => (s, at_ s d)) (leaf_paths ps T).
Proof.
  intros H0 H1. induction T as [|sub IH]; intros d; cbn [leaf_data leaf_paths]; [cbn; rewrite H0; reflexivity|].
  assert (G : forall l, (forall p, In p l -> In p ps) ->
    flat_map (fun p => map (fun '(s, v) => (append p s, v)) (leaf_data ps band (sub p) (band p d))) l
    = map (fun s => (s, at_ s d)) (flat_map (fun p => map (append p) (leaf_paths ps (sub p))) l)).
  { induction l as [|p l IHl]; intros Hl; cbn [flat_map map]; auto. rewrite map_app, IHl by (intros q Hq; apply Hl; right; auto). f_equal.
    rewrite IH, !map_map. apply map_ext. intros s. rewrite H1 by (apply Hl; left; auto). reflexivity. }
  apply G. auto.
Qed.

Lemma exact_of {D} (K : wpclass D) M good band : class_ok K -> parts K <> [] -> fwd_total K M good -> fwd_bands K M good band ->
  (forall l d cs, 0 <= l < M -> good l d -> fwd K d = Ok cs -> fwd_keys K cs /\ (forall p v, In (p, v) cs -> good (l + 1) v) /\
     inv K (map (fun p => (p, dget cs p)) (parts K)) = Ok (Some d)) -> exact_pr K M band good.
Proof.
  intros HK Hne Ht Hb Hi. split; auto. intros l d Hl Hg. destruct (Ht l d Hl Hg) as (cs & Ef). destruct (Hi l d cs Hl Hg Ef) as ((Hn & Hk) & Hgs & Hv).
  assert (G : forall p, In p (parts K) -> In (p, band p d) cs).
  { intros p Hp. apply Hk in Hp. apply in_map_iff in Hp. destruct Hp as ((q & v) & E & Hin). cbn in E. subst q.
    rewrite <- (Hb l d cs p v Hl Hg Ef Hin). auto. }
  split; [intros p Hp; apply (Hgs p); auto|]. rewrite <- Hv. f_equal. apply map_ext_in. intros p Hp. f_equal. symmetry. apply dget_in; auto.
Qed.

Section R2.
Variable C : CRing.
Variable fuel : nat.
Variable junk : Z -> C.

Lemma packet_data_app ax m (w : wavelet C) p : forall s d, packet_data ax m w (append p s) d = packet_data ax m w s (packet_data ax m w p d).
Proof. induction p as [|c p IH]; intros s d; cbn [append packet_data]; auto. Qed.
Lemma packet_data2_app ax1 ax2 m (w : wavelet C) p : forall s d, packet_data2 ax1 ax2 m w (append p s) d = packet_data2 ax1 ax2 m w s (packet_data2 ax1 ax2 m w p d).
Proof. induction p as [|c p IH]; intros s d; cbn [append packet_data2]; auto. Qed.

(** Sizes that never become odd on the way to level [M]. *)
Definition stays_even (m : mode) (F : Z) (M : Z) (n : Z) : Prop := forall j, (j < Z.to_nat M)%nat -> approx_len m F j n mod 2 = 0.

Theorem packet1_rebuild (data : nd C) w m M axis (ax : nat) h0 T ps u :
  let K := wp1 fuel junk w m (Z.of_nat ax) in
  let n := nthz ax (nshape data) in
  pr_wavelet w -> nd_wf data -> zlen (nshape data) <= 64 -> packet1 fuel junk (Some data) w (Some M) axis = Ok (Z.of_nat ax, h0) ->
  0 <= M -> levels_ok m (dec_len w) (Z.to_nat M) n -> stays_even m (dec_len w) M n ->
  resources fuel n (dec_len w) -> prodZ (setn ax (2 * Z.max n (dec_len w)) (nshape data)) < max_alloc ->
  depth_le ["a"; "d"]%string T (Z.to_nat M) -> Permutation ps (leaf_paths ["a"; "d"]%string T) ->
  let h := run K [root_node K None (Some M)] (map (fun s => OSet 0 s (packet_data ax m w s data)) ps) in
  snd (root_reconstruct K None 0 u h) = Ok (Some data).
Proof.
  intros K n Hpr Hw H64 Hc HM0 Hlv Hev Hr Hb HT HP.
  destruct (packet1_setup C fuel junk data w m (Some M) axis ax h0 Hpr Hw H64 Hc) as (_ & _ & EB & Hax & _ & Hd0); auto.
  { intros M' E. injection E as <-. auto. }
  fold n in Hd0, EB. set (B := setn ax (2 * Z.max n (dec_len w)) (nshape data)) in *.
  set (good := fun l d => (zlen (nshape d) = zlen (nshape data) /\ deep C fuel [(ax, (w, m))] B M l d) /\
     forall j, (j < Z.to_nat (M - l))%nat -> nthz ax (lev_shape C [(ax, (w, m))] j (nshape d)) mod 2 = 0).
  assert (Ha : (ax < List.length (nshape data))%nat).
  { unfold packet1 in Hc. set (a := if axis <? 0 then axis + zlen (nshape data) else axis) in Hc.
    destruct (_ && _) eqn:Ea; cbn [negb] in Hc; [|discriminate]. apply andb_true_iff in Ea. destruct Ea as (Ea1 & Ea2).
    cbn [bind] in Hc. assert (a = Z.of_nat ax) by congruence. unfold zlen in Ea2. lia. }
  pose (band1 := fun p d => packet_data ax m w p d).
  assert (HE : exact_pr K M band1 good).
  { apply exact_of; [apply wp1_class|discriminate| | |].
    - intros l d Hl ((HN & Hd) & _). eexists. exact (wp1_fwd C fuel junk w m (Z.of_nat ax) ax B M l _ d EB Hax (proj2 Hl) HN Hd).
    - intros l d cs p v Hl ((HN & Hd) & _) Ef Hin. unfold K in Ef. rewrite (wp1_fwd C fuel junk w m (Z.of_nat ax) ax B M l _ d EB Hax (proj2 Hl) HN Hd) in Ef.
      assert (Ecs : cs = [("a", band C "a" [(ax, (w, m))] d); ("d", band C "d" [(ax, (w, m))] d)]%string) by congruence. clear Ef. subst cs.
      destruct Hin as [E|[E|[]]]; [apply (f_equal snd) in E as E2; apply (f_equal fst) in E as E1..]; cbn [fst snd] in E1, E2; subst p v; reflexivity.
    - intros l d cs Hl (Hd & He) Ef. destruct (wp1_inv C fuel junk w m (Z.of_nat ax) ax B M _ Hpr EB Hax l d cs Hl Hd Ef) as (A1 & A2 & A3).
      split; auto. pose proof (deep_good C fuel junk _ _ _ _ _ (proj2 Hl) (proj2 Hd)) as Hg. split.
      + intros p v Hin. split; [apply (A2 p v Hin)|]. pose proof Hd as (HN & Hdd).
        unfold K in Ef. rewrite (wp1_fwd C fuel junk w m (Z.of_nat ax) ax B M l _ d EB Hax (proj2 Hl) HN Hdd) in Ef.
        assert (Ecs : cs = [("a", band C "a" [(ax, (w, m))] d); ("d", band C "d" [(ax, (w, m))] d)]%string) by congruence. clear Ef. subst cs.
        pose proof (plan_good_ok _ _ _ _ _ Hg) as Hp.
        intros j Hj.
        assert (E : nshape v = lev_step C [(ax, (w, m))] (nshape d)).
        { destruct Hin as [E|[E|[]]]; apply (f_equal snd) in E as E2; cbn [fst snd] in E2; subst v; apply (band_shape C fuel); auto. }
        rewrite E, <- lev_shape_S. apply He. lia.
      + fold K in A3. rewrite A3. do 2 f_equal. apply (paxs_even C fuel junk); [apply Hd| |].
        * intros s Hs. destruct Hg as (_ & _ & _ & _ & _ & G). apply (G s Hs).
        * intros s [<-|[]]. exact (He 0%nat ltac:(lia)). }
  assert (Hg0 : good 0 data).
  { split; [split; auto|]. intros j Hj. rewrite Z.sub_0_r in Hj.
    change ax with (st_ax C (ax, (w, m))) at 1.
    rewrite (nthz_lev_shape C [(ax, (w, m))] j (nshape data) (ax, (w, m))); [apply Hev; auto|repeat constructor; auto|left; auto|auto]. }
  assert (EL : map (fun s => OSet 0 s (packet_data ax m w s data)) ps = map (fun '(s, v) => OSet 0 s v) (map (fun s => (s, packet_data ax m w s data)) ps)).
  { rewrite map_map. reflexivity. }
  cbv zeta. rewrite EL.
  apply (rebuild K (wp1_class C fuel junk w m (Z.of_nat ax)) M band1 good HE T data); auto.
  rewrite (leaf_data_paths _ _ (fun s d => packet_data ax m w s d)); auto.
  - apply Permutation_map. exact HP.
  - intros p s d _. apply packet_data_app.
Qed.

Theorem packet2_rebuild (data : nd C) w m M ax1 ax2 s1 s2 B T ps u :
  let K := wp2 fuel junk w m [ax1; ax2] in
  pr_wavelet w -> nd_wf data -> 2 <= zlen (nshape data) <= 64 ->
  resolves C (zlen (nshape data)) (One w) (One m) [ax1; ax2] [s1; s2] -> plan_good C fuel B (nshape data) [s1; s2] ->
  0 <= M -> (forall s, In s [s1; s2] -> levels_ok m (dec_len w) (Z.to_nat M) (nthz (st_ax C s) (nshape data)) /\
     stays_even m (dec_len w) M (nthz (st_ax C s) (nshape data))) ->
  depth_le ["a"; "h"; "v"; "d"]%string T (Z.to_nat M) -> Permutation ps (leaf_paths ["a"; "h"; "v"; "d"]%string T) ->
  let h := run K [root_node K None (Some M)] (map (fun s => OSet 0 s (packet_data2 (st_ax C s1) (st_ax C s2) m w s data)) ps) in
  snd (root_reconstruct K None 0 u h) = Ok (Some data).
Proof.
  intros K Hpr Hw H64 HR Hpg HM0 Hlv HT HP.
  assert (EB : zlen B = zlen (nshape data)) by (destruct Hpg as (_ & G & _); unfold zlen; lia).
  assert (Hws : forall s, In s [s1; s2] -> st_w C s = w /\ st_m C s = m).
  { destruct HR as (_ & R2 & R3). cbn [objs_per_axis] in R2, R3. injection R2 as R2 R2'. injection R3 as R3 R3'. intros s [<-|[<-|[]]]; auto. }
  assert (Ha : forall s, In s [s1; s2] -> (st_ax C s < List.length (nshape data))%nat).
  { intros s Hs. destruct Hpg as (_ & _ & _ & _ & _ & G). apply (G s Hs). }
  set (good := fun l d => (zlen (nshape d) = zlen (nshape data) /\ deep C fuel [s1; s2] B M l d) /\
     forall j s, (j < Z.to_nat (M - l))%nat -> In s [s1; s2] -> nthz (st_ax C s) (lev_shape C [s1; s2] j (nshape d)) mod 2 = 0).
  pose (band1 := fun p d => packet_data2 (st_ax C s1) (st_ax C s2) m w p d).
  destruct (Hws s1 (or_introl eq_refl)) as (W1 & M1). destruct (Hws s2 (or_intror (or_introl eq_refl))) as (W2 & M2).
  assert (FW : forall l d, 0 <= l < M -> good l d -> fwd K d = Ok [("a", band C "aa" [s1; s2] d); ("v", band C "ad" [s1; s2] d); ("h", band C "da" [s1; s2] d); ("d", band C "dd" [s1; s2] d)]%string).
  { intros l d Hl ((HN & Hd) & _). exact (wp2_fwd C fuel junk w m ax1 ax2 s1 s2 B M l _ d (proj1 H64) EB HR (proj2 Hl) HN Hd). }
  assert (HE : exact_pr K M band1 good).
  { apply exact_of; [apply wp2_class|discriminate| | |].
    - intros l d Hl Hg. eexists. apply (FW l d Hl Hg).
    - intros l d cs p v Hl Hg Ef Hin. rewrite (FW l d Hl Hg) in Ef.
      assert (Ecs : cs = [("a", band C "aa" [s1; s2] d); ("v", band C "ad" [s1; s2] d); ("h", band C "da" [s1; s2] d); ("d", band C "dd" [s1; s2] d)]%string) by congruence. clear Ef. subst cs.
      destruct Hin as [E|[E|[E|[E|[]]]]]; [apply (f_equal snd) in E as E2; apply (f_equal fst) in E as E1..]; cbn [fst snd] in E1, E2; subst p v;
        cbn [band]; unfold band1, pick; rewrite W1, W2, M1, M2; reflexivity.
    - intros l d cs Hl Hgd Ef. pose proof Hgd as (Hd & He). destruct (wp2_inv C fuel junk w m ax1 ax2 s1 s2 B M _ Hpr EB HR l d cs Hl Hd Ef) as (A1 & A2 & A3).
      split; auto. pose proof (deep_good C fuel junk _ _ _ _ _ (proj2 Hl) (proj2 Hd)) as Hg. split.
      + intros p v Hin. split; [apply (A2 p v Hin)|].
        rewrite (FW l d Hl Hgd) in Ef.
        assert (Ecs : cs = [("a", band C "aa" [s1; s2] d); ("v", band C "ad" [s1; s2] d); ("h", band C "da" [s1; s2] d); ("d", band C "dd" [s1; s2] d)]%string) by congruence. clear Ef. subst cs.
        pose proof (plan_good_ok _ _ _ _ _ Hg) as Hp.
        intros j s Hj Hs.
        assert (E : nshape v = lev_step C [s1; s2] (nshape d)).
        { destruct Hin as [E|[E|[E|[E|[]]]]]; apply (f_equal snd) in E as E2; cbn [fst snd] in E2; subst v; apply (band_shape C fuel); auto. }
        rewrite E, <- lev_shape_S. apply He; auto. lia.
      + fold K in A3. rewrite A3. do 2 f_equal. apply (paxs_even C fuel junk); [apply Hd| |].
        * intros s Hs. destruct Hg as (_ & _ & _ & _ & _ & G). apply (G s Hs).
        * intros s Hs. exact (He 0%nat s ltac:(lia) Hs). }
  assert (Hg0 : good 0 data).
  { split.
    - split; auto. split; auto. split; [lia|]. rewrite Z.sub_0_r. apply (levels_good_intro C fuel); auto.
      intros s Hs. destruct (Hws s Hs) as (-> & ->). apply Hlv; auto.
    - intros j s Hj Hs. rewrite Z.sub_0_r in Hj. rewrite (nthz_lev_shape C) by (auto; apply Hpg).
      destruct (Hws s Hs) as (-> & ->). apply Hlv; auto. }
  assert (EL : map (fun s => OSet 0 s (packet_data2 (st_ax C s1) (st_ax C s2) m w s data)) ps = map (fun '(s, v) => OSet 0 s v) (map (fun s => (s, packet_data2 (st_ax C s1) (st_ax C s2) m w s data)) ps)).
  { rewrite map_map. reflexivity. }
  cbv zeta. rewrite EL.
  apply (rebuild K (wp2_class C fuel junk w m [ax1; ax2]) M band1 good HE T data); auto.
  rewrite (leaf_data_paths _ _ (fun s d => packet_data2 (st_ax C s1) (st_ax C s2) m w s d)); auto.
  - apply Permutation_map. exact HP.
  - intros p s d _. apply packet_data2_app.
Qed.
End R2.
