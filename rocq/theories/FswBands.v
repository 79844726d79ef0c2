(** The sub-bands of an FswavedecnResult: what they hold, that they partition
    the coefficient array, reading and writing them. *)
From Coq Require Import QArith Qround Permutation Sorted.
From Verif Require Import Base BaseLemmas CConv Spec ExtLemmas UpConv Lengths Dwt DwtProofs PR LengthsProofs Linear Multilevel MultilevelProofs
  Swt SwtSpec Nd NdSpec NdLinear Axis AxisProofs AxisProofs2 Multidim MultidimProofs MultidimFacts MultilevelNd MultilevelNdProofs SwtNd PackSpec Packing PackBox
  Fsw FswSpec FswLine FswAxis FswProofs.
Open Scope Z_scope.

(** ** Indices with one more restricted axis *)
Lemma within_sset ss : forall sh k o l, within ss sh -> nth k ss SAll = SAll -> 0 <= o -> 0 <= l -> o + l <= nthz k sh -> within (sset k (SRange o (o + l)) ss) sh.
Proof.
  induction ss as [|s ss IH]; intros [|n sh] k o l H E Ho Hl Hn; try (destruct s); cbn in H; try tauto; [destruct k; exact I| |].
  all: destruct k as [|k]; cbn in E, Hn; try discriminate E; cbn; unfold nthz in *; cbn in *; intuition (try lia); apply IH; auto.
Qed.
Lemma extent_sset ss : forall sh k o l, within ss sh -> nth k ss SAll = SAll -> extent (sset k (SRange o (o + l)) ss) sh = setn k l (extent ss sh).
Proof.
  unfold extent. induction ss as [|s ss IH]; intros [|n sh] k o l H E; try (destruct s); cbn in H; try tauto; [destruct k; reflexivity| |].
  all: destruct k as [|k]; cbn in E; try discriminate E; cbn; f_equal; try lia; apply IH; tauto.
Qed.
Lemma off_sset ss : forall sh k o l idx, within ss sh -> nth k ss SAll = SAll -> List.length idx = List.length ss ->
  off (box (sset k (SRange o (o + l)) ss) sh) idx = off (box ss sh) (setn k (o + nthz k idx) idx).
Proof.
  induction ss as [|s ss IH]; intros [|n sh] k o l [|i idx] H E L; try (destruct s); cbn in H, L; try tauto; try lia; [destruct k; reflexivity| |].
  all: destruct k as [|k]; cbn in E; try discriminate E; cbn; f_equal; try (unfold nthz; cbn; lia); apply IH; try tauto; lia.
Qed.
Lemma selects_sset ss : forall sh k a b idx, within ss sh -> (k < List.length sh)%nat -> nth k ss SAll = SAll ->
  (selects (sset k (SRange a b) ss) sh idx <-> selects ss sh idx /\ a <= nthz k idx < b).
Proof.
  induction ss as [|s ss IH]; intros [|n sh] k a b [|i idx] H Hk E; try (destruct s); cbn in H, Hk; try tauto; try lia.
  all: destruct k as [|k]; cbn in E; try discriminate E; cbn; try tauto.
  all: try (unfold nthz; cbn; tauto).
  all: assert (Hk' : (k < List.length sh)%nat) by lia; rewrite (IH sh k a b idx) by tauto; unfold nthz; cbn; tauto.
Qed.
Lemma nth_sset_ne ss : forall k j v, k <> j -> nth k (sset j v ss) SAll = nth k ss SAll.
Proof. induction ss as [|s ss IH]; intros [|k] [|j] v H; cbn; auto; try congruence. Qed.
Lemma nth_repeat_all n k : nth k (repeat SAll n) SAll = SAll.
Proof. revert k. induction n; intros [|k]; cbn; auto. Qed.
Lemma selects_all sh : forall idx, selects (repeat SAll (List.length sh)) sh idx <-> valid sh idx.
Proof. induction sh as [|n sh IH]; intros [|i idx]; cbn; try tauto. rewrite IH. tauto. Qed.

(** ** Tiles *)
Lemma nth_tiles t : forall o j, (j < List.length t)%nat -> nth j (tiles o t) SAll = SRange (o + sum_of (firstn j t)) (o + sum_of (firstn j t) + nth j t 0).
Proof.
  induction t as [|l t IH]; intros o j Hj; cbn in Hj; [lia|]. destruct j as [|j]; cbn [tiles nth firstn].
  - unfold sum_of. cbn. f_equal; lia.
  - rewrite IH by lia. change (sum_of (l :: firstn j t)) with (l + sum_of (firstn j t)). f_equal; lia.
Qed.
Lemma tiles_length t : forall o, List.length (tiles o t) = List.length t.
Proof. induction t; intros o; cbn; auto. Qed.

Lemma tile_bounds t : forall j, Forall (fun l => 1 <= l) t -> (j < List.length t)%nat -> 0 <= sum_of (firstn j t) /\ 1 <= nth j t 0 /\ sum_of (firstn j t) + nth j t 0 <= sum_of t.
Proof.
  induction t as [|l t IH]; intros j Hp Hj; cbn in Hj; [lia|]. inversion Hp as [|? ? Hl Ht]; subst. destruct j as [|j]; cbn [firstn nth].
  - pose proof (sum_pos t Ht). change (sum_of (l :: t)) with (l + sum_of t). unfold sum_of at 1 2. cbn [fold_right]. lia.
  - destruct (IH j Ht ltac:(lia)) as (A & B & D). change (sum_of (l :: t)) with (l + sum_of t). change (sum_of (l :: firstn j t)) with (l + sum_of (firstn j t)). lia.
Qed.
Lemma tile_find t : forall i, Forall (fun l => 1 <= l) t -> 0 <= i < sum_of t ->
  exists j, (j < List.length t)%nat /\ sum_of (firstn j t) <= i < sum_of (firstn j t) + nth j t 0.
Proof.
  induction t as [|l t IH]; intros i Hp Hi; [unfold sum_of in Hi; cbn in Hi; lia|]. inversion Hp as [|? ? Hl Ht]; subst.
  change (sum_of (l :: t)) with (l + sum_of t) in Hi. destruct (Z.lt_ge_cases i l).
  - exists O. cbn. unfold sum_of. cbn. lia.
  - destruct (IH (i - l) Ht) as (j & H1 & H2); [lia|]. exists (S j). cbn [List.length firstn nth].
    change (sum_of (l :: firstn j t)) with (l + sum_of (firstn j t)). lia.
Qed.
Lemma tile_once t : forall i j k, Forall (fun l => 1 <= l) t -> (j < List.length t)%nat -> (k < List.length t)%nat ->
  sum_of (firstn j t) <= i < sum_of (firstn j t) + nth j t 0 -> sum_of (firstn k t) <= i < sum_of (firstn k t) + nth k t 0 -> j = k.
Proof.
  induction t as [|l t IH]; intros i j k Hp Hj Hk H1 H2; cbn in Hj; [lia|]. inversion Hp as [|? ? Hl Ht]; subst.
  assert (A : forall q, (q < List.length t)%nat -> 0 <= sum_of (firstn q t)) by (intros q Hq; apply tile_bounds; auto).
  destruct j as [|j], k as [|k]; cbn [firstn nth List.length] in *; auto.
  - exfalso. change (sum_of (l :: firstn k t)) with (l + sum_of (firstn k t)) in H2. unfold sum_of at 1 2 in H1. cbn in H1. specialize (A k). lia.
  - exfalso. change (sum_of (l :: firstn j t)) with (l + sum_of (firstn j t)) in H1. unfold sum_of at 1 2 in H2. cbn in H2. specialize (A j). lia.
  - f_equal. change (sum_of (l :: firstn k t)) with (l + sum_of (firstn k t)) in H2. change (sum_of (l :: firstn j t)) with (l + sum_of (firstn j t)) in H1.
    apply (IH (i - l)); auto; lia.
Qed.

(** ** Validation of an index *)
Lemma frac_int z : Qle_bool (inject_Z z - inject_Z (Qfloor (inject_Z z))) 0 = true.
Proof. rewrite Qfloor_Z. apply Qle_bool_iff. unfold Qminus. rewrite Qplus_opp_r. apply Qle_refl. Qed.
Lemma ge0_int z : Qle_bool 0 (inject_Z z) = (0 <=? z).
Proof. unfold Qle_bool. cbn. rewrite Z.mul_1_r. reflexivity. Qed.

Section FB.
Variable C : CRing.
Local Notation fstep := (fstep (C := C)).
Local Notation fsw := (fsw (C := C)).

(** A result whose array has the layout of a plan on data of shape [sh]. *)
Definition layout (plan : list fstep) (sh : list Z) (r : fsw) : Prop :=
  nd_wf (fs_coeffs r) /\ zlen (nshape (fs_coeffs r)) = zlen sh /\ fs_slices r = map (fun s => tiles 0 (fs_lens s sh)) plan /\
  Forall2 (fun ax s => norm_axis (zlen sh) ax = Z.of_nat (fs_ax s)) (fs_axes r) plan /\ NoDup (map fs_ax plan) /\
  forall s, In s plan -> (fs_ax s < List.length sh)%nat /\ Forall (fun l => 1 <= l) (fs_lens s sh) /\
    nthz (fs_ax s) (nshape (fs_coeffs r)) = sum_of (fs_lens s sh).

Lemma fs_lens_length (s : fstep) sh : List.length (fs_lens s sh) = S (fs_lev s).
Proof. unfold fs_lens, multi_lens. cbn. rewrite map_length, rev_length, seq_length. reflexivity. Qed.

Lemma layout_levels plan sh r : layout plan sh r -> fs_levels r = map (fun s => Z.of_nat (fs_lev s)) plan.
Proof.
  intros (_ & _ & H & _). unfold fs_levels. rewrite H, map_map. apply map_ext. intros s. unfold zlen. rewrite tiles_length, fs_lens_length. lia.
Qed.

Lemma validate_ok plan sh r key : layout plan sh r -> is_key plan key -> validate_index r (map NInt key) = Ok tt.
Proof.
  intros Hl Hk. unfold validate_index. rewrite (layout_levels _ _ _ Hl). destruct Hl as (_ & _ & _ & Ha & _).
  rewrite map_length, (Forall2_length _ _ _ Ha), <- (Forall2_length _ _ _ Hk), Nat.eqb_refl. cbn [negb].
  replace (existsb _ (map NInt key)) with false.
  2: { clear. induction key as [|j key IH]; cbn [map existsb]; auto. unfold numq at 1. rewrite frac_int. cbn [negb orb]. exact IH. }
  replace (existsb (fun l => negb (Qle_bool 0 (numq l))) (map NInt key)) with false.
  2: { clear -Hk. induction Hk as [|s j plan key Hj Hk IH]; cbn [map existsb]; auto. unfold numq at 1. rewrite ge0_int. replace (0 <=? j) with true by lia. exact IH. }
  cbn [orb]. replace (existsb _ (combine _ _)) with false; auto.
  clear -Hk. induction Hk as [|s j plan key Hj Hk IH]; cbn [map combine existsb]; auto. cbn [num_int]. replace (Z.of_nat (fs_lev s) <? j) with false by lia. exact IH.
Qed.

Theorem validate_bad plan sh r key : layout plan sh r -> ~ is_key plan key -> validate_index r (map NInt key) = Err ValueError.
Proof.
  intros Hl Hk. unfold validate_index. rewrite (layout_levels _ _ _ Hl). destruct Hl as (_ & _ & _ & Ha & _).
  rewrite map_length, (Forall2_length _ _ _ Ha). destruct (Nat.eqb_spec (List.length key) (List.length plan)) as [E|]; [|reflexivity]. cbn [negb].
  replace (existsb _ (map NInt key)) with false.
  2: { clear. induction key as [|j key IH]; cbn [map existsb]; auto. unfold numq at 1. rewrite frac_int. cbn [negb orb]. exact IH. }
  cbn [orb]. destruct (existsb (fun l => negb (Qle_bool 0 (numq l))) (map NInt key)) eqn:E1; [reflexivity|].
  destruct (existsb _ (combine _ _)) eqn:E2; [reflexivity|]. exfalso. apply Hk. clear -E E1 E2.
  revert key E E1 E2. induction plan as [|s plan IH]; intros [|j key] E E1 E2; cbn in E; try lia; [constructor|].
  cbn [map existsb combine] in E1, E2. apply orb_false_iff in E1 as (A1 & A2). apply orb_false_iff in E2 as (B1 & B2).
  unfold numq in A1. rewrite ge0_int in A1. cbn [num_int] in B1. constructor; [lia|]. apply IH; auto.
Qed.

(** ** The index of a sub-band *)
Definition tile (sh : list Z) (s : fstep) (j : Z) : Z * Z :=
  (sum_of (firstn (Z.to_nat j) (fs_lens s sh)), nth (Z.to_nat j) (fs_lens s sh) 0).
Definition cut (sh : list Z) (s : fstep) (j : Z) (z : nd C) : nd C :=
  along (fs_ax s) (snd (tile sh s j)) (piece C (fst (tile sh s j)) (snd (tile sh s j))) z.
Definition cuts (sh : list Z) (plan : list fstep) (key : list Z) (z : nd C) : nd C :=
  fold_left (fun z sj => cut sh (fst sj) (snd sj) z) (combine plan key) z.

Lemma nd_slice_sset (y : nd C) k o l ss z : nd_wf y -> within ss (nshape y) -> nth k ss SAll = SAll -> (k < List.length (nshape y))%nat ->
  nthz k (nshape z) = nthz k (nshape y) ->
  0 <= o -> 0 <= l -> o + l <= nthz k (nshape y) -> nd_slice C y ss = Ok z ->
  nd_slice C y (sset k (SRange o (o + l)) ss) = Ok (along k l (piece C o l) z).
Proof.
  intros Hy Hw E Hk Ek Ho Hl Hn Hz. unfold nd_slice in *. rewrite region_within in Hz by auto. cbn [bind] in Hz. injection Hz as Hz.
  rewrite region_within by (apply within_sset; auto). cbn [bind]. f_equal.
  pose proof (extent_ok ss _ Hw) as He. unfold extent in He.
  assert (Sz : nshape z = map snd (box ss (nshape y))) by (rewrite <- Hz; reflexivity).
  fold (extent (sset k (SRange o (o + l)) ss) (nshape y)). rewrite extent_sset by auto. unfold along. rewrite Sz. unfold extent.
  apply ndtab_ext; [apply shape_ok_setn; auto|]. intros idx V.
  assert (Lx : List.length (map snd (box ss (nshape y))) = List.length ss).
  { rewrite map_length. clear -Hw. revert Hw. generalize (nshape y). induction ss as [|[|a b] ss IH]; intros [|n sh] H; cbn in *; try tauto; f_equal; apply IH; tauto. }
  assert (Lk : List.length ss = List.length (nshape y)) by (apply within_len; auto).
  assert (Li : List.length idx = List.length ss) by (rewrite (valid_len _ _ V), setn_length; auto).
  rewrite off_sset by auto.
  assert (Hi : 0 <= nthz k idx < l).
  { pose proof (valid_nth _ _ k V) as P. rewrite setn_length, Lx, nthz_setn in P by (rewrite Lx, Lk; auto). apply P. rewrite Lk. auto. }
  assert (Hr : nthz k (map snd (box ss (nshape y))) = nthz k (nshape y)) by (rewrite <- Sz; auto).
  unfold piece. rewrite gz_tab by auto. unfold line. rewrite Sz, Hr, gz_tab by lia.
  rewrite <- Hz. rewrite ndget_ndtab; auto.
  rewrite <- (setn_nthz k (map snd (box ss (nshape y)))). rewrite <- (setn_setn k _ l). apply valid_setn; auto. lia.
Qed.

Lemma coef_sl_spec (y : nd C) sh plan : nd_wf y -> zlen (nshape y) = zlen sh -> forall axes key acc z,
  Forall2 (fun ax s => norm_axis (zlen sh) ax = Z.of_nat (fs_ax s)) axes plan -> NoDup (map fs_ax plan) ->
  (forall s, In s plan -> (fs_ax s < List.length sh)%nat /\ Forall (fun l => 1 <= l) (fs_lens s sh) /\ nthz (fs_ax s) (nshape y) = sum_of (fs_lens s sh)) ->
  is_key plan key -> within acc (nshape y) -> (forall s, In s plan -> nth (fs_ax s) acc SAll = SAll) ->
  (forall s, In s plan -> nthz (fs_ax s) (nshape z) = nthz (fs_ax s) (nshape y)) -> nd_slice C y acc = Ok z ->
  exists ss, coef_sl (zlen sh) axes (map NInt key) (map (fun s => tiles 0 (fs_lens s sh)) plan) acc = Ok ss /\
    within ss (nshape y) /\ nd_slice C y ss = Ok (cuts sh plan key z) /\
    (forall idx, selects ss (nshape y) idx <-> selects acc (nshape y) idx /\
       Forall2 (fun s j => fst (tile sh s j) <= nthz (fs_ax s) idx < fst (tile sh s j) + snd (tile sh s j)) plan key).
Proof.
  intros Hy Hsh. induction plan as [|s plan IH]; intros axes key acc z Ha Hnd Hpl Hk Hw Hall Hz Hs.
  - inversion Ha; subst. inversion Hk; subst. exists acc. cbn. split; auto. split; auto. split; auto. intros idx. split; [intros; split; auto|tauto].
  - destruct axes as [|ax axes]; [inversion Ha|]. destruct key as [|j key]; [inversion Hk|].
    assert (Ha1 : norm_axis (zlen sh) ax = Z.of_nat (fs_ax s)) by (inversion Ha; auto).
    assert (Ha2 : Forall2 (fun ax s => norm_axis (zlen sh) ax = Z.of_nat (fs_ax s)) axes plan) by (inversion Ha; auto).
    assert (Hk1 : 0 <= j <= Z.of_nat (fs_lev s)) by (inversion Hk; auto). assert (Hk2 : is_key plan key) by (inversion Hk; auto).
    inversion Hnd as [|? ? Hni Hnd']; subst. clear Ha Hk.
    destruct (Hpl s (or_introl eq_refl)) as (P1 & P2 & P3).
    assert (Hj : (Z.to_nat j < List.length (fs_lens s sh))%nat) by (rewrite fs_lens_length; lia).
    destruct (tile_bounds (fs_lens s sh) (Z.to_nat j) P2 Hj) as (T1 & T2 & T3).
    cbn [map coef_sl level_slice]. unfold zlen at 1 2 3. rewrite tiles_length, fs_lens_length.
    replace ((j <? - Z.of_nat (S (fs_lev s))) || (Z.of_nat (S (fs_lev s)) <=? j)) with false by lia.
    replace (j <? 0) with false by lia. cbn [bind]. rewrite nth_tiles by auto. rewrite Z.add_0_l.
    destruct (axis_size_ok sh ax (fs_ax s) Ha1 P1) as (_ & _ & Ep & Eb). fold (zlen sh). rewrite Eb, Ep.
    change (sum_of (firstn (Z.to_nat j) (fs_lens s sh))) with (fst (tile sh s j)) in *. change (nth (Z.to_nat j) (fs_lens s sh) 0) with (snd (tile sh s j)) in *.
    set (o := fst (tile sh s j)) in *. set (l := snd (tile sh s j)) in *.
    assert (Hs' : nd_slice C y (sset (fs_ax s) (SRange o (o + l)) acc) = Ok (cut sh s j z)).
    { apply nd_slice_sset; auto; try lia.
      - apply Hall. left. auto.
      - unfold zlen in Hsh. lia.
      - apply Hz. left. auto. }
    assert (Hne : forall s', In s' plan -> fs_ax s' <> fs_ax s) by (intros s' Hs1 E; apply Hni; rewrite <- E; apply in_map; auto).
    destruct (IH axes key (sset (fs_ax s) (SRange o (o + l)) acc) (cut sh s j z)) as (ss & E1 & E2 & E3 & E4); auto.
    + intros s' H'. apply Hpl. right. auto.
    + apply within_sset; auto; try lia. apply Hall. left. auto.
    + intros s' H'. rewrite nth_sset_ne by auto. apply Hall. right. auto.
    + intros s' H'. unfold cut. rewrite along_shape, nthz_setn_ne by auto. apply Hz. right. auto.
    + exists ss. split; [exact E1|]. split; auto. split; [exact E3|]. intros idx. rewrite E4.
      rewrite selects_sset; auto.
      * split.
        -- intros ((A1 & A2) & A3). split; auto.
        -- intros (A1 & A2). inversion A2; subst. auto.
      * unfold zlen in Hsh. lia.
      * apply Hall. left. auto.
Qed.

Lemma get_coef_sl_spec plan sh r key : layout plan sh r -> is_key plan key ->
  exists ss, get_coef_sl r (map NInt key) = Ok ss /\ within ss (nshape (fs_coeffs r)) /\ nd_slice C (fs_coeffs r) ss = Ok (cuts sh plan key (fs_coeffs r)) /\
    (forall idx, selects ss (nshape (fs_coeffs r)) idx <-> valid (nshape (fs_coeffs r)) idx /\
       Forall2 (fun s j => fst (tile sh s j) <= nthz (fs_ax s) idx < fst (tile sh s j) + snd (tile sh s j)) plan key).
Proof.
  intros (Hw & Hsh & Hsl & Ha & Hnd & Hpl) Hk. unfold get_coef_sl. rewrite Hsh, Hsl.
  destruct (coef_sl_spec (fs_coeffs r) sh plan Hw Hsh (fs_axes r) key (repeat SAll (List.length (nshape (fs_coeffs r)))) (fs_coeffs r)) as (ss & E1 & E2 & E3 & E4); auto.
  - apply within_all. apply Hw.
  - intros. apply nth_repeat_all.
  - unfold nd_slice. rewrite region_within by (apply within_all; apply Hw). cbn [bind]. f_equal. rewrite box_all, snd_all.
    etransitivity; [|exact (ndtab_ndget _ Hw)]. apply ndtab_ext; [apply Hw|]. intros idx V. rewrite off_all; auto.
  - exists ss. split; auto. split; auto. split; auto. intros idx. rewrite E4, selects_all. reflexivity.
Qed.

Theorem fs_get_spec plan sh r key : layout plan sh r -> is_key plan key -> fs_get r (map NInt key) = Ok (cuts sh plan key (fs_coeffs r)).
Proof.
  intros Hl Hk. unfold fs_get. rewrite (validate_ok plan sh r key) by auto. cbn [bind].
  destruct (get_coef_sl_spec plan sh r key Hl Hk) as (ss & E1 & _ & E3 & _). rewrite E1. cbn [bind]. exact E3.
Qed.

(** ** Partition *)
Theorem fs_partition plan sh r idx : layout plan sh r -> valid (nshape (fs_coeffs r)) idx ->
  exists key ss, (is_key plan key /\ get_coef_sl r (map NInt key) = Ok ss /\ selects ss (nshape (fs_coeffs r)) idx) /\
  forall key' ss', is_key plan key' -> get_coef_sl r (map NInt key') = Ok ss' -> selects ss' (nshape (fs_coeffs r)) idx -> key' = key.
Proof.
  intros Hl V. pose proof Hl as (Hw & Hsh & _ & _ & _ & Hpl).
  assert (Hv : forall s, In s plan -> 0 <= nthz (fs_ax s) idx < sum_of (fs_lens s sh)).
  { intros s Hs. destruct (Hpl s Hs) as (P1 & P2 & P3). rewrite <- P3. apply valid_nth; auto. unfold zlen in Hsh. lia. }
  assert (G : exists key, is_key plan key /\ Forall2 (fun s j => fst (tile sh s j) <= nthz (fs_ax s) idx < fst (tile sh s j) + snd (tile sh s j)) plan key).
  { assert (Hpos : forall s, In s plan -> Forall (fun l => 1 <= l) (fs_lens s sh)) by (intros s Hs; apply (Hpl s Hs)).
    clear -Hv Hpos. induction plan as [|s plan IH]; [exists []; split; constructor|].
    destruct IH as (key & K1 & K2); [intros; apply Hv; right; auto|intros; apply Hpos; right; auto|].
    destruct (tile_find (fs_lens s sh) (nthz (fs_ax s) idx)) as (j & J1 & J2); [apply Hpos; left; auto|apply Hv; left; auto|].
    rewrite fs_lens_length in J1. exists (Z.of_nat j :: key). split; constructor; auto; [lia|]. unfold tile. cbn [fst snd]. rewrite Nat2Z.id. exact J2. }
  destruct G as (key & K1 & K2). destruct (get_coef_sl_spec plan sh r key Hl K1) as (ss & E1 & _ & _ & E4).
  exists key, ss. split.
  - split; auto. split; auto. apply E4. auto.
  - intros key' ss' K1' E1' S'. destruct (get_coef_sl_spec plan sh r key' Hl K1') as (ss2 & F1 & _ & _ & F4).
    assert (ss2 = ss') by congruence. subst ss2. apply F4 in S' as (_ & S').
    assert (Hpos : forall s, In s plan -> Forall (fun l => 1 <= l) (fs_lens s sh)) by (intros s Hs; apply (Hpl s Hs)).
    clear -K1 K2 K1' S' Hpos. revert key' K1' S'. revert K1. induction K2 as [|s j plan key Hj K2 IH]; intros K1 key' K1' S'.
    + inversion S'. reflexivity.
    + destruct key' as [|j' key']; [inversion S'|]. inversion K1 as [|? ? ? ? A1 A2]; subst. inversion K1' as [|? ? ? ? B1 B2]; subst. inversion S' as [|? ? ? ? D1 D2]; subst.
      f_equal.
      * assert (Z.to_nat j' = Z.to_nat j); [|lia]. apply (tile_once (fs_lens s sh) (nthz (fs_ax s) idx)); auto; try (rewrite fs_lens_length; lia). apply Hpos. left. auto.
      * apply IH; auto. intros. apply Hpos. right. auto.
Qed.

(** Different keys never share an entry. *)
Lemma fs_disjoint plan sh r key key' ss ss' idx : layout plan sh r -> is_key plan key -> is_key plan key' -> key <> key' ->
  get_coef_sl r (map NInt key) = Ok ss -> get_coef_sl r (map NInt key') = Ok ss' ->
  selects ss (nshape (fs_coeffs r)) idx -> selects ss' (nshape (fs_coeffs r)) idx -> False.
Proof.
  intros Hl K K' Hne E E' S S'. pose proof (selects_valid _ _ _ S) as V.
  destruct (fs_partition plan sh r idx Hl V) as (k0 & s0 & _ & U). apply Hne. rewrite (U key ss), (U key' ss'); auto.
Qed.

(** ** Writing *)
Definition with_coeffs (r : fsw) (c : nd C) : fsw := mkFsw c (fs_slices r) (fs_wavelets r) (fs_modes r) (fs_axes r).
Lemma layout_with plan sh r c : layout plan sh r -> nd_wf c -> nshape c = nshape (fs_coeffs r) -> layout plan sh (with_coeffs r c).
Proof. intros (H1 & H2 & H3 & H4 & H5 & H6) Hc Hs. unfold layout, with_coeffs. cbn [fs_coeffs fs_slices fs_axes]. rewrite Hs. repeat (split; auto). Qed.

Lemma slice_shape y ss (z : nd C) : within ss (nshape y) -> nd_slice C y ss = Ok z -> nshape z = extent ss (nshape y).
Proof. intros Hw H. unfold nd_slice in H. rewrite region_within in H by auto. cbn [bind] in H. injection H as <-. reflexivity. Qed.

Theorem fs_set_spec plan sh r key x band : layout plan sh r -> is_key plan key -> nd_wf x ->
  fs_get r (map NInt key) = Ok band -> nshape x = nshape band ->
  exists c, fs_set r (map NInt key) x = Ok (with_coeffs r c) /\ layout plan sh (with_coeffs r c) /\
    fs_get (with_coeffs r c) (map NInt key) = Ok x /\
    forall key', is_key plan key' -> key' <> key -> fs_get (with_coeffs r c) (map NInt key') = fs_get r (map NInt key').
Proof.
  intros Hl Hk Hx Hb Hs. pose proof Hl as (Hw & _). destruct (get_coef_sl_spec plan sh r key Hl Hk) as (ss & E1 & E2 & E3 & E4).
  rewrite (fs_get_spec plan sh r key Hl Hk) in Hb. assert (Eb : band = cuts sh plan key (fs_coeffs r)) by congruence. subst band.
  set (w := (ss, x)).
  assert (Hf : fits C (nshape (fs_coeffs r)) w).
  { split; [exact E2|]. split; [exact Hx|]. cbn [snd w fst]. rewrite Hs. apply (slice_shape (fs_coeffs r)); auto. }
  pose proof (put_wf C (fs_coeffs r) w (proj1 Hw)) as (Pw & Ps).
  set (c := put C (fs_coeffs r) w) in *.
  assert (Hl' : layout plan sh (with_coeffs r c)) by (apply layout_with; auto).
  assert (Esl : forall key', get_coef_sl (with_coeffs r c) (map NInt key') = get_coef_sl r (map NInt key')).
  { intros key'. unfold get_coef_sl, with_coeffs. cbn [fs_coeffs fs_axes fs_slices]. rewrite Ps. reflexivity. }
  exists c. split; [|split; [exact Hl'|split]].
  - unfold fs_set. rewrite (validate_ok plan sh r key) by auto. cbn [bind]. rewrite E1. cbn [bind]. unfold fs_assign. rewrite E3. cbn [bind].
    destruct (list_eq_dec Z.eq_dec (nshape (cuts sh plan key (fs_coeffs r))) (nshape x)) as [_|E]; [|congruence].
    change (nd_set C (fs_coeffs r) ss x) with (nd_set C (fs_coeffs r) (fst w) (snd w)). rewrite (nd_set_put C (fs_coeffs r) w) by (auto; apply Hw). reflexivity.
  - unfold fs_get. rewrite (validate_ok plan sh _ key) by auto. cbn [bind]. rewrite Esl, E1. cbn [bind]. change (fs_coeffs (with_coeffs r c)) with (writes C (fs_coeffs r) [w]).
    apply (slice_writes C [w] (fs_coeffs r) w); [apply Hw|repeat constructor; apply Hf|repeat constructor|left; auto].
  - intros key' Hk' Hne. unfold fs_get. rewrite !(validate_ok plan sh _ key') by auto. cbn [bind]. rewrite Esl.
    destruct (get_coef_sl_spec plan sh r key' Hl Hk') as (ss' & F1 & F2 & F3 & F4). rewrite F1. cbn [bind].
    change (fs_coeffs (with_coeffs r c)) with c. unfold nd_slice. rewrite Ps, region_within by auto. cbn [bind]. f_equal.
    pose proof (extent_ok ss' _ F2) as He. apply ndtab_ext; [exact He|]. intros idx V.
    destruct (off_valid ss' _ idx F2 V) as (S & _).
    apply (get_put C (fs_coeffs r) w); [eapply selects_valid; eauto|auto|].
    intros S2. eapply fs_disjoint with (key := key') (key' := key); eauto.
Qed.

Theorem fs_set_shape plan sh r key x : layout plan sh r -> is_key plan key ->
  nshape x <> nshape (cuts sh plan key (fs_coeffs r)) -> fs_set r (map NInt key) x = Err ValueError.
Proof.
  intros Hl Hk Hs. destruct (get_coef_sl_spec plan sh r key Hl Hk) as (ss & E1 & E2 & E3 & E4).
  unfold fs_set. rewrite (validate_ok plan sh r key) by auto. cbn [bind]. rewrite E1. cbn [bind]. unfold fs_assign. rewrite E3. cbn [bind].
  destruct (list_eq_dec Z.eq_dec (nshape (cuts sh plan key (fs_coeffs r))) (nshape x)) as [E|_]; [congruence|reflexivity].
Qed.

(** [approx] is the sub-band of the zero key. *)
Lemma coef_sl_zeros n axes : forall k sls acc, (List.length axes <= k)%nat ->
  coef_sl n axes (repeat (NInt 0) k) sls acc = coef_sl n axes (map NInt (repeat 0 (List.length axes))) sls acc.
Proof.
  induction axes as [|ax axes IH]; intros k sls acc H; cbn in H.
  - cbn [coef_sl List.length repeat map]. destruct k; reflexivity.
  - destruct k as [|k]; [lia|]. cbn [repeat List.length map coef_sl]. destruct sls; auto. destruct (level_slice l (NInt 0)); cbn [bind]; auto.
    destruct ((ax <? - n) || (n <=? ax)); auto. apply IH. lia.
Qed.

Lemma zero_key (plan : list fstep) : is_key plan (repeat 0 (List.length plan)).
Proof. induction plan; cbn; constructor; auto. lia. Qed.

Lemma plan_le sh (plan : list fstep) : NoDup (map fs_ax plan) -> (forall s, In s plan -> (fs_ax s < List.length sh)%nat) -> (List.length plan <= List.length (sh : list Z))%nat.
Proof.
  intros Hn H. rewrite <- (map_length fs_ax plan), <- (seq_length (List.length sh) 0). apply NoDup_incl_length; auto.
  intros k Hk. apply in_map_iff in Hk as (s & <- & Hs). apply in_seq. specialize (H s Hs). lia.
Qed.

Theorem fs_approx_spec plan sh r : layout plan sh r -> fs_approx r = fs_get r (map NInt (repeat 0 (List.length plan))).
Proof.
  intros Hl. unfold fs_approx, fs_get. rewrite (validate_ok plan sh) by (auto; apply zero_key). cbn [bind].
  pose proof Hl as (_ & Hsh & _ & Ha & Hnd & Hpl).
  unfold get_coef_sl, zeros. rewrite <- (Forall2_length _ _ _ Ha). rewrite <- coef_sl_zeros with (k := List.length (nshape (fs_coeffs r))); auto.
  rewrite (Forall2_length _ _ _ Ha). unfold zlen in Hsh. assert (List.length (nshape (fs_coeffs r)) = List.length sh) by lia.
  rewrite H. apply plan_le; auto. intros s Hs. apply (Hpl s Hs).
Qed.

(** ** What the sub-bands of fswavedecn hold *)
Lemma linop_piece o l N : 0 <= l -> linop C N l (piece C o l).
Proof.
  intros Hl. split; [intros; apply zlen_piece; auto|]. intros. apply piece_vlin. lia.
Qed.

Lemma piece_concat (L : list (list C)) : forall j, (j < List.length L)%nat ->
  piece C (sum_of (firstn j (map zlen L))) (nth j (map zlen L) 0) (List.concat L) = nth j L [].
Proof.
  induction L as [|a L IH]; intros j Hj; cbn in Hj; [lia|]. cbn [map List.concat]. destruct j as [|j]; cbn [firstn nth].
  - change (sum_of []) with 0. rewrite piece_app_l by lia. apply piece_all.
  - change (sum_of (zlen a :: firstn j (map zlen L))) with (zlen a + sum_of (firstn j (map zlen L))). rewrite <- (IH j) by lia.
    assert (0 <= sum_of (firstn j (map zlen L))).
    { clear. revert j. induction L as [|b L IH]; intros [|j]; cbn [map firstn]; try (unfold sum_of; cbn; lia).
      change (sum_of (zlen b :: firstn j (map zlen L))) with (zlen b + sum_of (firstn j (map zlen L))). pose proof (zlen_nonneg b). specialize (IH j). lia. }
    unfold piece. apply tab_ext. intros i Hi. rewrite gz_app. replace (zlen a + sum_of (firstn j (map zlen L)) + i <? zlen a) with false by lia. f_equal. lia.
Qed.

Lemma cut_stack fuel B (s : fstep) j (z : nd C) sh : nd_wf z -> fstep_good C fuel B (nshape z) s -> fs_lens s sh = fs_lens s (nshape z) -> 0 <= j <= Z.of_nat (fs_lev s) ->
  cut sh s j (stack_ax s z) = sub_ax s j z.
Proof.
  intros Hz Hg El Hj. pose proof Hg as (A1 & A2 & A3 & A4 & _). pose proof (fs_lens_pos C fuel B _ _ Hg) as Hp.
  assert (Hjn : (Z.to_nat j < List.length (fs_lens s (nshape z)))%nat) by (rewrite fs_lens_length; lia).
  destruct (tile_bounds _ _ Hp Hjn) as (T1 & T2 & T3).
  unfold cut, stack_ax, sub_ax, tile. cbn [fst snd]. rewrite El.
  rewrite along_along; auto; try lia.
  - apply along_ext; auto; [lia|]. intros v Hv. unfold stacked. unfold fs_lens. rewrite <- Hv.
    rewrite <- zlen_multi by (auto; lia). apply piece_concat.
    rewrite <- (map_length zlen), zlen_multi by (auto; lia). rewrite Hv. exact Hjn.
  - intros v Hv. rewrite zlen_stacked by (auto; lia). rewrite Hv. reflexivity.
Qed.

Lemma cut_all_comm fuel plan B sh (s : fstep) j (z : nd C) : nd_wf z -> (fs_ax s < List.length (nshape z))%nat -> ~ In (fs_ax s) (map fs_ax plan) ->
  0 <= snd (tile sh s j) -> fsw_good C fuel B (nshape z) plan -> cut sh s j (stack_all plan z) = stack_all plan (cut sh s j z).
Proof.
  intros Hz Ha Hni Hl Hg. unfold cut. apply (along_stack_all_comm C fuel (fun _ => @r0 C) _ _ _ plan B); auto. apply linop_piece. auto.
Qed.

Lemma cuts_stack fuel plan : forall B sh key (z : nd C), nd_wf z -> fsw_good C fuel B (nshape z) plan ->
  (forall s, In s plan -> fs_lens s sh = fs_lens s (nshape z)) -> is_key plan key ->
  cuts sh plan key (stack_all plan z) = sub_all plan key z.
Proof.
  induction plan as [|s plan IH]; intros B sh key z Hz Hg El Hk.
  - reflexivity.
  - destruct key as [|j key]; [inversion Hk|]. assert (Hk1 : 0 <= j <= Z.of_nat (fs_lev s)) by (inversion Hk; auto). assert (Hk2 : is_key plan key) by (inversion Hk; auto).
    pose proof (fsw_good_tail _ _ _ _ _ _ Hg) as (Hg' & Hni & Hs). pose proof Hs as (A1 & A2 & A3 & A4 & _ & A6 & A7).
    pose proof (fs_lens_pos C fuel B _ _ Hs) as Hp.
    assert (Hjn : (Z.to_nat j < List.length (fs_lens s (nshape z)))%nat) by (rewrite fs_lens_length; lia).
    destruct (tile_bounds _ _ Hp Hjn) as (T1 & T2 & T3).
    assert (Els : fs_lens s sh = fs_lens s (nshape z)) by (apply El; left; auto).
    unfold cuts, sub_all. cbn [combine fold_left fst snd]. fold (cuts sh plan key (cut sh s j (stack_all (s :: plan) z))). fold (sub_all plan key (sub_ax s j z)).
    assert (Wst : nd_wf (stack_ax s z)) by (eapply stack_ax_wf; eauto).
    cbn [stack_all fold_left]. fold (stack_all plan (stack_ax s z)).
    rewrite (cut_all_comm fuel plan B); auto.
    + rewrite (cut_stack fuel B) by auto.
      assert (Sb : nshape (sub_ax s j z) = setn (fs_ax s) (nth (Z.to_nat j) (fs_lens s (nshape z)) 0) (nshape z)) by apply along_shape.
      apply (IH B); auto.
      * apply along_wf; auto. lia.
      * rewrite Sb. apply (fsw_good_setn C fuel (fun _ => @r0 C)); auto. lia.
      * intros s' Hs'. rewrite Sb, fs_lens_setn; [apply El; right; auto|]. intros E. apply Hni. rewrite E. apply in_map. auto.
    + rewrite stack_ax_shape, setn_length. auto.
    + unfold tile. cbn [snd]. rewrite Els. lia.
    + apply (fsw_good_stack C fuel (fun _ => @r0 C)). auto.
Qed.

Lemma result_layout fuel sh axes levels plan B (x : nd C) : nd_wf x -> nshape x = sh -> asks C sh (default_axes (zlen sh) axes) levels plan -> fsw_good C fuel B sh plan ->
  layout plan sh (fsw_result C sh axes plan x).
Proof.
  intros Hx Hsh (Ha & _) Hg. pose proof Hg as (_ & _ & _ & _ & _ & Hnd & Hst). unfold layout, fsw_result. cbn [fs_coeffs fs_slices fs_axes].
  split; [apply (stack_all_wf C fuel (fun _ => @r0 C) plan B); auto; rewrite Hsh; auto|]. split; [unfold zlen; rewrite stack_all_len, Hsh; auto|].
  split; auto. split; auto. split; auto. intros s Hs. destruct (Hst s Hs) as (A1 & A2 & A3 & _). split; auto. split; [apply multi_lens_pos; auto; apply A2|].
  clear -Hs Hg Hsh. subst sh. revert x Hg. induction plan as [|q plan IH]; intros x Hg; [destruct Hs|].
  pose proof (fsw_good_tail _ _ _ _ _ _ Hg) as (Hg' & Hni & Hq). cbn [stack_all fold_left]. fold (stack_all plan (stack_ax q x)). destruct Hs as [<-|Hs].
  - rewrite stack_all_nth by auto. rewrite stack_ax_shape, nthz_setn; auto. apply Hq.
  - rewrite (IH Hs (stack_ax q x)) by (apply (fsw_good_stack C fuel (fun _ => @r0 C)); auto). rewrite stack_ax_shape, fs_lens_setn; auto.
    intros E. apply Hni. rewrite E. apply in_map. auto.
Qed.

Theorem fsw_bands fuel junk (data : sarr C) w m levels axes plan B key : sarr_ok C data -> fsw_resolves C (sshape data) w m levels axes plan ->
  fsw_good C fuel B (sshape data) plan -> is_key plan key ->
  exists r, fswavedecn fuel junk data w m levels axes = Ok r /\ layout plan (sshape data) r /\ fs_get r (map NInt key) = Ok (sub_all plan key (val C data)).
Proof.
  intros Hd Hr Hg Hk. exists (fsw_result C (sshape data) axes plan (val C data)). pose proof Hr as (Ha & _). pose proof (val_wf C data Hd) as W.
  assert (Hl : layout plan (sshape data) (fsw_result C (sshape data) axes plan (val C data))) by (eapply result_layout; eauto).
  split; [eapply fswavedecn_spec; eauto|]. split; auto.
  rewrite (fs_get_spec plan (sshape data)) by auto. f_equal. eapply cuts_stack; eauto.
Qed.

End FB.

(** ** detail_keys *)
Lemma product_in ls : forall key, In key (product ls) <-> Forall2 (fun l i => In i l) ls key.
Proof.
  induction ls as [|l ls IH]; intros key; cbn [product].
  - split; [intros [<-|[]]; constructor|intros H; inversion H; left; auto].
  - rewrite in_flat_map. split.
    + intros (i & Hi & Hk). apply in_map_iff in Hk as (k' & <- & Hk'). constructor; auto. apply IH. auto.
    + intros H. inversion H as [|? i ? k' Hi Hk]; subst. exists i. split; auto. apply in_map. apply IH. auto.
Qed.
Lemma product_nodup ls : Forall (@NoDup Z) ls -> NoDup (product ls).
Proof.
  induction 1 as [|l ls Hl Hls IH]; cbn [product]; [repeat constructor; intros []|].
  induction Hl as [|i l Hi Hl IHl]; cbn [flat_map]; [constructor|]. apply NoDup_app_i; auto.
  - apply NoDup_map_inj; auto. intros x y _ _ Ee. congruence.
  - intros k H1 H2. apply in_map_iff in H1 as (k1 & <- & _). apply in_flat_map in H2 as (i2 & Hi2 & H2). apply in_map_iff in H2 as (k2 & E & _).
    assert (i2 = i) by congruence. subst. auto.
Qed.
Lemma remove_first_in k l : In k l -> exists l', remove_first k l = Ok l' /\ Permutation l (k :: l').
Proof.
  induction l as [|x l IH]; intros H; [destruct H|]. cbn [remove_first]. destruct (list_eq_dec Z.eq_dec x k) as [->|Hne].
  - exists l. auto.
  - destruct IH as (l' & E & P); [destruct H; [congruence|auto]|]. rewrite E. cbn [bind]. exists (x :: l'). split; auto. rewrite P. apply perm_swap.
Qed.
Lemma tinsert_perm k l : Permutation (tinsert k l) (k :: l).
Proof. induction l as [|x l IH]; cbn [tinsert]; auto. destruct (lex_lt x k); auto. rewrite IH. apply perm_swap. Qed.
Lemma tsort_perm l : Permutation (tsort l) l.
Proof. induction l as [|x l IH]; cbn [tsort fold_right]; auto. fold (tsort l). rewrite tinsert_perm. auto. Qed.
Lemma lex_total a : forall b, lex_lt a b = false -> lex_lt b a = false -> List.length a = List.length b -> a = b.
Proof.
  induction a as [|x a IH]; intros [|y b] H1 H2 L; cbn in *; auto; try lia. destruct (Z.eqb_spec x y) as [->|Hne].
  - rewrite Z.eqb_refl in H2. f_equal. apply IH; auto.
  - destruct (Z.eqb_spec y x); [congruence|]. lia.
Qed.
Definition lex_le (a b : list Z) : Prop := lex_lt b a = false.
Lemma lex_asym a : forall b, lex_lt a b = true -> lex_lt b a = false.
Proof.
  induction a as [|x a IH]; intros [|y b] H; cbn in *; try congruence. destruct (Z.eqb_spec x y) as [->|Hne].
  - rewrite Z.eqb_refl. auto.
  - destruct (Z.eqb_spec y x); [congruence|]. lia.
Qed.
Lemma tinsert_sorted k l : Sorted lex_le l -> Sorted lex_le (tinsert k l).
Proof.
  induction 1 as [|x l Hs IH Hh]; cbn [tinsert]; [repeat constructor|]. destruct (lex_lt x k) eqn:E.
  - constructor; auto. destruct l as [|y l]; cbn [tinsert] in *; [constructor; apply lex_asym; auto|].
    inversion Hh; subst. destruct (lex_lt y k); constructor; auto. apply lex_asym. auto.
  - constructor; [constructor; auto|]. constructor. exact E.
Qed.
Lemma tsort_sorted l : Sorted lex_le (tsort l).
Proof. induction l as [|x l IH]; cbn [tsort fold_right]; [constructor|]. apply tinsert_sorted. auto. Qed.

Theorem detail_keys_spec (C : CRing) plan sh (r : fsw (C := C)) : layout C plan sh r ->
  exists keys, detail_keys r = Ok keys /\ NoDup keys /\ Sorted lex_le keys /\
    forall key, In key keys <-> is_key plan key /\ key <> repeat 0 (List.length plan).
Proof.
  intros Hl. unfold detail_keys. rewrite (layout_levels _ _ _ _ Hl). pose proof Hl as (_ & _ & _ & Ha & _). rewrite (Forall2_length _ _ _ Ha).
  set (P := product _).
  assert (HP : forall key, In key P <-> is_key plan key).
  { intros key. unfold P. rewrite product_in, map_map. clear. unfold is_key. revert key. induction plan as [|s plan IH]; intros key; cbn [map].
    - split; intros H; inversion H; constructor.
    - split; intros H; inversion H as [|? j ? key' Hj Hk]; subst; (constructor; [|apply IH; auto]); apply in_tab_id in Hj || apply in_tab_id; lia. }
  assert (HN : NoDup P).
  { apply product_nodup. apply Forall_forall. intros l Hi. apply in_map_iff in Hi as (n & <- & _). apply nodup_tab_id. }
  destruct (remove_first_in (repeat 0 (List.length plan)) P) as (l' & E & Pm); [apply HP; apply zero_key|].
  rewrite E. cbn [bind]. exists (tsort l'). split; auto.
  assert (HN' : NoDup (repeat 0 (List.length plan) :: l')) by (eapply Permutation_NoDup; eauto). inversion HN' as [|? ? N1 N2]; subst.
  split; [eapply Permutation_NoDup; [symmetry; apply tsort_perm|auto]|]. split; [apply tsort_sorted|].
  intros key. rewrite <- HP. split.
  - intros Hi. assert (Hi' : In key l') by (eapply Permutation_in; [apply tsort_perm|auto]). split.
    + eapply Permutation_in; [symmetry; exact Pm|]. right. auto.
    + intros ->. auto.
  - intros (Hi & Hne). eapply Permutation_in; [symmetry; apply tsort_perm|]. assert (Hi' : In key (repeat 0 (List.length plan) :: l')) by (eapply Permutation_in; eauto).
    destruct Hi' as [<-|Hi']; [congruence|auto].
Qed.

(** Axes that are not acceptable. *)
Theorem fswavedecn_axes (C : CRing) fuel junk (data : sarr C) w m levels axes :
  (~ NoDup axes \/ exists ax, In ax axes /\ (ax < - ndim data \/ ndim data <= ax)) ->
  fswavedecn fuel junk data w m levels (Some axes) = Err AxisError.
Proof.
  intros H. unfold fswavedecn. cbv zeta.
  replace (check_fsw_axes (sshape data) axes) with (Err AxisError : res unit); [reflexivity|]. unfold check_fsw_axes.
  destruct (Nat.eqb_spec (List.length axes) (distinct axes)) as [E|E]; [|reflexivity]. cbn [negb].
  destruct H as [H|H]; [exfalso; apply H; apply distinct_NoDup_inv; auto|].
  assert (G : mapM (axis_size (sshape data)) axes = Err AxisError); [|rewrite G; reflexivity].
  destruct H as (ax & Hi & Hr). clear E. induction axes as [|b axes IH]; [destruct Hi|]. cbn [mapM]. unfold axis_size at 1, py_index.
  unfold ndim in Hr. destruct ((b <? - zlen (sshape data)) || (zlen (sshape data) <=? b)) eqn:Eb; [reflexivity|]. cbn [bind].
  destruct Hi as [->|Hi]; [lia|]. rewrite IH by auto. reflexivity.
Qed.
