(** Reading and writing rectangular parts of arrays. *)
From Coq Require Import Ascii String Permutation.
From Verif Require Import Base BaseLemmas Dwt Nd Swt AxisProofs Multidim PackSpec Packing.
Open Scope Z_scope.

(** An index within the bounds of a shape. *)
Fixpoint within (ss : list sl) (sh : list Z) : Prop :=
  match ss, sh with
  | [], [] => True
  | SAll :: ss', n :: sh' => 0 <= n /\ within ss' sh'
  | SRange a b :: ss', n :: sh' => 0 <= a <= b /\ b <= n /\ within ss' sh'
  | _, _ => False
  end.
Fixpoint box (ss : list sl) (sh : list Z) : list (Z * Z) :=
  match ss, sh with
  | SAll :: ss', n :: sh' => (0, n) :: box ss' sh'
  | SRange a b :: ss', n :: sh' => (a, b - a) :: box ss' sh'
  | _, _ => []
  end.
Definition extent (ss : list sl) (sh : list Z) : list Z := map snd (box ss sh).

Lemma within_shape ss : forall sh, within ss sh -> shape_ok sh.
Proof. induction ss as [|[|a b] ss IH]; intros [|n sh] H; cbn in H; try tauto; constructor; try lia; apply IH; tauto. Qed.
Lemma within_len ss : forall sh, within ss sh -> List.length ss = List.length sh.
Proof. induction ss as [|[|a b] ss IH]; intros [|n sh] H; cbn in H; try tauto; cbn; f_equal; apply IH; tauto. Qed.

Lemma region_within ss : forall sh, within ss sh -> region sh ss = Ok (box ss sh).
Proof.
  induction ss as [|[|a b] ss IH]; intros [|n sh] H; cbn in H; try tauto; cbn; rewrite IH by tauto; cbn; auto.
  rewrite !Z.min_l by lia. rewrite Z.max_r by lia. reflexivity.
Qed.

Lemma inside_selects ss : forall sh idx, within ss sh -> valid sh idx -> (inside (box ss sh) idx = true <-> selects ss sh idx).
Proof.
  induction ss as [|[|a b] ss IH]; intros [|n sh] [|i idx] H V; cbn in H, V; try tauto; cbn.
  - tauto.
  - rewrite andb_true_iff, IH by tauto. rewrite andb_true_iff, Z.leb_le, Z.ltb_lt. split; intros; intuition lia.
  - rewrite andb_true_iff, IH by tauto. rewrite andb_true_iff, Z.leb_le, Z.ltb_lt. split; intros; intuition lia.
Qed.

Lemma selects_valid ss : forall sh idx, selects ss sh idx -> valid sh idx.
Proof.
  induction ss as [|s ss IH].
  - induction sh as [|n sh IHs]; intros [|i idx] H; cbn in *; try tauto. split; [tauto|apply IHs; tauto].
  - intros [|n sh] [|i idx] H; cbn in *; try tauto; try discriminate. destruct s; intuition.
Qed.

Lemma extent_ok ss : forall sh, within ss sh -> shape_ok (extent ss sh).
Proof. unfold extent. induction ss as [|[|a b] ss IH]; intros [|n sh] H; cbn in H; try tauto; cbn; constructor; try (cbn; lia); apply IH; tauto. Qed.

Lemma off_valid ss : forall sh idx, within ss sh -> valid (extent ss sh) idx ->
  selects ss sh (off (box ss sh) idx) /\ sub (box ss sh) (off (box ss sh) idx) = idx.
Proof.
  unfold extent. induction ss as [|[|a b] ss IH]; intros [|n sh] [|i idx] H V; cbn in H, V; try tauto; cbn.
  - auto.
  - destruct (IH sh idx) as (H1 & H2); try tauto. rewrite H2. split; [split; [lia|auto]|f_equal; lia].
  - destruct (IH sh idx) as (H1 & H2); try tauto. rewrite H2. split; [split; [lia|auto]|f_equal; lia].
Qed.
Lemma sub_valid ss : forall sh idx, within ss sh -> selects ss sh idx ->
  valid (extent ss sh) (sub (box ss sh) idx) /\ off (box ss sh) (sub (box ss sh) idx) = idx.
Proof.
  unfold extent. induction ss as [|[|a b] ss IH]; intros [|n sh] [|i idx] H V; cbn in H, V; try tauto; cbn.
  - destruct (IH sh idx) as (H1 & H2); try tauto. rewrite H2. split; [split; [lia|auto]|f_equal; lia].
  - destruct (IH sh idx) as (H1 & H2); try tauto. rewrite H2. split; [split; [lia|auto]|f_equal; lia].
Qed.

Lemma bcast_idx_valid ds : forall idx, valid ds idx -> bcast_idx ds idx = idx.
Proof.
  induction ds as [|d ds IH]; intros [|i idx] H; cbn in *; try tauto. rewrite IH by tauto. f_equal.
  destruct (Z.eqb_spec d 1); lia.
Qed.
Lemma bcast_same ds : bcast ds ds = Ok (fun idx => bcast_idx ds idx).
Proof.
  unfold bcast. rewrite Nat.sub_diag. cbn [firstn forallb andb repeat app skipn].
  replace (bcast_ok ds ds) with true; [reflexivity|].
  induction ds as [|d ds IH]; cbn; auto. rewrite Z.eqb_refl. cbn. auto.
Qed.

Section B.
Variable C : CRing.
Local Notation nd := (nd C).

(** The writes that fit exactly. *)
Definition put (a : nd) (w : list sl * nd) : nd :=
  ndtab (nshape a) (fun idx => if inside (box (fst w) (nshape a)) idx then ndget (snd w) (sub (box (fst w) (nshape a)) idx) else ndget a idx).
Definition fits (sh : list Z) (w : list sl * nd) : Prop :=
  within (fst w) sh /\ nd_wf (snd w) /\ nshape (snd w) = extent (fst w) sh.

Lemma nd_set_put a w : shape_ok (nshape a) -> fits (nshape a) w -> nd_set C a (fst w) (snd w) = Ok (put a w).
Proof.
  destruct w as (ss, d). unfold fits, nd_set, put. cbn [fst snd]. intros Hok (H1 & H2 & H3). rewrite region_within by auto. cbn [bind].
  fold (extent ss (nshape a)). rewrite H3, bcast_same. cbn [bind]. f_equal. apply ndtab_ext; auto.
  intros idx V. destruct (inside _ idx) eqn:E; [|reflexivity]. apply inside_selects in E; auto.
  rewrite bcast_idx_valid; [reflexivity|]. apply sub_valid; auto.
Qed.
Lemma put_wf a w : shape_ok (nshape a) -> nd_wf (put a w) /\ nshape (put a w) = nshape a.
Proof. intros H. split; [apply ndtab_wf; auto|reflexivity]. Qed.
Lemma get_put a w idx : valid (nshape a) idx -> fits (nshape a) w ->
  (selects (fst w) (nshape a) idx -> ndget (put a w) idx = ndget (snd w) (sub (box (fst w) (nshape a)) idx)) /\
  (~ selects (fst w) (nshape a) idx -> ndget (put a w) idx = ndget a idx).
Proof.
  intros V (H & _). unfold put. rewrite ndget_ndtab by auto. destruct (inside _ idx) eqn:E; apply conj; intros S; auto.
  - exfalso. apply S. apply inside_selects; auto.
  - apply inside_selects in S; auto. congruence.
Qed.

(** Writes to disjoint parts. *)
Definition apart (sh : list Z) (w v : list sl * nd) : Prop := forall idx, selects (fst w) sh idx -> selects (fst v) sh idx -> False.
Definition writes (a : nd) (ws : list (list sl * nd)) : nd := fold_left put ws a.

Lemma writes_shape ws : forall a, nshape (writes a ws) = nshape a.
Proof. induction ws as [|w ws IH]; intros a; [reflexivity|]. apply (IH (put a w)). Qed.
Lemma writes_wf ws : forall a, nd_wf a -> nd_wf (writes a ws).
Proof. induction ws as [|w ws IH]; intros a H; [exact H|]. apply (IH (put a w)). apply put_wf. apply H. Qed.

Lemma writes_outside ws : forall a idx, shape_ok (nshape a) -> Forall (fits (nshape a)) ws -> valid (nshape a) idx ->
  (forall w, In w ws -> ~ selects (fst w) (nshape a) idx) -> ndget (writes a ws) idx = ndget a idx.
Proof.
  induction ws as [|w ws IH]; intros a idx Ho Hf V H; cbn; auto. apply Forall_cons_iff in Hf. destruct Hf as (Hw & Hf).
  fold (writes (put a w) ws). rewrite IH; cbn; auto.
  - apply get_put; auto. apply H. cbn. auto.
  - intros v Hv. apply H. cbn. auto.
Qed.

Lemma writes_inside ws : forall a, shape_ok (nshape a) -> Forall (fits (nshape a)) ws -> ForallOrdPairs (apart (nshape a)) ws ->
  forall w idx, In w ws -> selects (fst w) (nshape a) idx ->
  ndget (writes a ws) idx = ndget (snd w) (sub (box (fst w) (nshape a)) idx).
Proof.
  induction ws as [|v ws IH]; intros a Ho Hf Hp w idx Hi S; [destruct Hi|]. apply Forall_cons_iff in Hf. destruct Hf as (Hv & Hf).
  inversion Hp as [|? ? P1 P2]; subst. cbn. fold (writes (put a v) ws). pose proof (selects_valid _ _ _ S) as V.
  destruct Hi as [<-|Hi].
  - rewrite writes_outside; cbn; auto.
    + apply get_put; auto.
    + intros w Hw S2. rewrite Forall_forall in P1. exact (P1 w Hw idx S S2).
  - rewrite (IH (put a v)) with (w := w); auto.
Qed.

Lemma slice_writes ws a w : shape_ok (nshape a) -> Forall (fits (nshape a)) ws -> ForallOrdPairs (apart (nshape a)) ws -> In w ws ->
  nd_slice C (writes a ws) (fst w) = Ok (snd w).
Proof.
  intros Ho Hf Hp Hi. assert (Hw : fits (nshape a) w) by (rewrite Forall_forall in Hf; auto). destruct Hw as (H1 & H2 & H3).
  unfold nd_slice. rewrite writes_shape, region_within by auto. cbn [bind]. f_equal. fold (extent (fst w) (nshape a)).
  pose proof (extent_ok (fst w) (nshape a) H1) as He.
  apply nd_ext; auto.
  - apply ndtab_wf. auto.
  - intros idx V. cbn [nshape ndtab] in V. rewrite ndget_ndtab by auto.
    destruct (off_valid (fst w) (nshape a) idx H1 V) as (S & E).
    rewrite (writes_inside ws a Ho Hf Hp w _ Hi S). rewrite E. reflexivity.
Qed.

(** ** Counting *)
Definition indices (sh : list Z) : list (list Z) := map (unravel sh) (tab (prodZ sh) (fun i => i)).
Definition places (sh : list Z) (w : list sl * nd) : list Z := map (fun idx => ravel sh (off (box (fst w) sh) idx)) (indices (nshape (snd w))).

Lemma in_tab_id n i : In i (tab n (fun i => i)) <-> 0 <= i < n.
Proof.
  unfold tab. rewrite in_map_iff. split.
  - intros (x & <- & H). apply in_seq in H. lia.
  - intros H. exists (Z.to_nat i). split; [lia|]. apply in_seq. lia.
Qed.
Lemma nodup_tab_id n : NoDup (tab n (fun i => i)).
Proof. unfold tab. apply FinFun.Injective_map_NoDup; [|apply seq_NoDup]. intros x y. lia. Qed.

Lemma in_indices sh idx : shape_ok sh -> In idx (indices sh) -> valid sh idx.
Proof. intros Ho H. apply in_map_iff in H. destruct H as (i & <- & Hi). apply in_tab_id in Hi. apply unravel_valid; auto. Qed.

Lemma NoDup_app_i {A} (l1 l2 : list A) : NoDup l1 -> NoDup l2 -> (forall x, In x l1 -> In x l2 -> False) -> NoDup (l1 ++ l2).
Proof.
  induction 1 as [|x l H1 H2 IH]; intros Hn Hd; cbn; auto. constructor.
  - intros Hi. apply in_app_or in Hi. destruct Hi; auto. apply (Hd x); cbn; auto.
  - apply IH; auto. intros y Hy. apply Hd. cbn. auto.
Qed.
Lemma NoDup_map_inj {A B} (f : A -> B) l : (forall x y, In x l -> In y l -> f x = f y -> x = y) -> NoDup l -> NoDup (map f l).
Proof.
  induction l as [|x l IH]; intros Hf Hn; cbn; [constructor|]. apply NoDup_cons_iff in Hn. destruct Hn as (H1 & H2). constructor.
  - intros Hi. apply in_map_iff in Hi. destruct Hi as (y & E & Hy). apply Hf in E; cbn; auto. subst. auto.
  - apply IH; auto. intros; apply Hf; cbn; auto.
Qed.

Lemma indices_nodup sh : shape_ok sh -> NoDup (indices sh).
Proof.
  intros Ho. apply NoDup_map_inj; [|apply nodup_tab_id]. intros x y Hx Hy E. apply in_tab_id in Hx, Hy.
  rewrite <- (ravel_unravel sh Ho x Hx), <- (ravel_unravel sh Ho y Hy). congruence.
Qed.

Lemma places_spec sh w : fits sh w ->
  NoDup (places sh w) /\ zlen (places sh w) = prodZ (nshape (snd w)) /\
  forall i, In i (places sh w) -> exists idx, selects (fst w) sh idx /\ i = ravel sh idx.
Proof.
  intros (H1 & (H2 & H2') & H3). assert (He : shape_ok (nshape (snd w))) by auto. split; [|split].
  - apply NoDup_map_inj; [|apply indices_nodup; auto]. intros x y Hx Hy E. apply in_indices in Hx, Hy; auto. rewrite H3 in Hx, Hy.
    destruct (off_valid (fst w) sh x H1 Hx) as (S1 & E1). destruct (off_valid (fst w) sh y H1 Hy) as (S2 & E2).
    apply selects_valid in S1, S2. pose proof (f_equal (unravel sh) E) as F. rewrite !unravel_ravel in F by auto. congruence.
  - unfold places, indices. rewrite !zlen_map, zlen_tab; auto. apply prodZ_nonneg. auto.
  - intros i Hi. apply in_map_iff in Hi. destruct Hi as (idx & <- & Hi). apply in_indices in Hi; auto. rewrite H3 in Hi.
    destruct (off_valid (fst w) sh idx H1 Hi) as (S1 & _). eauto.
Qed.

Definition total (ws : list (list sl * nd)) : Z := fold_right (fun w n => prodZ (nshape (snd w)) + n) 0 ws.

Lemma all_places sh ws : Forall (fits sh) ws -> ForallOrdPairs (apart sh) ws ->
  NoDup (flat_map (places sh) ws) /\ zlen (flat_map (places sh) ws) = total ws /\
  forall i, In i (flat_map (places sh) ws) -> exists w idx, In w ws /\ selects (fst w) sh idx /\ i = ravel sh idx.
Proof.
  induction ws as [|w ws IH]; intros Hf Hp; cbn.
  - split; [constructor|]. split; [reflexivity|]. intros i [].
  - apply Forall_cons_iff in Hf. destruct Hf as (Hw & Hf). inversion Hp as [|? ? P1 P2]; subst.
    destruct (IH Hf P2) as (I1 & I2 & I3). destruct (places_spec sh w Hw) as (W1 & W2 & W3). split; [|split].
    + apply NoDup_app_i; auto. intros i Hi Hj. destruct (W3 i Hi) as (x & Sx & ->). destruct (I3 _ Hj) as (v & y & Hv & Sy & E).
      rewrite Forall_forall in P1. apply (P1 v Hv y); auto. pose proof (f_equal (unravel sh) E) as F.
      rewrite !unravel_ravel in F by (eapply selects_valid; eauto). congruence.
    + rewrite zlen_app, W2, I2. reflexivity.
    + intros i Hi. apply in_app_or in Hi. destruct Hi as [Hi|Hi].
      * destruct (W3 i Hi) as (x & Sx & ->). exists w, x. auto.
      * destruct (I3 i Hi) as (v & y & Hv & Sy & E). exists v, y. auto.
Qed.

Lemma covered sh ws : shape_ok sh -> Forall (fits sh) ws -> ForallOrdPairs (apart sh) ws -> total ws = prodZ sh ->
  forall idx, valid sh idx -> exists w, In w ws /\ selects (fst w) sh idx.
Proof.
  intros Ho Hf Hp Ht idx V. destruct (all_places sh ws Hf Hp) as (A1 & A2 & A3). pose proof (ravel_bound sh idx V) as B.
  assert (Hi : In (ravel sh idx) (flat_map (places sh) ws)).
  { assert (I : incl (tab (prodZ sh) (fun i => i)) (flat_map (places sh) ws)).
    { apply NoDup_length_incl; auto.
      - pose proof (zlen_tab (prodZ sh) (fun i => i) ltac:(lia)) as L. unfold zlen in *. lia.
      - intros i Hi. destruct (A3 i Hi) as (w & x & _ & Sx & ->). apply in_tab_id. apply ravel_bound. eapply selects_valid; eauto. }
    apply I. apply in_tab_id. auto. }
  destruct (A3 _ Hi) as (w & x & Hw & Sx & E). exists w. split; auto.
  pose proof (f_equal (unravel sh) E) as F. rewrite !unravel_ravel in F by (auto; eapply selects_valid; eauto). congruence.
Qed.
End B.
