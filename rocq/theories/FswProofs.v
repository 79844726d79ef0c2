(** fswavedecn computes the stacked decompositions; fswaverecn inverts it. *)
From Verif Require Import Base BaseLemmas CConv Spec ExtLemmas UpConv Lengths Dwt DwtProofs PR LengthsProofs Linear Multilevel MultilevelProofs
  Swt SwtSpec Nd NdSpec NdLinear Axis AxisProofs AxisProofs2 Multidim MultidimProofs MultidimFacts MultilevelNd MultilevelNdProofs SwtNd PackSpec Packing PackBox
  Fsw FswSpec FswLine FswAxis.

Lemma Forall2_length {A B} (P : A -> B -> Prop) l l' : Forall2 P l l' -> List.length l = List.length l'.
Proof. induction 1; cbn; auto. Qed.

Section FP.
Variable C : CRing.
Variable fuel : nat.
Variable junk : Z -> C.
Local Notation fstep := (fstep (C := C)).

Definition fstep_good (B sh : list Z) (s : fstep) : Prop :=
  (fs_ax s < List.length sh)%nat /\ wf_bank (fs_w s) /\
  let N := nthz (fs_ax s) sh in
  1 <= N /\ levels_ok (fs_m s) (dec_len (fs_w s)) (fs_lev s) N /\ resources fuel N (dec_len (fs_w s)) /\
  2 * Z.max N (dec_len (fs_w s)) <= nthz (fs_ax s) B /\ sum_of (fs_lens s sh) <= nthz (fs_ax s) B.
(** Plans over distinct axes with a box [B] of memory large enough for every
    intermediate array. *)
Definition fsw_good (B sh : list Z) (plan : list fstep) : Prop :=
  prodZ B < max_alloc /\ List.length B = List.length sh /\ zlen sh <= 64 /\ shape_ok sh /\ (forall k, nthz k sh <= nthz k B) /\
  NoDup (map fs_ax plan) /\ forall s, In s plan -> fstep_good B sh s.

Lemma fs_lens_setn (s : fstep) k n sh : k <> fs_ax s -> fs_lens s (setn k n sh) = fs_lens s sh.
Proof. intros H. unfold fs_lens. rewrite nthz_setn_ne by auto. reflexivity. Qed.

Lemma fs_lens_pos B sh (s : fstep) : fstep_good B sh s -> Forall (fun l => 1 <= l) (fs_lens s sh).
Proof. intros (_ & Hw & HN & _). apply multi_lens_pos; auto. apply Hw. Qed.

Lemma fsw_good_setn B sh plan k n : fsw_good B sh plan -> ~ In k (map fs_ax plan) -> 0 <= n <= nthz k B -> fsw_good B (setn k n sh) plan.
Proof.
  intros (H1 & H2 & H64 & H3 & H4 & H5 & H6) Hni Hn.
  split; auto. split; [rewrite setn_length; auto|]. split; [unfold zlen in *; rewrite setn_length; auto|].
  split; [apply shape_ok_setn; auto; lia|]. split.
  { intros j. destruct (Nat.eq_dec j k) as [->|Hne].
    - destruct (Nat.lt_ge_cases k (List.length sh)).
      + rewrite nthz_setn by auto. lia.
      + unfold nthz at 1. rewrite nth_overflow by (rewrite setn_length; lia). lia.
    - rewrite nthz_setn_ne; auto. }
  split; auto. intros s Hs. destruct (H6 s Hs) as (A1 & A2 & A3 & A4 & A5 & A6 & A7).
  assert (k <> fs_ax s) by (intros ->; apply Hni; apply in_map; auto).
  unfold fstep_good. rewrite setn_length, nthz_setn_ne, fs_lens_setn by auto. auto 10.
Qed.

Lemma fsw_good_tail B sh s plan : fsw_good B sh (s :: plan) -> fsw_good B sh plan /\ ~ In (fs_ax s) (map fs_ax plan) /\ fstep_good B sh s.
Proof.
  intros (H1 & H2 & H64 & H3 & H4 & H5 & H6). inversion H5; subst.
  split; [|split; [auto|apply H6; left; auto]].
  exact (conj H1 (conj H2 (conj H64 (conj H3 (conj H4 (conj H8 (fun s' Hs' => H6 s' (or_intror Hs')))))))).
Qed.

Lemma fsw_good_roomy B sh plan s M : fsw_good B sh plan -> M <= nthz (fs_ax s) B -> roomy (fs_ax (C := C) s) sh M.
Proof. intros (H1 & H2 & _ & H3 & H4 & _) HM l Hl. apply (box_bound fuel B); auto. lia. Qed.

Lemma stack_ax_shape (s : fstep) (x : nd C) : nshape (stack_ax s x) = setn (fs_ax s) (sum_of (fs_lens s (nshape x))) (nshape x).
Proof. apply along_shape. Qed.
Lemma stack_ax_wf B (s : fstep) (x : nd C) : nd_wf x -> fstep_good B (nshape x) s -> nd_wf (stack_ax s x).
Proof. intros Hx Hg. apply along_wf; auto. apply sum_pos. eapply fs_lens_pos; eauto. Qed.

Lemma fsw_good_stack B (x : nd C) s plan : fsw_good B (nshape x) (s :: plan) -> fsw_good B (nshape (stack_ax s x)) plan.
Proof.
  intros H. apply fsw_good_tail in H as (Hg & Hni & Hs). rewrite stack_ax_shape. apply fsw_good_setn; auto.
  split; [apply sum_pos; eapply fs_lens_pos; eauto|]. apply Hs.
Qed.

(** ** Forward *)
(** Arguments [axes] and [levels] ask for the steps of [plan]. *)
Definition asks (sh : list Z) (axes : list Z) (levels : list (option Z)) (plan : list fstep) : Prop :=
  Forall2 (fun ax s => norm_axis (zlen sh) ax = Z.of_nat (fs_ax s)) axes plan /\
  Forall2 (fun lev s => level_is (nthz (fs_ax s) sh) (dec_len (fs_w s)) lev (fs_lev s)) levels plan.

Lemma fsw_loop plan : forall B axes levels (arr : sarr C) sls, sarr_ok C arr -> fsw_good B (sshape arr) plan -> asks (sshape arr) axes levels plan ->
  exists arr', foldM (fsw_step fuel junk) (arr, sls) (combine axes (combine levels (combine (map fs_w plan) (map fs_m plan)))) =
      Ok (arr', sls ++ map (fun s => tiles 0 (fs_lens s (sshape arr))) plan) /\
    sarr_ok C arr' /\ val C arr' = stack_all plan (val C arr).
Proof.
  induction plan as [|s plan IH]; intros B axes levels arr sls Ha Hg (Hx & Hl).
  - destruct axes; inversion Hx. exists arr. cbn. rewrite app_nil_r. auto.
  - destruct axes as [|ax axes]; [inversion Hx|]. destruct levels as [|lev levels]; [inversion Hl|].
    assert (Hx1 : norm_axis (zlen (sshape arr)) ax = Z.of_nat (fs_ax s)) by (inversion Hx; auto).
    assert (Hx2 : Forall2 (fun ax s => norm_axis (zlen (sshape arr)) ax = Z.of_nat (fs_ax s)) axes plan) by (inversion Hx; auto).
    assert (Hl1 : level_is (nthz (fs_ax s) (sshape arr)) (dec_len (fs_w s)) lev (fs_lev s)) by (inversion Hl; auto).
    assert (Hl2 : Forall2 (fun lev s => level_is (nthz (fs_ax s) (sshape arr)) (dec_len (fs_w s)) lev (fs_lev s)) levels plan) by (inversion Hl; auto).
    clear Hx Hl. cbn [map combine foldM].
    pose proof (fsw_good_tail _ _ _ _ Hg) as (Hg' & Hni & Hs). pose proof Hs as (A1 & A2 & A3 & A4 & A5 & A6 & A7).
    pose proof Hg as (_ & _ & H64 & _).
    assert (W : nd_wf (val C arr)) by (apply val_wf; auto).
    rewrite fsw_step_spec; auto.
    2: { unfold fstep_ok. auto 10. }
    2: { eapply fsw_good_roomy; eauto. }
    cbn [bind].
    assert (W' : nd_wf (stack_ax s (val C arr))) by (eapply stack_ax_wf; eauto).
    assert (Ss : nshape (stack_ax s (val C arr)) = setn (fs_ax s) (sum_of (fs_lens s (sshape arr))) (sshape arr)) by apply stack_ax_shape.
    destruct (IH B axes levels (of_nd (stack_ax s (val C arr))) (sls ++ [tiles 0 (fs_lens s (sshape arr))])) as (arr' & E & Hok & Hv).
    + apply of_nd_ok; auto.
    + exact (fsw_good_stack B (val C arr) s plan Hg).
    + cbn [of_nd sshape]. rewrite Ss. split.
      * unfold zlen. rewrite setn_length. exact Hx2.
      * clear -Hl2 Hni. induction Hl2 as [|lev s' levels plan Hl Hl2 IH]; constructor.
        -- rewrite nthz_setn_ne; auto. intros E. apply Hni. left. auto.
        -- apply IH. intros H. apply Hni. right. auto.
    + exists arr'. split; [|split; auto].
      * rewrite E, <- app_assoc. cbn [app]. do 4 f_equal. apply map_ext_in. intros s' Hs'. cbn [of_nd sshape]. rewrite Ss, fs_lens_setn; auto.
        intros Eq. apply Hni. rewrite Eq. apply in_map. auto.
      * rewrite Hv, val_of_nd by auto. reflexivity.
Qed.

Lemma asks_distinct (sh : list Z) axes (plan : list fstep) : Forall2 (fun ax s => norm_axis (zlen sh) ax = Z.of_nat (fs_ax s)) axes plan ->
  NoDup (map fs_ax plan) -> distinct axes = List.length axes.
Proof.
  intros H Hn. symmetry. rewrite distinct_NoDup; auto.
  apply (NoDup_map_inv (fun ax => Z.to_nat (norm_axis (zlen sh) ax))).
  replace (map (fun ax => Z.to_nat (norm_axis (zlen sh) ax)) axes) with (map fs_ax plan); auto.
  clear Hn. induction H as [|ax s axes plan E H IH]; cbn [map]; auto. rewrite E, Nat2Z.id, IH. reflexivity.
Qed.

Lemma check_axes_ok (sh : list Z) axes (plan : list fstep) : Forall2 (fun ax s => norm_axis (zlen sh) ax = Z.of_nat (fs_ax s)) axes plan ->
  NoDup (map fs_ax plan) -> (forall s, In s plan -> (fs_ax s < List.length sh)%nat) -> check_fsw_axes sh axes = Ok tt.
Proof.
  intros H Hn Hlt. unfold check_fsw_axes. rewrite (asks_distinct sh axes plan), Nat.eqb_refl by auto. cbn [negb].
  assert (E : exists l, mapM (axis_size sh) axes = Ok l).
  { clear Hn. induction H as [|ax s axes plan E H IH]; cbn [mapM]; [eauto|].
    destruct (axis_size_ok sh ax (fs_ax s) E) as (-> & _); [apply Hlt; left; auto|]. cbn [bind].
    destruct IH as (l & ->); [intros; apply Hlt; right; auto|]. cbn. eauto. }
  destruct E as (l & ->). reflexivity.
Qed.

(** The arguments of a call, resolved to a plan. *)
Definition levels_list (levels : per_axis (option Z)) (n : nat) : list (option Z) :=
  match levels with One l => repeat l n | Seq l => l end.
Definition fsw_resolves (sh : list Z) (w : per_axis (wavelet C)) (m : per_axis mode) (levels : per_axis (option Z)) (axes : option (list Z)) (plan : list fstep) : Prop :=
  asks sh (default_axes (zlen sh) axes) (levels_list levels (List.length plan)) plan /\
  objs_per_axis w (List.length plan) = Ok (map fs_w plan) /\ objs_per_axis m (List.length plan) = Ok (map fs_m plan).

Definition fsw_result (sh : list Z) (axes : option (list Z)) (plan : list fstep) (x : nd C) : fsw (C := C) :=
  mkFsw (stack_all plan x) (map (fun s => tiles 0 (fs_lens s sh)) plan) (map fs_w plan) (map fs_m plan) (default_axes (zlen sh) axes).

Theorem fswavedecn_spec (data : sarr C) w m levels axes plan B : sarr_ok C data -> fsw_resolves (sshape data) w m levels axes plan ->
  fsw_good B (sshape data) plan ->
  fswavedecn fuel junk data w m levels axes = Ok (fsw_result (sshape data) axes plan (val C data)).
Proof.
  intros Hd (Ha & Hw & Hm) Hg. unfold fswavedecn.
  assert (Ed : (match axes with None => tab (ndim data) (fun i => i) | Some l => l end) = default_axes (zlen (sshape data)) axes) by reflexivity.
  cbv zeta. rewrite Ed. pose proof Ha as (Ha1 & Ha2).
  assert (La : List.length (default_axes (zlen (sshape data)) axes) = List.length plan) by (eapply Forall2_length; eauto).
  assert (Ll : List.length (levels_list levels (List.length plan)) = List.length plan) by (eapply Forall2_length; eauto).
  pose proof Hg as (_ & _ & _ & _ & _ & Hnd & Hst).
  rewrite (check_axes_ok _ _ plan) by (auto; intros s Hs; apply (Hst s Hs)). cbn [bind].
  rewrite La. change (match levels with One l0 => repeat l0 (List.length plan) | Seq l1 => l1 end) with (levels_list levels (List.length plan)).
  rewrite Ll, Nat.eqb_refl. cbn [negb]. rewrite Hm, Hw. cbn [bind].
  destruct (fsw_loop plan B _ _ data [] Hd Hg Ha) as (arr' & E & _ & Hv). rewrite E. cbn [bind app].
  unfold fsw_result. rewrite Hv. reflexivity.
Qed.

(** ** Inverse *)
Definition grow_ax (s : fstep) (z : nd C) : nd C := match fs_lev s with O => z | S _ => pax C (fs_ax s) (fs_m s) z end.
Definition grow_all (plan : list fstep) (z : nd C) : nd C := fold_left (fun y s => grow_ax s y) plan z.

Lemma linop_unstack_multi m (w : wavelet C) n N M : wf_bank w -> 1 <= N ->
  linop C M (unstack_len m (dec_len w) (multi_lens m (dec_len w) n N)) (unstack C m w (multi_lens m (dec_len w) n N)).
Proof.
  intros Hw HN. pose proof Hw as (_ & _ & _ & W4 & W5). apply linop_unstack; auto.
  - pose proof (approx_len_pos m (dec_len w) n N HN W5). lia.
  - apply (multi_lens_tail m (dec_len w) n N W5 W4 HN).
Qed.

Lemma unstack_len_nonneg m (w : wavelet C) n N : wf_bank w -> 1 <= N -> 0 <= unstack_len m (dec_len w) (multi_lens m (dec_len w) n N).
Proof. intros Hw HN. pose proof Hw as (_ & _ & _ & W4 & W5). rewrite multi_len_last by auto. destruct n; lia. Qed.

Lemma along_stack_comm k n T (s : fstep) B (y : nd C) : nd_wf y -> (k < List.length (nshape y))%nat -> k <> fs_ax s -> 0 <= n ->
  linop C (nthz k (nshape y)) n T -> fstep_good B (nshape y) s ->
  along k n T (stack_ax s y) = stack_ax s (along k n T y).
Proof.
  intros Hy Hk Hne Hn HT (A1 & A2 & A3 & _). unfold stack_ax.
  assert (Hs : 0 <= sum_of (fs_lens s (nshape y))) by (apply sum_pos; apply multi_lens_pos; auto; apply A2).
  rewrite along_comm; auto.
  - rewrite along_shape, fs_lens_setn by auto. reflexivity.
  - apply linop_stacked; auto.
Qed.

Lemma along_stack_all_comm k n T plan : forall B (y : nd C), nd_wf y -> (k < List.length (nshape y))%nat -> ~ In k (map (fs_ax (C := C)) plan) -> 0 <= n ->
  linop C (nthz k (nshape y)) n T -> fsw_good B (nshape y) plan ->
  along k n T (stack_all plan y) = stack_all plan (along k n T y).
Proof.
  induction plan as [|s plan IH]; intros B y Hy Hk Hni Hn HT Hg; [reflexivity|].
  pose proof (fsw_good_tail _ _ _ _ Hg) as (Hg' & Hnis & Hs). cbn [stack_all fold_left]. fold (stack_all plan (stack_ax s y)). fold (stack_all plan (stack_ax s (along k n T y))).
  assert (Hne : k <> fs_ax s) by (intros E; apply Hni; left; auto).
  rewrite (IH B).
  - rewrite (along_stack_comm k n T s B); auto.
  - eapply stack_ax_wf; eauto.
  - rewrite stack_ax_shape, setn_length. auto.
  - intros E. apply Hni. right. auto.
  - auto.
  - rewrite stack_ax_shape, nthz_setn_ne by auto. auto.
  - apply fsw_good_stack. auto.
Qed.

Lemma unstack_stack_ax B (s : fstep) (z : nd C) : nd_wf z -> pr_wavelet (fs_w s) -> fstep_good B (nshape z) s ->
  unstack_ax C s (nthz (fs_ax s) (nshape z)) (stack_ax s z) = grow_ax s z.
Proof.
  intros Hz Hpr (A1 & A2 & A3 & A4 & _). unfold unstack_ax, stack_ax, fs_lens. set (N := nthz (fs_ax s) (nshape z)) in *.
  set (lens := multi_lens (fs_m s) (dec_len (fs_w s)) (fs_lev s) N).
  pose proof A2 as (_ & _ & _ & W4 & W5).
  assert (Hs : 0 < sum_of lens).
  { pose proof (multi_lens_pos (fs_m s) (dec_len (fs_w s)) (fs_lev s) N W5 A3) as P. fold lens in P.
    assert (Q : lens <> []) by discriminate. clear -P Q. destruct P as [|l t P1 P2]; [congruence|].
    apply sum_pos in P2. change (sum_of (l :: t)) with (l + sum_of t). lia. }
  rewrite along_along; auto.
  - rewrite (along_ext C (fs_ax s) _ _ (rec_result (fs_m s) (fs_lev s))); auto.
    + unfold lens. rewrite multi_len_last by auto. unfold grow_ax, rec_result. destruct (fs_lev s).
      * apply along_id; auto.
      * reflexivity.
    + apply unstack_len_nonneg; auto.
    + intros v Hv. fold N in Hv. unfold lens. rewrite <- Hv. apply unstack_stacked; auto; rewrite Hv; auto.
  - apply unstack_len_nonneg; auto.
  - intros v Hv. fold N in Hv. unfold lens. rewrite <- Hv. apply zlen_stacked; auto. lia.
Qed.

Lemma grow_ax_shape (s : fstep) (z : nd C) : nshape (grow_ax s z) = grown s (nshape z).
Proof. unfold grow_ax, grown. destruct (fs_lev s); auto. Qed.
Lemma grow_ax_wf (s : fstep) (z : nd C) : nd_wf z -> nd_wf (grow_ax s z).
Proof. unfold grow_ax. destruct (fs_lev s); auto. apply pax_wf. Qed.
Lemma grow_all_shape plan : forall z : nd C, nshape (grow_all plan z) = grown_all plan (nshape z).
Proof. induction plan as [|s plan IH]; intros z; [reflexivity|]. cbn [grow_all grown_all fold_left]. rewrite <- grow_ax_shape. apply IH. Qed.
Lemma grow_all_wf plan : forall z : nd C, nd_wf z -> nd_wf (grow_all plan z).
Proof. induction plan as [|s plan IH]; intros z Hz; auto. apply IH. apply grow_ax_wf. auto. Qed.

Lemma fsw_good_grow B (z : nd C) s plan : nd_wf z -> fsw_good B (nshape z) (s :: plan) -> fsw_good B (nshape (grow_ax s z)) plan.
Proof.
  intros Hz H. pose proof (fsw_good_tail _ _ _ _ H) as (Hg & Hni & (A1 & A2 & A3 & A4 & A5 & A6 & A7)). rewrite grow_ax_shape. unfold grown. destruct (fs_lev s); auto.
  apply fsw_good_setn; auto. lia.
Qed.

Lemma stack_all_wf plan : forall B (z : nd C), nd_wf z -> fsw_good B (nshape z) plan -> nd_wf (stack_all plan z).
Proof.
  induction plan as [|s plan IH]; intros B z Hz Hg; auto. cbn [stack_all fold_left]. fold (stack_all plan (stack_ax s z)).
  apply (IH B); [|apply fsw_good_stack; auto]. pose proof (fsw_good_tail _ _ _ _ Hg) as (_ & _ & Hs). eapply stack_ax_wf; eauto.
Qed.
Lemma stack_all_len plan : forall z : nd C, List.length (nshape (stack_all plan z)) = List.length (nshape z).
Proof. induction plan as [|s plan IH]; intros z; auto. cbn [stack_all fold_left]. fold (stack_all plan (stack_ax s z)). rewrite IH, stack_ax_shape, setn_length. auto. Qed.
Lemma stack_all_nth plan : forall (z : nd C) k, ~ In k (map fs_ax plan) -> nthz k (nshape (stack_all plan z)) = nthz k (nshape z).
Proof.
  induction plan as [|s plan IH]; intros z k H; auto. cbn [stack_all fold_left]. fold (stack_all plan (stack_ax s z)).
  rewrite IH, stack_ax_shape, nthz_setn_ne; auto; intros E; apply H; [left|right]; auto.
Qed.
Lemma stack_all_box plan : forall B (z : nd C), nd_wf z -> fsw_good B (nshape z) plan -> forall k, nthz k (nshape (stack_all plan z)) <= nthz k B.
Proof.
  induction plan as [|s plan IH]; intros B z Hz Hg k; [apply Hg|]. cbn [stack_all fold_left]. fold (stack_all plan (stack_ax s z)).
  apply (IH B); [|apply fsw_good_stack; auto]. pose proof (fsw_good_tail _ _ _ _ Hg) as (_ & _ & Hs). eapply stack_ax_wf; eauto.
Qed.

Lemma fsr_loop plan : forall B (sh : list Z) axes (z : nd C), nd_wf z -> fsw_good B (nshape z) plan -> (forall s, In s plan -> pr_wavelet (fs_w s)) ->
  zlen (nshape z) = zlen sh -> (forall s, In s plan -> nthz (fs_ax s) (nshape z) = nthz (fs_ax s) sh) ->
  Forall2 (fun ax s => norm_axis (zlen sh) ax = Z.of_nat (fs_ax s)) axes plan ->
  foldM (fsr_step fuel junk) (of_nd (stack_all plan z))
    (combine (map (fun s => tiles 0 (fs_lens s sh)) plan) (combine axes (combine (map fs_w plan) (map fs_m plan)))) =
  Ok (of_nd (grow_all plan z)).
Proof.
  induction plan as [|s plan IH]; intros B sh axes z Hz Hg Hpr Hsh Hn Hx.
  - destruct axes; inversion Hx. reflexivity.
  - destruct axes as [|ax axes]; [inversion Hx|].
    assert (Hx1 : norm_axis (zlen sh) ax = Z.of_nat (fs_ax s)) by (inversion Hx; auto).
    assert (Hx2 : Forall2 (fun ax s => norm_axis (zlen sh) ax = Z.of_nat (fs_ax s)) axes plan) by (inversion Hx; auto).
    clear Hx. cbn [map combine foldM].
    pose proof (fsw_good_tail _ _ _ _ Hg) as (Hg' & Hni & Hs). pose proof Hs as (A1 & A2 & A3 & A4 & A5 & A6 & A7).
    pose proof Hg as (HB & HBl & H64 & _).
    set (y := stack_all (s :: plan) z).
    assert (Wy : nd_wf y) by (eapply stack_all_wf; eauto).
    assert (Ly : List.length (nshape y) = List.length (nshape z)) by apply stack_all_len.
    assert (Zy : zlen (nshape y) = zlen (nshape z)) by (unfold zlen; rewrite Ly; auto).
    assert (En : nthz (fs_ax s) sh = nthz (fs_ax s) (nshape z)) by (symmetry; apply Hn; left; auto).
    assert (El : fs_lens s sh = fs_lens s (nshape z)) by (unfold fs_lens; rewrite En; auto).
    assert (Ey : nthz (fs_ax s) (nshape y) = sum_of (fs_lens s (nshape z))).
    { unfold y. cbn [stack_all fold_left]. fold (stack_all plan (stack_ax s z)). rewrite stack_all_nth by auto. rewrite stack_ax_shape, nthz_setn; auto. }
    assert (Hroom : roomy (fs_ax s) (nshape y) (2 * Z.max (nthz (fs_ax s) (nshape z)) (dec_len (fs_w s)))).
    { intros l Hl. apply (box_bound fuel B); auto; try lia.
      - apply Wy.
      - apply (stack_all_box (s :: plan) B z); auto. }
    rewrite El. unfold fs_lens at 1. rewrite (fsr_step_spec C fuel junk y s ax (nthz (fs_ax s) (nshape z))); auto.
    2: { rewrite Zy. auto. } 2: { rewrite Zy, Hsh. auto. } 2: { rewrite Ly. auto. }
    cbn [bind].
    assert (Ec : unstack_ax C s (nthz (fs_ax s) (nshape z)) y = stack_all plan (grow_ax s z)).
    { rewrite <- (unstack_stack_ax B) by (auto; apply Hpr; left; auto). unfold unstack_ax at 2. cbv zeta.
      rewrite <- (along_stack_all_comm _ _ _ plan B); auto.
      - eapply stack_ax_wf; eauto.
      - rewrite stack_ax_shape, setn_length. auto.
      - apply unstack_len_nonneg; auto.
      - apply linop_unstack_multi; auto.
      - apply fsw_good_stack; auto. }
    rewrite Ec. cbn [grow_all fold_left]. fold (grow_all plan (grow_ax s z)). apply (IH B); auto.
    + apply grow_ax_wf; auto.
    + apply fsw_good_grow; auto.
    + intros s' Hs'. apply Hpr. right. auto.
    + rewrite grow_ax_shape. unfold grown. destruct (fs_lev s); auto. unfold zlen in *. rewrite setn_length. auto.
    + intros s' Hs'. rewrite <- (Hn s') by (right; auto). rewrite grow_ax_shape. unfold grown. destruct (fs_lev s); auto.
      apply nthz_setn_ne. intros E. apply Hni. rewrite <- E. apply in_map. auto.
Qed.

Theorem fswaverecn_spec (sh : list Z) axes plan B (x : nd C) levels : nd_wf x -> nshape x = sh -> asks sh (default_axes (zlen sh) axes) levels plan ->
  fsw_good B sh plan -> (forall s, In s plan -> pr_wavelet (fs_w s)) ->
  fswaverecn fuel junk (fsw_result sh axes plan x) = Ok (grow_all plan x).
Proof.
  intros Hx Hsh (Ha & _) Hg Hpr. unfold fswaverecn, fsw_result. cbn [fs_coeffs fs_slices fs_wavelets fs_modes fs_axes].
  pose proof Hg as (_ & _ & _ & _ & _ & Hnd & Hst).
  assert (Ll : List.length (nshape (stack_all plan x)) = List.length sh) by (rewrite stack_all_len, Hsh; auto).
  rewrite (check_axes_ok _ _ plan); auto.
  2: { unfold zlen in *. rewrite Ll. exact Ha. }
  2: { intros s Hs. rewrite Ll. apply (Hst s Hs). }
  cbn [bind]. rewrite map_length. rewrite (Forall2_length _ _ _ Ha), Nat.eqb_refl. cbn [negb].
  rewrite (fsr_loop plan B); auto.
  - cbn [bind]. rewrite val_of_nd; auto. apply grow_all_wf. auto.
  - rewrite Hsh. auto.
  - rewrite Hsh. auto.
  - intros. rewrite Hsh. auto.
Qed.

Lemma grow_all_get plan : forall B (z : nd C) idx, nd_wf z -> fsw_good B (nshape z) plan -> valid (nshape z) idx -> ndget (grow_all plan z) idx = ndget z idx.
Proof.
  induction plan as [|s plan IH]; intros B z idx Hz Hg V; [reflexivity|]. cbn [grow_all fold_left]. fold (grow_all plan (grow_ax s z)).
  pose proof (fsw_good_tail _ _ _ _ Hg) as (_ & _ & (A1 & A2 & A3 & _)).
  rewrite (IH B).
  - unfold grow_ax. destruct (fs_lev s); auto. apply pax_get; auto.
  - apply grow_ax_wf. auto.
  - apply fsw_good_grow; auto.
  - rewrite grow_ax_shape. unfold grown. destruct (fs_lev s); auto. apply (valid_grow C); auto. lia.
Qed.

Theorem fsw_round_trip (data : sarr C) w m levels axes plan B : sarr_ok C data -> fsw_resolves (sshape data) w m levels axes plan ->
  fsw_good B (sshape data) plan -> (forall s, In s plan -> pr_wavelet (fs_w s)) ->
  exists r y, fswavedecn fuel junk data w m levels axes = Ok r /\ fswaverecn fuel junk r = Ok y /\
    nshape y = grown_all plan (sshape data) /\ (forall idx, valid (sshape data) idx -> ndget y idx = ndget (val C data) idx).
Proof.
  intros Hd Hr Hg Hpr. exists (fsw_result (sshape data) axes plan (val C data)), (grow_all plan (val C data)).
  pose proof (val_wf C data Hd) as W. pose proof Hr as (Ha & _).
  split; [eapply fswavedecn_spec; eauto|]. split; [eapply fswaverecn_spec; eauto|].
  split; [apply grow_all_shape|]. intros idx V. eapply grow_all_get; eauto.
Qed.

End FP.
