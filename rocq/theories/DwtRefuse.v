(** What the discrete transforms of n-dimensional data refuse. *)
From Coq Require Import List Ascii String.
From Verif Require Import Base BaseLemmas CConv Spec Lengths Dwt Nd NdSpec Axis AxisProofs Multidim MultidimProofs MultidimFacts Multilevel MultilevelNd MultilevelNdProofs Swt SwtNd SwtNdRefuse.
Import ListNotations.
Open Scope list_scope. Open Scope Z_scope.

(** A sequence of neither one nor [n] wavelets or modes. *)
Definition wrong_count {A} (p : per_axis A) (n : nat) : Prop := exists l, p = Seq l /\ List.length l <> 1%nat /\ List.length l <> n.
(** A key with another letter than a and d, two keys of different lengths. *)
Definition bad_letter {A} (d : dict A) : Prop := exists k v c, In (k, v) d /\ In c (list_ascii_of_string k) /\ c <> "a"%char /\ c <> "d"%char.
Definition bad_lengths {A} (d : dict A) : Prop := exists k v k' v', In (k, v) d /\ In (k', v') d /\ String.length k <> String.length k'.

Section R.
Variable C : CRing.
Variable fuel : nat.
Variable junk : Z -> C.

Lemma objs_cases {A} (p : per_axis A) n : (exists l, objs_per_axis p n = Ok l) \/ objs_per_axis p n = Err ValueError.
Proof. unfold objs_per_axis. destruct p as [a|[|a [|b l]]]; [left; now eexists| |left; now eexists|]; destruct (Nat.eqb _ _); cbn [negb]; auto; left; now eexists. Qed.
Lemma objs_wrong {A} (p : per_axis A) n : wrong_count p n -> objs_per_axis p n = Err ValueError.
Proof.
  intros (l & -> & H1 & H2). unfold objs_per_axis. destruct l as [|a [|b l]]; [|cbn in H1; lia|].
  - destruct (Nat.eqb_spec (List.length (@nil A)) n); [contradiction|reflexivity].
  - destruct (Nat.eqb_spec (List.length (a :: b :: l)) n); [contradiction|reflexivity].
Qed.

Lemma axis_outside n axis : outside n axis -> negb ((0 <=? (if axis <? 0 then axis + n else axis)) && ((if axis <? 0 then axis + n else axis) <? n)) = true.
Proof. unfold outside. intros H. apply Bool.negb_true_iff, Bool.andb_false_iff. destruct (Z.ltb_spec axis 0); lia. Qed.

Theorem dwt_refuses (data : sarr C) w m axis :
  (outside (ndim data) axis -> py_dwt fuel junk data w m axis = Err AxisError) /\
  (forall x : list C, zlen x < 1 -> dwt_single fuel x w m = Err ValueError) /\
  (forall x : list C, zlen x = 1 -> 2 <= dec_len w -> m = REFLECT \/ m = ANTIREFLECT -> dwt_single fuel x w m = Err ValueError).
Proof.
  split; [|split].
  - intros H. unfold py_dwt. cbv zeta. change (ndim (of_nd (val C data))) with (ndim data). rewrite axis_outside by exact H. reflexivity.
  - intros x H. unfold dwt_single, dwt_coeff_len. destruct (Z.ltb_spec (zlen x) 1); [reflexivity|lia].
  - intros x H Hw Hm. assert (Hb : 1 <= dwt_buffer_length 1 (dec_len w) m).
    { unfold dwt_buffer_length. pose proof (Z.div_le_mono 2 (dec_len w) 2 ltac:(lia) Hw) as Hd. change (2 / 2) with 1 in Hd. destruct (Z.ltb_spec (dec_len w) 1); [lia|]. change (1 <? 1) with false. cbn [orb].
      replace (1 + dec_len w - 1) with (dec_len w) by lia. destruct Hm as [-> | ->]; exact Hd. }
    unfold dwt_single, dwt_coeff_len. rewrite H. destruct (Z.ltb_spec 1 1); [lia|]. destruct (Z.ltb_spec (dec_len w) 1); [lia|]. cbn [bind].
    destruct (Z.ltb_spec (dwt_buffer_length 1 (dec_len w) m) 1); [lia|]. destruct Hm as [-> | ->]; reflexivity.
Qed.

Theorem idwt_refuses (a d : sarr C) w m axis :
  py_idwt fuel junk None None w m axis = Err ValueError /\
  (outside (ndim a) axis -> py_idwt fuel junk (Some a) None w m axis = Err AxisError /\ py_idwt fuel junk (Some a) (Some d) w m axis = Err AxisError) /\
  (outside (ndim d) axis -> py_idwt fuel junk None (Some d) w m axis = Err AxisError) /\
  (forall x y : list C, zlen x <> zlen y -> idwt_single fuel x y w m = Err ValueError).
Proof.
  split; [reflexivity|]. split; [|split].
  - intros H. unfold py_idwt. cbv zeta. change (ndim (of_nd (val C a))) with (ndim a). rewrite axis_outside by exact H. split; reflexivity.
  - intros H. unfold py_idwt. cbv zeta. change (ndim (of_nd (ndzero (sshape d)))) with (ndim d). rewrite axis_outside by exact H. reflexivity.
  - intros x y H. unfold idwt_single. destruct (Z.eqb_spec (zlen x) (zlen y)); [contradiction|reflexivity].
Qed.

Theorem dwtn_refuses (data : sarr C) w m axes : (ndim data < 1 -> dwtn fuel junk data w m axes = Err ValueError) /\
  (1 <= ndim data -> let n := List.length (match axes with Some l => l | None => tab (ndim data) (fun i => i) end) in wrong_count w n \/ wrong_count m n -> dwtn fuel junk data w m axes = Err ValueError).
Proof.
  split.
  - intros H. unfold dwtn. destruct (Z.ltb_spec (ndim data) 1); [reflexivity|lia].
  - intros H n Hb. unfold dwtn. destruct (Z.ltb_spec (ndim data) 1); [lia|]. cbv zeta. unfold norm_axes. rewrite map_length.
    change (List.length match axes with Some l => l | None => tab (ndim data) (fun i => i) end) with n.
    destruct Hb as [Hb|Hb]; [|rewrite objs_wrong by exact Hb; reflexivity].
    destruct (objs_cases m n) as [[l E] | E]; rewrite E; cbn [bind]; [|reflexivity]. rewrite objs_wrong by exact Hb. reflexivity.
Qed.

Lemma all_ad_bad k : forall c, In c (list_ascii_of_string k) -> c <> "a"%char -> c <> "d"%char -> all_ad k = false.
Proof.
  induction k as [|x k IH]; intros c Hin Ha Hd; [contradiction|]. cbn [all_ad list_ascii_of_string In] in *. destruct Hin as [->|Hin].
  - destruct (Ascii.eqb_spec c "a"%char); [contradiction|]. destruct (Ascii.eqb_spec c "d"%char); [contradiction|]. reflexivity.
  - rewrite (IH c Hin Ha Hd). apply Bool.andb_false_r.
Qed.
Lemma fix_cases (d : dict (option (sarr C))) : (exists r, fix_coeffs d = Ok r) \/ fix_coeffs d = Err ValueError.
Proof. unfold fix_coeffs. destruct (existsb _ d); auto. destruct (existsb _ d); auto. cbv zeta. destruct (negb _); auto. left; now eexists. Qed.
Lemma fix_refuses (d : dict (option (sarr C))) : (exists k, In (k, None) d) \/ bad_letter d \/ bad_lengths d -> fix_coeffs d = Err ValueError.
Proof.
  intros H. unfold fix_coeffs. destruct (existsb (fun '(k, v) => match v with None => true | Some _ => false end) d) eqn:E1; [reflexivity|].
  destruct (existsb (fun '(k, v) => negb (all_ad k)) d) eqn:E2; [reflexivity|]. cbv zeta.
  destruct H as [(k & Hk)|[(k & v & c & Hk & Hc & Ha & Hd)|(k & v & k' & v' & Hk & Hk' & Hne)]].
  - exfalso. assert (existsb (fun '(k, v) => match v with None => true | Some _ => false end) d = true); [|congruence]. apply existsb_exists. exists (k, None). auto.
  - exfalso. assert (existsb (fun '(k, v) => negb (all_ad k)) d = true); [|congruence]. apply existsb_exists. exists (k, v). split; auto. rewrite (all_ad_bad k c Hc Ha Hd). reflexivity.
  - destruct (forallb _ _) eqn:E3; cbn [negb]; [|reflexivity]. exfalso. rewrite forallb_forall in E3. apply Hne.
    assert (G : forall q z, In (q, z) d -> String.length q = hd 0%nat (map (fun '(k, _) => String.length k) d)).
    { intros q z Hq. apply Nat.eqb_eq, E3. apply in_map_iff. now exists (q, z). }
    rewrite (G k v Hk), (G k' v' Hk'). reflexivity.
Qed.
Lemma fix_value (d : dict (option (sarr C))) r : fix_coeffs d = Ok r -> forall k a, In (k, Some a) d -> In (k, a) r.
Proof.
  unfold fix_coeffs. destruct (existsb _ d); [discriminate|]. destruct (existsb _ d); [discriminate|]. cbv zeta. destruct (negb _); [discriminate|].
  intros E k a Hin. injection E as <-. apply in_flat_map. exists (k, Some a). split; [auto|left; auto].
Qed.

(** Entries None count as missing. *)
Theorem idwtn_refuses (d : dict (option (sarr C))) w m axes :
  (forall k v, In (k, v) d -> v = None) \/ (exists k a c, In (k, Some a) d /\ In c (list_ascii_of_string k) /\ c <> "a"%char /\ c <> "d"%char) \/
  (exists k a k' a', In (k, Some a) d /\ In (k', Some a') d /\ (String.length k <> String.length k' \/ sshape a <> sshape a')) ->
  idwtn fuel junk d w m axes = Err ValueError.
Proof.
  intros H. unfold idwtn. cbv zeta. set (d' := filter _ d).
  assert (F : forall k a, In (k, Some a) d -> In (k, Some a) d') by (intros; apply filter_In; auto).
  destruct H as [H|[(k & a & c & Hk & Hc & Ha & Hd)|(k & a & k' & a' & Hk & Hk' & Hne)]].
  - assert (E : d' = []); [|rewrite E; reflexivity]. destruct d' as [|[k v] t] eqn:Ed; [reflexivity|]. exfalso.
    assert (Hin : In (k, v) (filter (fun '(_, v0) => match v0 with Some _ => true | None => false end) d)) by (fold d'; rewrite Ed; now left).
    apply filter_In in Hin. destruct Hin as [Hin Hv]. rewrite (H k v Hin) in Hv. discriminate.
  - rewrite fix_refuses; [reflexivity|]. right. left. exists k, (Some a), c. auto.
  - destruct (fix_cases d') as [[r Er]|Er]; rewrite Er; cbn [bind]; [|reflexivity].
    destruct Hne as [Hne|Hne].
    { rewrite fix_refuses in Er; [discriminate|]. right. right. exists k, (Some a), k', (Some a'). auto. }
    pose proof (fix_value d' r Er k a (F _ _ Hk)) as I1. pose proof (fix_value d' r Er k' a' (F _ _ Hk')) as I2.
    destruct r as [|[k0 v0] rest]; [reflexivity|].
    destruct (existsb _ rest) eqn:Ee; [reflexivity|]. exfalso.
    assert (G : forall q v, In (q, v) ((k0, v0) :: rest) -> sshape v = sshape v0).
    { intros q v [E|Hin]; [now injection E as _ ->|]. destruct (shape_eqb (sshape v) (sshape v0)) eqn:Es; [unfold shape_eqb in Es; destruct (list_eq_dec _ _ _); congruence|].
      assert (existsb (fun '(k, v) => negb (shape_eqb (sshape v) (sshape v0))) rest = true); [|congruence].
      apply existsb_exists. exists (q, v). split; auto. now rewrite Es. }
    apply Hne. rewrite (G k a I1), (G k' a' I2). reflexivity.
Qed.

Lemma sizes_outside sh axes : Exists (outside (zlen sh)) axes -> axes_sizes sh axes = Err AxisError.
Proof.
  intros H. unfold axes_sizes. destruct (mapM (py_index sh) axes) as [l| | |] eqn:E; try reflexivity. exfalso. revert l E.
  induction H as [x l Hx|x l H IH]; intros r E; cbn [mapM] in E.
  - unfold py_index in E. unfold outside in Hx. destruct ((x <? - zlen sh) || (zlen sh <=? x)) eqn:Eb; [discriminate|]. lia.
  - destruct (py_index sh x); cbn [bind] in E; try discriminate. destruct (mapM (py_index sh) l) as [r'| | |]; cbn [bind] in E; try discriminate. exact (IH r' eq_refl).
Qed.
Lemma sizes_inside sh axes : Forall (fun x => ~ outside (zlen sh) x) axes -> exists s, axes_sizes sh axes = Ok s.
Proof.
  intros H. unfold axes_sizes. enough (G : exists s, mapM (py_index sh) axes = Ok s) by (destruct G as [s ->]; now exists s).
  induction H as [|x l Hx H IH]; [now exists []|]. destruct IH as [s IH]. cbn [mapM]. unfold py_index at 1. unfold outside in Hx.
  destruct ((x <? - zlen sh) || (zlen sh <=? x)) eqn:Eb; [lia|]. cbn [bind]. rewrite IH. now eexists.
Qed.
Lemma level_negative pairs l : l < 0 -> check_level pairs (Some l) = Err ValueError.
Proof. intros H. unfold check_level. destruct (list_min _); [|reflexivity]. destruct (Z.ltb_spec l 0); [reflexivity|lia]. Qed.
Lemma tab_nodup n : NoDup (tab n (fun i => i)).
Proof. unfold tab. apply FinFun.Injective_map_NoDup; [|apply seq_NoDup]. intros i j E. lia. Qed.
Lemma tab_inside n : Forall (fun x => ~ outside n x) (tab n (fun i => i)).
Proof. apply Forall_forall. intros x Hx. unfold tab in Hx. apply in_map_iff in Hx. destruct Hx as (i & <- & Hi). apply in_seq in Hi. unfold outside. lia. Qed.

Theorem wavedecn_refuses (data : sarr C) w m level axes :
  (ndim data < 1 -> wavedecn fuel junk data w m level axes = Err ValueError) /\
  (forall l, axes = Some l -> 1 <= ndim data -> NoDup l -> Exists (outside (ndim data)) l -> wavedecn fuel junk data w m level axes = Err AxisError) /\
  (let l := match axes with Some l => l | None => tab (ndim data) (fun i => i) end in 1 <= ndim data -> NoDup l -> Forall (fun x => ~ outside (ndim data) x) l ->
     wrong_count w (List.length l) \/ (exists v, level = Some v /\ v < 0) \/ l = [] -> wavedecn fuel junk data w m level axes = Err ValueError).
Proof.
  split; [|split].
  - intros H. unfold wavedecn, prep_axes. change (zlen (sshape data)) with (ndim data). destruct (Z.ltb_spec (ndim data) 1); [reflexivity|lia].
  - intros l -> H Hn Ho. unfold wavedecn, prep_axes. change (zlen (sshape data)) with (ndim data). destruct (Z.ltb_spec (ndim data) 1); [lia|]. cbv zeta. rewrite (distinct_NoDup l Hn), Nat.eqb_refl. cbn [negb]. rewrite sizes_outside by exact Ho. reflexivity.
  - intros l H Hn Hi Hbad. unfold wavedecn, prep_axes. change (zlen (sshape data)) with (ndim data). destruct (Z.ltb_spec (ndim data) 1); [lia|]. cbv zeta. change (match axes with Some l => l | None => tab (ndim data) (fun i => i) end) with l.
    rewrite (distinct_NoDup l Hn), Nat.eqb_refl. cbn [negb]. destruct (sizes_inside (sshape data) l Hi) as [s Es]. rewrite Es. cbn [bind].
    destruct (objs_cases w (List.length l)) as [[ws Ew]|Ew]; rewrite Ew; cbn [bind]; [|reflexivity].
    destruct Hbad as [Hb|[(v & -> & Hv)|Hb]].
    + rewrite objs_wrong in Ew by exact Hb. discriminate.
    + rewrite level_negative by exact Hv. reflexivity.
    + rewrite Hb in Es. cbn in Es. injection Es as <-. reflexivity.
Qed.

Theorem wavedec2_refuses (data : sarr C) w m level :
  (forall axes, ndim data < 2 \/ List.length axes <> 2%nat \/ ~ NoDup axes -> wavedec2 fuel junk data w m level axes = Err ValueError) /\
  (forall a b, 2 <= ndim data -> a <> b -> outside (ndim data) a \/ outside (ndim data) b -> wavedec2 fuel junk data w m level [a; b] = Err AxisError) /\
  (forall a b, 2 <= ndim data -> a <> b -> ~ outside (ndim data) a -> ~ outside (ndim data) b -> wrong_count w 2 \/ (exists v, level = Some v /\ v < 0) -> wavedec2 fuel junk data w m level [a; b] = Err ValueError).
Proof.
  assert (D : forall a b : Z, a <> b -> NoDup [a; b]) by (intros; repeat constructor; cbn; intuition congruence).
  unfold wavedec2. split; [|split].
  - intros axes H. destruct (Z.ltb_spec (ndim data) 2); [reflexivity|]. destruct (Nat.eqb_spec (List.length axes) 2); [|reflexivity]. cbn [negb].
    destruct H as [H|[H|H]]; [lia|contradiction|]. rewrite nodup_ltb by exact H. reflexivity.
  - intros a b H Hab Ho. destruct (Z.ltb_spec (ndim data) 2); [lia|]. rewrite (distinct_NoDup _ (D a b Hab)). cbn [List.length Nat.eqb negb].
    rewrite sizes_outside by (change (zlen (sshape data)) with (ndim data); destruct Ho; [now left|now right; left]). reflexivity.
  - intros a b H Hab Ha Hb Hbad. destruct (Z.ltb_spec (ndim data) 2); [lia|]. rewrite (distinct_NoDup _ (D a b Hab)). cbn [List.length Nat.eqb negb].
    destruct (sizes_inside (sshape data) [a; b]) as [s Es]; [now repeat constructor|]. rewrite Es. cbn [bind].
    destruct (objs_cases w 2) as [[ws Ew]|Ew]; rewrite Ew; cbn [bind]; [|reflexivity].
    destruct Hbad as [Hb'|(v & -> & Hv)]; [rewrite objs_wrong in Ew by exact Hb'; discriminate|]. rewrite level_negative by exact Hv. reflexivity.
Qed.

Theorem waverecn_refuses a (ds : list (dict (option (sarr C)))) w m axes :
  (exists d, In d ds /\ ((exists k, In (k, None) d) \/ bad_letter d \/ bad_lengths d)) ->
  waverecn fuel junk a ds w m axes = Err ValueError.
Proof.
  intros (d & Hd & Hb). unfold waverecn. assert (G : mapM fix_coeffs ds = Err ValueError); [|rewrite G; reflexivity].
  induction ds as [|d0 ds IH]; [contradiction|]. cbn [mapM]. destruct Hd as [->|Hd]; [rewrite fix_refuses by exact Hb; reflexivity|].
  destruct (fix_cases d0) as [[r Er]|Er]; rewrite Er; cbn [bind]; [|reflexivity]. rewrite IH by exact Hd. reflexivity.
Qed.
End R.
