(** Multilevel transforms along one axis of an array, and one axis of the fully
    separable transform, as operations on lines. *)
From Verif Require Import Base BaseLemmas CConv Spec ExtLemmas UpConv Lengths Dwt DwtProofs PR LengthsProofs Linear Multilevel MultilevelProofs
  Swt SwtSpec Nd NdSpec NdLinear Axis AxisProofs AxisProofs2 Multidim MultidimProofs MultidimFacts MultilevelNd SwtNd PackSpec Packing PackBox
  Fsw FswSpec FswLine.

(** ** Slices of one axis *)
Lemma sset_length k v l : List.length (sset k v l) = List.length l.
Proof. revert k. induction l as [|s l IH]; intros [|k]; cbn; auto. Qed.

Lemma within_all sh : shape_ok sh -> within (repeat SAll (List.length sh)) sh.
Proof. induction 1; cbn; auto. Qed.
Lemma box_all sh : box (repeat SAll (List.length sh)) sh = map (fun n => (0, n)) sh.
Proof. induction sh; cbn; congruence. Qed.
Lemma off_all sh : forall idx, valid sh idx -> off (map (fun n => (0, n)) sh) idx = idx.
Proof. induction sh as [|n sh IH]; intros [|i idx] V; cbn in *; try tauto. rewrite IH by tauto. f_equal. lia. Qed.
Lemma snd_all sh : map snd (map (fun n : Z => (0, n)) sh) = sh.
Proof. rewrite map_map. cbn. apply map_id. Qed.

Lemma within_axis sh : forall k o l, shape_ok sh -> (k < List.length sh)%nat -> 0 <= o -> 0 <= l -> o + l <= nthz k sh ->
  within (sset k (SRange o (o + l)) (repeat SAll (List.length sh))) sh.
Proof.
  induction sh as [|n sh IH]; intros k o l Hs Hk Ho Hl Hn; cbn in Hk; [lia|]. inversion Hs; subst.
  destruct k as [|k]; cbn in *.
  - split; [lia|]. split; [lia|]. apply within_all. auto.
  - split; auto. apply IH; auto; lia.
Qed.
Lemma extent_axis sh : forall k o l, (k < List.length sh)%nat ->
  extent (sset k (SRange o (o + l)) (repeat SAll (List.length sh))) sh = setn k l sh.
Proof.
  unfold extent. induction sh as [|n sh IH]; intros k o l Hk; cbn in Hk; [lia|].
  destruct k as [|k]; cbn.
  - rewrite box_all, snd_all. f_equal. lia.
  - f_equal. apply IH. lia.
Qed.
Lemma off_axis sh : forall k o l idx, (k < List.length sh)%nat -> valid (setn k l sh) idx ->
  off (box (sset k (SRange o (o + l)) (repeat SAll (List.length sh))) sh) idx = setn k (o + nthz k idx) idx.
Proof.
  induction sh as [|n sh IH]; intros k o l idx Hk V; cbn in Hk; [lia|].
  destruct idx as [|i idx]; [destruct k; cbn in V; tauto|].
  destruct k as [|k]; cbn in *.
  - rewrite box_all, off_all by tauto. f_equal. lia.
  - rewrite IH by (try lia; tauto). f_equal. lia.
Qed.

Lemma within_prefix sh : forall k l, shape_ok sh -> 0 <= l <= nthz k sh -> within (map (SRange 0) (setn k l sh)) sh.
Proof.
  assert (A : forall sh, shape_ok sh -> within (map (SRange 0) sh) sh) by (induction 1; cbn; auto; intuition lia).
  induction sh as [|n sh IH]; intros k l Hs Hl; [rewrite setn_nil; exact I|]. inversion Hs; subst.
  destruct k as [|k]; cbn in *; (split; [lia|]); (split; [lia|]); auto.
Qed.
Lemma extent_prefix sh : forall sh', List.length sh = List.length sh' -> extent (map (SRange 0) sh') sh = sh'.
Proof. unfold extent. induction sh as [|n sh IH]; intros [|m sh'] H; cbn in *; try lia; auto. f_equal; [lia|]. apply IH. lia. Qed.
Lemma off_prefix sh : forall sh' idx, List.length sh = List.length sh' -> valid sh' idx -> off (box (map (SRange 0) sh') sh) idx = idx.
Proof.
  induction sh as [|n sh IH]; intros [|m sh'] [|i idx] H V; cbn in *; try lia; try tauto. rewrite IH by (try lia; tauto). f_equal. lia.
Qed.

Lemma axis_size_ok (sh : list Z) axis k : norm_axis (zlen sh) axis = Z.of_nat k -> (k < List.length sh)%nat -> axis_size sh axis = Ok (nthz k sh) /\
  py_index sh axis = Ok (nthz k sh) /\ py_ax (zlen sh) axis = k /\ ((axis <? - zlen sh) || (zlen sh <=? axis)) = false.
Proof.
  intros Hn Hk. unfold axis_size, py_index, py_ax. unfold norm_axis in Hn. rewrite Hn, Nat2Z.id.
  assert (E : ((axis <? - zlen sh) || (zlen sh <=? axis)) = false) by (unfold zlen in *; destruct (axis <? 0) eqn:E; lia).
  rewrite E. auto.
Qed.

Section FA.
Variable C : CRing.
Add Ring Cring_ring_fswa : (rth C).

(** ** Operations along one axis *)
Lemma along_ext k n T T' (x : nd C) : nd_wf x -> 0 <= n -> (forall v, zlen v = nthz k (nshape x) -> T v = T' v) -> along k n T x = along k n T' x.
Proof.
  intros Hx Hn H. unfold along. apply ndtab_ext; [apply shape_ok_setn; auto; apply Hx|]. intros idx V.
  rewrite H; auto. apply zlen_line. auto.
Qed.

Lemma along_id k (x : nd C) : nd_wf x -> (k < List.length (nshape x))%nat -> along k (nthz k (nshape x)) (fun v => v) x = x.
Proof.
  intros Hx Hk. unfold along. rewrite setn_nthz. etransitivity; [|exact (ndtab_ndget x Hx)]. apply ndtab_ext; [apply Hx|].
  intros idx V. unfold line. rewrite gz_tab by (apply valid_nth; auto). rewrite setn_nthz. reflexivity.
Qed.

Lemma along_along k n1 n2 T1 T2 (x : nd C) : nd_wf x -> (k < List.length (nshape x))%nat -> 0 <= n1 -> 0 < n2 ->
  (forall v, zlen v = nthz k (nshape x) -> zlen (T2 v) = n2) ->
  along k n1 T1 (along k n2 T2 x) = along k n1 (fun v => T1 (T2 v)) x.
Proof.
  intros Hx Hk H1 H2 HT. unfold along at 1. rewrite along_shape, setn_setn. unfold along at 2.
  apply ndtab_ext; [apply shape_ok_setn; auto; apply Hx|]. intros idx V. f_equal. f_equal.
  rewrite <- (line_setn _ k 0 idx), <- (line_setn x k 0 idx).
  rewrite line_along; auto.
  - rewrite <- (setn_setn k n2 n1). apply valid_setn; auto. lia.
  - apply HT. rewrite line_setn. apply zlen_line. auto.
Qed.

Lemma ndadd_along k n T1 T2 (x : nd C) : nd_wf x -> 0 <= n ->
  (forall v, zlen v = nthz k (nshape x) -> zlen (T1 v) = zlen (T2 v)) ->
  ndadd (along k n T1 x) (along k n T2 x) = along k n (fun v => vadd (T1 v) (T2 v)) x.
Proof.
  intros Hx Hn HT. unfold ndadd. rewrite along_shape. unfold along at 3.
  apply ndtab_ext; [apply shape_ok_setn; auto; apply Hx|]. intros idx V.
  rewrite !ndget_along by auto. rewrite gz_vadd; auto. apply HT. apply zlen_line. auto.
Qed.

Lemma nd_slice_axis k o l (x : nd C) : nd_wf x -> (k < List.length (nshape x))%nat -> 0 <= o -> 0 <= l -> o + l <= nthz k (nshape x) ->
  nd_slice C x (sset k (SRange o (o + l)) (repeat SAll (List.length (nshape x)))) = Ok (along k l (piece C o l) x).
Proof.
  intros Hx Hk Ho Hl Hn. unfold nd_slice.
  rewrite region_within by (apply within_axis; auto; apply Hx). cbn [bind].
  pose proof (extent_axis (nshape x) k o l Hk) as E. unfold extent in E. rewrite E. f_equal.
  apply ndtab_ext; [apply shape_ok_setn; auto; apply Hx|]. intros idx V.
  rewrite off_axis by auto. unfold piece.
  assert (Hi : 0 <= nthz k idx < l).
  { pose proof (valid_nth _ _ k V) as P. rewrite setn_length, nthz_setn in P by auto. auto. }
  rewrite gz_tab by auto. unfold line. rewrite gz_tab by lia. reflexivity.
Qed.

Lemma nd_slice_prefix k l (x : nd C) : nd_wf x -> (k < List.length (nshape x))%nat -> 0 <= l <= nthz k (nshape x) ->
  nd_slice C x (map (SRange 0) (setn k l (nshape x))) = Ok (along k l (piece C 0 l) x).
Proof.
  intros Hx Hk Hl. unfold nd_slice.
  rewrite region_within by (apply within_prefix; auto; apply Hx). cbn [bind].
  pose proof (extent_prefix (nshape x) (setn k l (nshape x)) ltac:(rewrite setn_length; auto)) as E. unfold extent in E. rewrite E. f_equal.
  apply ndtab_ext; [apply shape_ok_setn; [apply Hx|lia]|]. intros idx V.
  rewrite off_prefix by (auto; rewrite setn_length; auto). unfold piece.
  assert (Hi : 0 <= nthz k idx < l).
  { pose proof (valid_nth _ _ k V) as P. rewrite setn_length, nthz_setn in P by auto. auto. }
  rewrite gz_tab by auto. unfold line. rewrite Z.add_0_l, gz_tab by lia. rewrite setn_nthz. reflexivity.
Qed.

Variable fuel : nat.
Variable junk : Z -> C.

(** Room for arrays with up to [M] samples along axis [k]. *)
Definition roomy (k : nat) (sh : list Z) (M : Z) : Prop := forall l, 0 <= l <= M -> prodZ (setn k l sh) < max_alloc.
Lemma roomy_setn k sh M n : roomy k sh M -> roomy k (setn k n sh) M.
Proof. intros H l Hl. rewrite setn_setn. apply H. auto. Qed.

(** ** wavedec along an axis *)
Definition app_ax (k : nat) (m : mode) (w : wavelet C) (j : nat) (x : nd C) : nd C :=
  along k (approx_len m (dec_len w) j (nthz k (nshape x))) (approx m (dec_lo w) j) x.
Definition det_ax (k : nat) (m : mode) (w : wavelet C) (j : nat) (x : nd C) : nd C :=
  along k (approx_len m (dec_len w) (S j) (nthz k (nshape x))) (fun v => analysis m (dec_hi w) (approx m (dec_lo w) j v)) x.
(** [cA_n; cD_n; ...; cD_1] along axis [k]. *)
Definition multi_ax (k : nat) (m : mode) (w : wavelet C) (n : nat) (x : nd C) : list (nd C) :=
  app_ax k m w n x :: map (fun j => det_ax k m w j x) (rev (seq 0 n)).

Lemma wavedec_ax_spec (x : nd C) w m axis k : nd_wf x -> zlen (nshape x) <= 64 ->
  norm_axis (zlen (nshape x)) axis = Z.of_nat k -> (k < List.length (nshape x))%nat -> wf_bank w ->
  1 <= nthz k (nshape x) -> resources fuel (nthz k (nshape x)) (dec_len w) ->
  roomy k (nshape x) (2 * Z.max (nthz k (nshape x)) (dec_len w)) ->
  forall n j a acc, sarr_ok C a -> val C a = app_ax k m w j x -> levels_ok m (dec_len w) (j + n) (nthz k (nshape x)) ->
  exists cs, wavedec_ax fuel junk a w m axis n acc = Ok (cs ++ acc) /\ Forall (sarr_ok C) cs /\
    map (val C) cs = app_ax k m w (j + n) x :: map (fun i => det_ax k m w i x) (rev (seq j n)).
Proof.
  intros Hx H64 Hax Hk Hw HN Hr Hroom. set (N := nthz k (nshape x)) in *. set (F := dec_len w) in *.
  pose proof Hw as (W1 & _ & _ & _ & W5). fold F in W5.
  assert (LA : forall j v, zlen v = N -> zlen (approx m (dec_lo w) j v) = approx_len m F j N).
  { intros j v Hv. rewrite zlen_approx by (unfold F, dec_len in *; lia). rewrite Hv. reflexivity. }
  induction n as [|n IH]; intros j a acc Ha Va Hl.
  - exists [a]. cbn [wavedec_ax app map seq rev]. rewrite Nat.add_0_r, Va. auto.
  - cbn [wavedec_ax].
    assert (Sa : sshape a = setn k (approx_len m F j N) (nshape x)).
    { rewrite <- nshape_val, Va. unfold app_ax. apply along_shape. }
    assert (Na : nthz k (sshape a) = approx_len m F j N) by (rewrite Sa; apply nthz_setn; auto).
    pose proof (approx_len_pos m F j N HN W5) as Pj. pose proof (approx_len_pos m F (S j) N HN W5) as Pj1. cbn [approx_len] in Pj1.
    rewrite (py_dwt_spec C fuel junk a w m axis k); auto.
    2: { unfold ndim. rewrite Sa. unfold zlen in *. rewrite setn_length. auto. }
    2: { unfold ndim. rewrite Sa. unfold zlen in *. rewrite setn_length. auto. }
    2: { rewrite Sa, setn_length. auto. }
    2: { rewrite Na. apply Hl. lia. }
    2: { rewrite Na. apply resources_le with N; auto. }
    2: { rewrite Na, Sa, setn_setn. apply Hroom. fold F. lia. }
    cbn [bind].
    assert (E0 : dax k m (dec_lo w) (val C a) = app_ax k m w (S j) x).
    { unfold dax. rewrite Va. unfold app_ax at 1. rewrite along_shape, nthz_setn by auto. fold N F.
      unfold app_ax. fold N F. change (zlen (dec_lo w)) with F. rewrite along_along; auto; fold N; try lia; try reflexivity. }
    assert (E1 : dax k m (dec_hi w) (val C a) = det_ax k m w j x).
    { unfold dax. rewrite Va. unfold app_ax at 1. rewrite along_shape, nthz_setn by auto. fold N F.
      unfold app_ax, det_ax. fold N F. rewrite W1. change (zlen (dec_lo w)) with F. change (dec_len w) with F. rewrite along_along; auto; fold N; try lia; try reflexivity. }
    rewrite E0, E1.
    assert (Wf0 : nd_wf (app_ax k m w (S j) x)) by (apply along_wf; auto; cbn [approx_len]; fold N F; lia).
    assert (Wf1 : nd_wf (det_ax k m w j x)) by (apply along_wf; auto; cbn [approx_len]; fold N F; lia).
    destruct (IH (S j) (of_nd (app_ax k m w (S j) x)) (of_nd (det_ax k m w j x) :: acc)) as (cs & Hcs & Ok & Hv).
    { apply of_nd_ok; auto. } { apply val_of_nd; auto. } { replace (S j + n)%nat with (j + S n)%nat by lia. auto. }
    exists (cs ++ [of_nd (det_ax k m w j x)]). split; [rewrite Hcs, <- app_assoc; reflexivity|].
    split; [apply Forall_app; split; auto; constructor; auto; apply of_nd_ok; auto|].
    rewrite map_app, Hv. cbn [map app seq rev]. rewrite map_app. cbn [map]. rewrite val_of_nd by auto.
    replace (S j + n)%nat with (j + S n)%nat by lia. reflexivity.
Qed.

(** The level argument asks for [n] levels on a line of [N] samples. *)
Definition level_is (N F : Z) (level : option Z) (n : nat) : Prop :=
  match level with None => n = Z.to_nat (dwt_max_level_c N F) | Some l => 0 <= l /\ n = Z.to_nat l end.

Theorem py_wavedec_spec (data : sarr C) w m level axis k n : sarr_ok C data -> ndim data <= 64 ->
  norm_axis (ndim data) axis = Z.of_nat k -> (k < List.length (sshape data))%nat -> wf_bank w ->
  1 <= nthz k (sshape data) -> level_is (nthz k (sshape data)) (dec_len w) level n ->
  levels_ok m (dec_len w) n (nthz k (sshape data)) -> resources fuel (nthz k (sshape data)) (dec_len w) ->
  roomy k (sshape data) (2 * Z.max (nthz k (sshape data)) (dec_len w)) ->
  exists cs, py_wavedec fuel junk data w m level axis = Ok cs /\ Forall (sarr_ok C) cs /\ map (val C) cs = multi_ax k m w n (val C data).
Proof.
  intros Hd H64 Hax Hk Hw HN Hlev Hl Hr Hroom. unfold py_wavedec.
  destruct (axis_size_ok _ _ _ Hax Hk) as (E & _). rewrite E. cbn [bind]. rewrite check_level_1.
  assert (W : nd_wf (val C data)) by (apply val_wf; auto).
  assert (G : exists cs, wavedec_ax fuel junk data w m axis n [] = Ok (cs ++ []) /\ Forall (sarr_ok C) cs /\
    map (val C) cs = multi_ax k m w n (val C data)).
  { destruct (wavedec_ax_spec (val C data) w m axis k W) with (n := n) (j := O) (a := data) (acc := @nil (sarr C)) as (cs & H); auto.
    - unfold app_ax. cbn [approx approx_len]. symmetry. apply (along_id k (val C data)); auto.
    - exists cs. auto. }
  destruct G as (cs & G & R). rewrite app_nil_r in G.
  exists cs. split; [|exact R]. destruct level as [l|]; cbn in Hlev.
  - destruct Hlev as (H0 & ->). replace (l <? 0) with false by lia. cbn [bind]. exact G.
  - subst n. cbn [bind]. exact G.
Qed.

(** ** waverec along an axis *)
Fixpoint chain (m : mode) (F : Z) (la : Z) (t : list Z) : Prop :=
  match t with
  | [] => True
  | l :: t' => (la = l \/ la = l + 1) /\ 1 <= l /\ 1 <= rec_len m l F /\ resources fuel l F /\ chain m F (rec_len m l F) t'
  end.
Fixpoint pieces (o : Z) (t : list Z) : list (Z * Z) := match t with [] => [] | l :: t' => (o, l) :: pieces (o + l) t' end.
Definition piece_ax (k : nat) (y : nd C) (p : Z * Z) : nd C := along k (snd p) (piece C (fst p) (snd p)) y.

Lemma waverec_ax_spec (y : nd C) w m axis k M : nd_wf y -> zlen (nshape y) <= 64 ->
  norm_axis (zlen (nshape y)) axis = Z.of_nat k -> (k < List.length (nshape y))%nat -> wf_bank w -> roomy k (nshape y) M ->
  forall t A la o, (forall v, zlen v = nthz k (nshape y) -> zlen (A v) = la) -> 1 <= la -> chain m (dec_len w) la t ->
  (forall l, In l t -> rec_len m l (dec_len w) <= M) ->
  waverec_ax fuel junk (Some (of_nd (along k la A y))) (map (fun p => Some (of_nd (piece_ax k y p))) (pieces o t)) w m axis
  = Ok (Some (of_nd (along k (msyn_len m (dec_len w) la t) (fun v => msyn C m w (A v) o t v) y))).
Proof.
  intros Hy H64 Hax Hk Hw Hroom. set (N := nthz k (nshape y)) in *. set (F := dec_len w) in *.
  pose proof Hw as (W1 & W2 & W3 & W4 & W5). fold F in W2, W3, W5.
  induction t as [|l t IH]; intros A la o HA Hla Hch HM; cbn [pieces map waverec_ax msyn msyn_len].
  - reflexivity.
  - destruct Hch as (Hfit & Hl1 & Hrl & Hres & Hch).
    assert (Wa : nd_wf (along k la A y)) by (apply along_wf; auto; lia).
    set (d := piece_ax k y (o, l)).
    assert (Sd : nshape d = setn k l (nshape y)) by apply along_shape.
    assert (Wd : nd_wf d) by (apply along_wf; auto; cbn; lia).
    assert (Efit : fit_ax (of_nd (along k la A y)) (of_nd d) axis = Ok (of_nd (along k l (fun v => piece C 0 l (A v)) y))).
    { unfold fit_ax. cbn [sshape of_nd].
      assert (Za : zlen (nshape (along k la A y)) = zlen (nshape y)) by (rewrite along_shape; unfold zlen; rewrite setn_length; auto).
      assert (Zd : zlen (nshape d) = zlen (nshape y)) by (rewrite Sd; unfold zlen; rewrite setn_length; auto).
      destruct (axis_size_ok (nshape (along k la A y)) axis k) as (E1 & _); [rewrite Za; auto|rewrite along_shape, setn_length; auto|].
      destruct (axis_size_ok (nshape d) axis k) as (E2 & _); [rewrite Zd; auto|rewrite Sd, setn_length; auto|].
      rewrite E1, E2. cbn [bind]. rewrite along_shape, Sd, !nthz_setn by auto.
      destruct Hfit as [->| ->].
      - replace (l =? l + 1) with false by lia. replace (l =? l) with true by lia. cbn [negb].
        f_equal. f_equal. apply along_ext; auto; try lia. intros v Hv. rewrite <- (HA v Hv). rewrite piece_all. reflexivity.
      - replace (l + 1 =? l + 1) with true by lia. rewrite val_of_nd by auto.
        replace (setn k l (nshape y)) with (setn k l (nshape (along k (l + 1) A y))) by (rewrite along_shape, setn_setn; auto).
        rewrite nd_slice_prefix; auto.
        + f_equal. f_equal. rewrite along_along; auto; lia.
        + rewrite along_shape, setn_length. auto.
        + rewrite along_shape, nthz_setn by auto. lia. }
    rewrite Efit. cbn [bind].
    set (a := along k l (fun v => piece C 0 l (A v)) y).
    assert (Wa' : nd_wf a) by (apply along_wf; auto; lia).
    assert (Sa : nshape a = setn k l (nshape y)) by apply along_shape.
    rewrite (py_idwt_spec C fuel junk (of_nd a) (of_nd d) w m axis k (setn k l (nshape y))); auto; try (apply of_nd_ok; auto).
    2: { unfold zlen in *. rewrite setn_length. auto. }
    2: { unfold zlen in *. rewrite setn_length. auto. }
    2: { rewrite setn_length. auto. }
    2-4: rewrite nthz_setn by auto; auto.
    2: { rewrite nthz_setn, setn_setn by auto. apply Hroom. fold F. split; [lia|]. apply HM. left. auto. }
    cbn [bind]. rewrite !val_of_nd by auto.
    assert (Es : ndadd (sax k m (rec_lo w) a) (sax k m (rec_hi w) d) =
                 along k (rec_len m l F) (fun v => syn1 C m w (piece C 0 l (A v)) (piece C o l v)) y).
    { unfold sax. rewrite Sa, Sd, !nthz_setn by auto. rewrite W2, W3. change (dec_len w) with F.
      unfold a, d, piece_ax. cbn [fst snd]. rewrite !along_along; auto; try lia;
        try (intros; apply zlen_piece; lia).
      rewrite ndadd_along; auto; [lia|]. intros v Hv. rewrite !zlen_synthesis; rewrite !zlen_piece, ?W2, ?W3; try lia; unfold F, dec_len in *; lia. }
    rewrite Es. apply IH; auto.
    + intros v Hv. rewrite zlen_syn1; auto; rewrite !zlen_piece by lia; auto. split; [lia|]. fold F. lia.
    + intros l' Hl'. apply HM. right. auto.
Qed.

Theorem py_waverec_spec (y : nd C) w m axis k M l0 t : nd_wf y -> zlen (nshape y) <= 64 ->
  norm_axis (zlen (nshape y)) axis = Z.of_nat k -> (k < List.length (nshape y))%nat -> wf_bank w -> roomy k (nshape y) M ->
  1 <= l0 -> chain m (dec_len w) l0 t -> (forall l, In l t -> rec_len m l (dec_len w) <= M) ->
  py_waverec fuel junk (map (fun p => Some (of_nd (piece_ax k y p))) (pieces 0 (l0 :: t))) w m axis
  = Ok (Some (of_nd (along k (unstack_len m (dec_len w) (l0 :: t)) (unstack C m w (l0 :: t)) y))).
Proof.
  intros Hy H64 Hax Hk Hw Hroom Hl0 Hch HM.
  transitivity (waverec_ax fuel junk (Some (of_nd (along k l0 (piece C 0 l0) y)))
     (map (fun p => Some (of_nd (piece_ax k y p))) (pieces l0 t)) w m axis).
  - destruct t; reflexivity.
  - rewrite (waverec_ax_spec y w m axis k M); auto. intros v _. apply zlen_piece. lia.
Qed.

(** The lengths of a multilevel decomposition fit. *)
Lemma multi_chain m F N n : 2 <= F -> F mod 2 = 0 -> 1 <= N -> resources fuel N F ->
  forall la, la = approx_len m F n N \/ la = approx_len m F n N + 1 ->
  chain m F la (map (fun j => approx_len m F (S j) N) (rev (seq 0 n))).
Proof.
  intros HF HF2 HN Hr. induction n as [|n IH]; intros la Hla; [exact I|].
  rewrite seq_S, rev_app_distr. change (0 + n)%nat with n. cbn [rev app map chain].
  pose proof (approx_len_pos m F n N HN HF) as P. pose proof (approx_len_pos m F (S n) N HN HF) as P1.
  split; [exact Hla|]. split; [lia|].
  assert (E : rec_len m (approx_len m F (S n) N) F = approx_len m F n N + approx_len m F n N mod 2)
    by (cbn [approx_len]; apply rec_coeff_len; auto; lia).
  rewrite E. pose proof (Z.mod_pos_bound (approx_len m F n N) 2 ltac:(lia)). split; [lia|]. split; [apply resources_le with N; auto|]. apply IH. lia.
Qed.

Lemma multi_rec_bound m F N n l : 2 <= F -> F mod 2 = 0 -> 1 <= N ->
  In l (map (fun j => approx_len m F (S j) N) (rev (seq 0 n))) -> rec_len m l F <= 2 * Z.max N F.
Proof.
  intros HF HF2 HN Hl. apply in_map_iff in Hl as (j & <- & _). cbn [approx_len].
  pose proof (approx_len_pos m F j N HN HF) as P. rewrite rec_coeff_len; auto; lia.
Qed.

(** ** Concatenation *)
Lemma pick_along k (x : nd C) idx : (k < List.length (nshape x))%nat -> nd_wf x ->
  forall LT i n, valid (setn k n (nshape x)) idx ->
  Forall (fun p => 0 <= fst p /\ forall v, zlen v = nthz k (nshape x) -> zlen (snd p v) = fst p) LT -> 0 <= i ->
  pick (map (fun p => along k (fst p) (snd p) x) LT) k idx i = gz (List.concat (map (fun p => snd p (line x k idx)) LT)) i.
Proof.
  intros Hk Hx. induction LT as [|[l T] LT IH]; intros i n V HF Hi; cbn [map pick List.concat].
  - unfold gz. rewrite nth_overflow; [destruct (0 <=? i); reflexivity|cbn; lia].
  - inversion HF as [|? ? (Hl & HT) HF']; subst. cbn [fst snd] in *.
    rewrite along_shape, nthz_setn by auto. rewrite gz_app, HT by (apply zlen_line; auto).
    destruct (Z.ltb_spec i l).
    + rewrite ndget_along.
      * rewrite line_setn, nthz_setn; auto. rewrite (valid_len _ _ V), setn_length. auto.
      * rewrite <- (setn_setn k l n). apply valid_setn; auto.
    + apply (IH _ n); auto. lia.
Qed.

(** ** One step of fswavedecn *)
Definition multi_ops (m : mode) (w : wavelet C) (n : nat) (N : Z) : list (Z * (list C -> list C)) :=
  (approx_len m (dec_len w) n N, approx m (dec_lo w) n) ::
  map (fun j => (approx_len m (dec_len w) (S j) N, fun v => analysis m (dec_hi w) (approx m (dec_lo w) j v))) (rev (seq 0 n)).

Lemma multi_ax_ops k m w n (x : nd C) : multi_ax k m w n x = map (fun p => along k (fst p) (snd p) x) (multi_ops m w n (nthz k (nshape x))).
Proof. unfold multi_ax, multi_ops. cbn [map fst snd]. f_equal. rewrite map_map. reflexivity. Qed.

Lemma multi_ops_ok m w n N : wf_bank w -> 1 <= N -> Forall (fun p => 0 <= fst p /\ forall v, zlen v = N -> zlen (snd p v) = fst p) (multi_ops m w n N).
Proof.
  intros Hw HN. pose proof Hw as (W1 & _ & _ & _ & W5). unfold dec_len in *.
  assert (LA : forall j v, zlen v = N -> zlen (approx m (dec_lo w) j v) = approx_len m (zlen (dec_lo w)) j N).
  { intros j v Hv. rewrite zlen_approx by lia. rewrite Hv. reflexivity. }
  apply Forall_forall. intros p [<-|Hp].
  - cbn [fst snd]. pose proof (approx_len_pos m (zlen (dec_lo w)) n N HN W5). split; [unfold dec_len; lia|]. intros. apply LA. auto.
  - apply in_map_iff in Hp as (j & <- & _). cbn [fst snd].
    pose proof (approx_len_pos m (zlen (dec_lo w)) (S j) N HN W5). pose proof (approx_len_pos m (zlen (dec_lo w)) j N HN W5). unfold dec_len. split; [lia|].
    intros v Hv. rewrite zlen_analysis by (rewrite ?LA by auto; lia). rewrite LA by auto. rewrite W1. reflexivity.
Qed.

Lemma multi_ops_lens m w n N : map fst (multi_ops m w n N) = multi_lens m (dec_len w) n N.
Proof. unfold multi_ops, multi_lens. cbn [map fst]. f_equal. rewrite map_map. reflexivity. Qed.
Lemma multi_ops_stacked m w n N v : List.concat (map (fun p => snd p v) (multi_ops m w n N)) = stacked m w n v.
Proof. unfold stacked, multi_ops, multi_analysis. cbn [map snd]. rewrite map_map. reflexivity. Qed.

Lemma setn_same_but k s t n : setn k n s = setn k n t -> same_but k s t = true.
Proof.
  intros H. unfold same_but. destruct (list_eq_dec Z.eq_dec (setn k 0 s) (setn k 0 t)) as [_|E]; auto.
  exfalso. apply E. rewrite <- (setn_setn k 0 n s), <- (setn_setn k 0 n t), H. reflexivity.
Qed.

Lemma nd_concat_multi axis k m w n (x : nd C) : nd_wf x -> norm_axis (zlen (nshape x)) axis = Z.of_nat k -> (k < List.length (nshape x))%nat ->
  wf_bank w -> 1 <= nthz k (nshape x) ->
  nd_concat axis (multi_ax k m w n x) = Ok (stack_ax (mkFstep k n w m) x).
Proof.
  intros Hx Hax Hk Hw HN. unfold nd_concat. unfold multi_ax at 1. cbv zeta.
  assert (S0 : nshape (app_ax k m w n x) = setn k (approx_len m (dec_len w) n (nthz k (nshape x))) (nshape x)) by apply along_shape.
  assert (Z0 : zlen (nshape (app_ax k m w n x)) = zlen (nshape x)) by (rewrite S0; unfold zlen; rewrite setn_length; auto).
  destruct (axis_size_ok (nshape (app_ax k m w n x)) axis k) as (_ & _ & Ep & Eb); [rewrite Z0; auto|rewrite S0, setn_length; auto|].
  rewrite Eb, Ep. rewrite multi_ax_ops.
  replace (forallb _ _) with true.
  2: { symmetry. apply forallb_forall. intros y Hy. apply in_map_iff in Hy as (p & <- & _). apply (setn_same_but k _ _ 0).
       rewrite S0, along_shape, !setn_setn. reflexivity. }
  cbn [negb]. f_equal.
  replace (sumL _) with (sum_of (multi_lens m (dec_len w) n (nthz k (nshape x)))).
  2: { rewrite map_map. unfold sumL, sum_of. rewrite <- multi_ops_lens. f_equal. apply map_ext. intros p. rewrite along_shape, nthz_setn; auto. }
  unfold stack_ax. cbn [fs_ax fs_lev fs_w fs_m]. unfold fs_lens. cbn [fs_ax fs_lev fs_w fs_m]. unfold along at 2.
  rewrite S0, setn_setn.
  assert (Hs : 0 <= sum_of (multi_lens m (dec_len w) n (nthz k (nshape x)))).
  { apply sum_pos. apply multi_lens_pos; auto. apply Hw. }
  apply ndtab_ext; [apply shape_ok_setn; auto; apply Hx|]. intros idx V.
  rewrite <- (multi_ops_stacked m w n (nthz k (nshape x))). eapply pick_along; eauto.
  - apply multi_ops_ok; auto.
  - pose proof (valid_nth _ _ k V) as P. rewrite setn_length in P. specialize (P Hk). lia.
Qed.

Lemma tiles_pieces t : forall o, tiles o t = map (fun p => SRange (fst p) (fst p + snd p)) (pieces o t).
Proof. induction t as [|l t IH]; intros o; cbn [tiles pieces map fst snd]; auto. rewrite IH. reflexivity. Qed.

Lemma mapM_ok {A B} (f : A -> res B) (g : A -> B) l : (forall x, In x l -> f x = Ok (g x)) -> mapM f l = Ok (map g l).
Proof.
  induction l as [|x l IH]; intros H; cbn [mapM map]; [reflexivity|]. rewrite H by (left; auto). cbn [bind].
  rewrite IH by (intros y Hy; apply H; right; auto). reflexivity.
Qed.

(** What one axis needs: a valid axis number, levels the mode can extend, and
    memory. *)
Definition fstep_ok (sh : list Z) (s : fstep (C := C)) (axis : Z) (level : option Z) : Prop :=
  norm_axis (zlen sh) axis = Z.of_nat (fs_ax s) /\ (fs_ax s < List.length sh)%nat /\ wf_bank (fs_w s) /\
  let N := nthz (fs_ax s) sh in
  1 <= N /\ level_is N (dec_len (fs_w s)) level (fs_lev s) /\ levels_ok (fs_m s) (dec_len (fs_w s)) (fs_lev s) N /\
  resources fuel N (dec_len (fs_w s)).

Theorem fsw_step_spec (arr : sarr C) sls s axis level : sarr_ok C arr -> ndim arr <= 64 -> fstep_ok (sshape arr) s axis level ->
  roomy (fs_ax s) (sshape arr) (2 * Z.max (nthz (fs_ax s) (sshape arr)) (dec_len (fs_w s))) ->
  fsw_step fuel junk (arr, sls) (axis, (level, (fs_w s, fs_m s))) =
    Ok (of_nd (stack_ax s (val C arr)), sls ++ [tiles 0 (fs_lens s (sshape arr))]).
Proof.
  intros Ha H64 (Hax & Hk & Hw & HN & Hlev & Hl & Hr) Hroom. destruct s as [k n w m]. cbn [fs_ax fs_lev fs_w fs_m] in *.
  unfold fsw_step.
  destruct (py_wavedec_spec arr w m level axis k n) as (cs & Hcs & Hok & Hv); auto.
  rewrite Hcs. cbn [bind].
  assert (W : nd_wf (val C arr)) by (apply val_wf; auto).
  assert (Esh : mapM (fun c => py_index (sshape c) axis) cs = Ok (multi_lens m (dec_len w) n (nthz k (sshape arr)))).
  { rewrite <- (multi_ops_lens m w).
    rewrite multi_ax_ops in Hv. rewrite nshape_val in Hv.
    revert Hv. generalize (multi_ops m w n (nthz k (sshape arr))). clear Hcs Hok. induction cs as [|c cs IH]; intros [|p l] Hv; cbn [map] in Hv; try discriminate; [reflexivity|].
    cbn [mapM map].
    assert (Ec : val C c = along k (fst p) (snd p) (val C arr)) by congruence.
    assert (Ev : map (val C) cs = map (fun p => along k (fst p) (snd p) (val C arr)) l) by congruence.
    assert (Sc : sshape c = setn k (fst p) (sshape arr)) by (rewrite <- (nshape_val C c), Ec, along_shape; auto).
    destruct (axis_size_ok (sshape c) axis k) as (_ & E & _).
    - rewrite Sc. unfold ndim, zlen in *. rewrite setn_length. auto.
    - rewrite Sc, setn_length. auto.
    - rewrite E. cbn [bind]. rewrite (IH l Ev). cbn [bind]. rewrite Sc, nthz_setn by auto. reflexivity. }
  rewrite Esh. cbn [bind]. rewrite Hv.
  rewrite nd_concat_multi; auto.
Qed.

(** ** One step of fswaverecn *)
Definition unstack_ax (s : fstep (C := C)) (N : Z) (y : nd C) : nd C :=
  let lens := multi_lens (fs_m s) (dec_len (fs_w s)) (fs_lev s) N in
  along (fs_ax s) (unstack_len (fs_m s) (dec_len (fs_w s)) lens) (unstack C (fs_m s) (fs_w s) lens) y.

Lemma pieces_in t : forall o p, Forall (fun l => 0 <= l) t -> In p (pieces o t) -> o <= fst p /\ 0 <= snd p /\ fst p + snd p <= o + sum_of t.
Proof.
  induction t as [|l t IH]; intros o p Hp H; cbn [pieces] in H; [destruct H|].
  inversion Hp; subst. assert (0 <= sum_of t) by (unfold sum_of; clear -H3; induction H3; cbn [fold_right]; lia).
  assert (E : sum_of (l :: t) = l + sum_of t) by reflexivity. destruct H as [<-|H]; cbn [fst snd].
  - lia.
  - destruct (IH _ _ H3 H) as (A & B & D). lia.
Qed.

Theorem fsr_step_spec (y : nd C) s axis N : nd_wf y -> zlen (nshape y) <= 64 ->
  norm_axis (zlen (nshape y)) axis = Z.of_nat (fs_ax s) -> (fs_ax s < List.length (nshape y))%nat -> wf_bank (fs_w s) ->
  1 <= N -> resources fuel N (dec_len (fs_w s)) ->
  let lens := multi_lens (fs_m s) (dec_len (fs_w s)) (fs_lev s) N in
  nthz (fs_ax s) (nshape y) = sum_of lens ->
  roomy (fs_ax s) (nshape y) (2 * Z.max N (dec_len (fs_w s))) ->
  fsr_step fuel junk (of_nd y) (tiles 0 lens, (axis, (fs_w s, fs_m s))) = Ok (of_nd (unstack_ax s N y)).
Proof.
  intros Hy H64 Hax Hk Hw HN Hr lens Hlen Hroom. destruct s as [k n w m]. cbn [fs_ax fs_lev fs_w fs_m] in *.
  unfold fsr_step. cbn [ndim of_nd sshape]. rewrite val_of_nd by auto. unfold ndim. cbn [of_nd sshape].
  destruct (axis_size_ok (nshape y) axis k Hax Hk) as (_ & _ & Ep & _). rewrite Ep.
  pose proof Hw as (_ & _ & _ & W4 & W5).
  pose proof (multi_lens_pos m (dec_len w) n N W5 HN) as Hpos. fold lens in Hpos.
  assert (Hpos' : Forall (fun l => 0 <= l) lens) by (eapply Forall_impl; [|exact Hpos]; cbn; intros; lia).
  rewrite tiles_pieces.
  assert (E : mapM (fun s => v <- nd_slice C y (sset k s (repeat SAll (List.length (nshape y)))) ;; Ok (Some (of_nd v)))
    (map (fun p => SRange (fst p) (fst p + snd p)) (pieces 0 lens)) = Ok (map (fun p => Some (of_nd (piece_ax k y p))) (pieces 0 lens))).
  { assert (Hin : forall p, In p (pieces 0 lens) -> 0 <= fst p /\ 0 <= snd p /\ fst p + snd p <= nthz k (nshape y)).
    { intros p Hp. rewrite Hlen. apply pieces_in in Hp; auto. }
    revert Hin. generalize (pieces 0 lens). intros L. induction L as [|p L IH]; intros Hin; cbn [map mapM]; [reflexivity|].
    destruct (Hin p (or_introl eq_refl)) as (A1 & A2 & A3). rewrite nd_slice_axis by auto. cbn [bind].
    rewrite IH by (intros q Hq; apply Hin; right; auto). reflexivity. }
  rewrite E. cbn [bind]. unfold unstack_ax. cbn [fs_ax fs_lev fs_w fs_m].
  change lens with (approx_len m (dec_len w) n N :: map (fun j => approx_len m (dec_len w) (S j) N) (rev (seq 0 n))).
  rewrite (py_waverec_spec y w m axis k (2 * Z.max N (dec_len w))); auto.
  - apply approx_len_pos; auto.
  - apply multi_chain; auto.
  - intros l Hl. eapply multi_rec_bound; eauto.
Qed.

End FA.
