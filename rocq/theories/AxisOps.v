(** Linear operations along several distinct axes at once, and strided
    selections of an array as such operations. *)
From Coq Require Import Ascii String Permutation.
From Verif Require Import Base BaseLemmas CConv Spec Lengths Dwt Swt Nd NdSpec NdLinear Axis AxisProofs Multidim SwtNd.
From Verif Require FswAxis.

Section AO.
Variable C : CRing.
Add Ring Cring_ring_ao : (rth C).

(** An operation along an axis: the axis, the length of the resulting lines and
    the operation on lines. *)
Definition aop : Type := nat * (Z * (list C -> list C)).
Definition ao_ax (o : aop) : nat := fst o.
Definition ao_n (o : aop) : Z := fst (snd o).
Definition ao_T (o : aop) : list C -> list C := snd (snd o).
Definition ap (o : aop) (x : nd C) : nd C := along (ao_ax o) (ao_n o) (ao_T o) x.
Fixpoint aps (ops : list aop) (x : nd C) : nd C := match ops with [] => x | o :: t => aps t (ap o x) end.

Definition op_ok (sh : list Z) (o : aop) : Prop :=
  (ao_ax o < List.length sh)%nat /\ 0 < ao_n o /\ linop C (nthz (ao_ax o) sh) (ao_n o) (ao_T o).
Definition ops_ok (sh : list Z) (ops : list aop) : Prop := NoDup (map ao_ax ops) /\ Forall (op_ok sh) ops.

Lemma op_ok_setn sh o ax n : op_ok sh o -> ao_ax o <> ax -> op_ok (setn ax n sh) o.
Proof. intros (H1 & H2 & H3) Hne. split; [rewrite setn_length; auto|]. split; auto. rewrite nthz_setn_ne; auto. Qed.
Lemma ops_ok_tail sh o ops : ops_ok sh (o :: ops) -> op_ok sh o /\ ~ In (ao_ax o) (map ao_ax ops) /\ ops_ok sh ops /\
  ops_ok (setn (ao_ax o) (ao_n o) sh) ops.
Proof.
  intros (H1 & H2). cbn [map] in H1. inversion H1; inversion H2; subst. split; auto. split; auto. split; [split; auto|].
  split; auto. apply Forall_forall. intros p Hp. apply op_ok_setn.
  - eapply Forall_forall; eauto.
  - intros E. match goal with H : ~ In _ _ |- _ => apply H end. rewrite <- E. apply in_map. auto.
Qed.
Lemma ops_ok_setn sh ops ax n : ops_ok sh ops -> ~ In ax (map ao_ax ops) -> ops_ok (setn ax n sh) ops.
Proof.
  intros (H1 & H2) Hn. split; auto. apply Forall_forall. intros p Hp. apply op_ok_setn.
  - eapply Forall_forall; eauto.
  - intros E. apply Hn. rewrite <- E. apply in_map. auto.
Qed.

Lemma aps_wf ops : forall x, nd_wf x -> ops_ok (nshape x) ops -> nd_wf (aps ops x).
Proof.
  induction ops as [|o ops IH]; intros x Hx Ho; cbn [aps]; auto. apply ops_ok_tail in Ho. destruct Ho as ((A & B & D) & N & T & T').
  apply IH; auto. apply along_wf; auto; lia.
Qed.
Definition ops_shape (ops : list aop) (sh : list Z) : list Z := fold_left (fun sh o => setn (ao_ax o) (ao_n o) sh) ops sh.
Lemma aps_shape ops : forall x, nshape (aps ops x) = ops_shape ops (nshape x).
Proof. induction ops as [|o ops IH]; intros x; cbn [aps ops_shape fold_left]; auto. rewrite IH. reflexivity. Qed.
Lemma ops_shape_len ops : forall sh, List.length (ops_shape ops sh) = List.length sh.
Proof. induction ops as [|o ops IH]; intros sh; cbn [ops_shape fold_left]; auto. etransitivity; [apply IH|]. apply setn_length. Qed.
Lemma ops_shape_ne ops : forall sh k, ~ In k (map ao_ax ops) -> nthz k (ops_shape ops sh) = nthz k sh.
Proof.
  induction ops as [|o ops IH]; intros sh k H; cbn [ops_shape fold_left]; auto. cbn [map In] in H.
  etransitivity; [apply IH; tauto|]. apply nthz_setn_ne. intros E; apply H; left; auto.
Qed.
Lemma ops_shape_in ops : forall sh o, NoDup (map ao_ax ops) -> In o ops -> (ao_ax o < List.length sh)%nat ->
  nthz (ao_ax o) (ops_shape ops sh) = ao_n o.
Proof.
  induction ops as [|p ops IH]; intros sh o Hd Hi Hl; cbn [In] in Hi; [tauto|]. cbn [map] in Hd. inversion Hd; subst.
  change (ops_shape (p :: ops) sh) with (ops_shape ops (setn (ao_ax p) (ao_n p) sh)).
  destruct Hi as [->|Hi].
  - rewrite ops_shape_ne by auto. apply nthz_setn. auto.
  - apply IH; auto. rewrite setn_length. auto.
Qed.

Lemma aps_along ops : forall x bx n T, nd_wf x -> ops_ok (nshape x) ops -> ~ In bx (map ao_ax ops) ->
  op_ok (nshape x) (bx, (n, T)) -> aps ops (along bx n T x) = along bx n T (aps ops x).
Proof.
  induction ops as [|o ops IH]; intros x bx n T Hx Ho Hb HT; cbn [aps]; auto.
  cbn [map In] in Hb. apply ops_ok_tail in Ho. destruct Ho as (Oo & N & Ot & Ot'). pose proof Oo as (A1 & A2 & A3). pose proof HT as (B1 & B2 & B3).
  cbn [ao_ax ao_n ao_T fst snd] in *. unfold ap.
  rewrite along_comm by (auto; try lia; intros E; apply Hb; left; auto).
  apply IH; auto.
  - apply along_wf; auto; lia.
  - apply op_ok_setn; auto; cbn; intros E; apply Hb; left; auto.
Qed.

(** Two rounds over the same axes are one round. *)
Definition fuse2 (p : aop * aop) : aop := (ao_ax (fst p), (ao_n (snd p), fun v => ao_T (snd p) (ao_T (fst p) v))).
Lemma aps_fuse L : forall x, nd_wf x -> ops_ok (nshape x) (map fst L) ->
  Forall (fun p => ao_ax (snd p) = ao_ax (fst p) /\ 0 < ao_n (snd p) /\ linop C (ao_n (fst p)) (ao_n (snd p)) (ao_T (snd p))) L ->
  aps (map snd L) (aps (map fst L) x) = aps (map fuse2 L) x.
Proof.
  induction L as [|[o p] L IH]; intros x Hx Ho HL; cbn [map aps fst snd]; auto.
  cbn [map fst] in Ho. apply ops_ok_tail in Ho. destruct Ho as (Oo & N & Ot & Ot'). pose proof Oo as (A1 & A2 & A3).
  inversion HL as [|? ? (E1 & E2 & E3) HL']; subst. cbn [fst snd] in *.
  assert (W : nd_wf (ap o x)) by (apply along_wf; auto; lia).
  unfold ap at 1. rewrite E1. rewrite <- aps_along; auto.
  - rewrite IH; auto.
    + f_equal. unfold ap, fuse2. cbn [fst snd ao_ax ao_n ao_T]. apply FswAxis.along_along; auto; try lia. apply A3.
    + apply along_wf; auto; lia.
    + unfold ap. rewrite !along_shape, setn_setn. apply ops_ok_setn; auto.
  - split; [cbn [ao_ax fst]; unfold ap; rewrite along_shape, setn_length; auto|]. split; auto.
    cbn [ao_ax ao_n ao_T fst snd]. unfold ap. rewrite along_shape, nthz_setn by auto. exact E3.
Qed.

Lemma aps_ext L : forall x, nd_wf x -> ops_ok (nshape x) (map fst L) ->
  Forall (fun p : aop * aop => ao_ax (snd p) = ao_ax (fst p) /\ ao_n (snd p) = ao_n (fst p) /\
    forall v, zlen v = nthz (ao_ax (fst p)) (nshape x) -> ao_T (snd p) v = ao_T (fst p) v) L ->
  aps (map snd L) x = aps (map fst L) x.
Proof.
  induction L as [|[o p] L IH]; intros x Hx Ho HL; cbn [map aps fst snd]; auto.
  cbn [map fst] in Ho. apply ops_ok_tail in Ho. destruct Ho as (Oo & N & Ot & Ot'). pose proof Oo as (A1 & A2 & A3).
  inversion HL as [|? ? (E1 & E2 & E3) HL']; subst. cbn [fst snd] in *.
  assert (E : ap p x = ap o x).
  { unfold ap. rewrite E1, E2. apply FswAxis.along_ext; auto. lia. }
  rewrite E. apply IH; auto.
  - apply along_wf; auto; lia.
  - eapply Forall_forall. intros q Hq. pose proof (proj1 (Forall_forall _ _) HL' q Hq) as (Q1 & Q2 & Q3).
    split; auto. split; auto. intros v Hv. apply Q3. rewrite Hv. unfold ap. rewrite along_shape. apply nthz_setn_ne.
    intros Eq. apply N. rewrite <- Eq. apply in_map. apply in_map. auto.
Qed.

Lemma aps_id ops : forall x, nd_wf x -> ops_ok (nshape x) ops ->
  Forall (fun o => ao_n o = nthz (ao_ax o) (nshape x) /\ forall v, zlen v = nthz (ao_ax o) (nshape x) -> ao_T o v = v) ops -> aps ops x = x.
Proof.
  induction ops as [|o ops IH]; intros x Hx Ho HL; cbn [aps]; auto.
  apply ops_ok_tail in Ho. destruct Ho as (Oo & N & Ot & Ot'). pose proof Oo as (A1 & A2 & A3).
  inversion HL as [|? ? (E1 & E2) HL']; subst.
  assert (E : ap o x = x).
  { unfold ap. rewrite E1. etransitivity; [|apply (FswAxis.along_id C (ao_ax o) x); auto]. apply FswAxis.along_ext; auto. lia. }
  rewrite E. auto.
Qed.

(** ** Strided selections *)
Definition pick1 (s : slice) (l : list C) : list C := tab (slice_len (zlen l) s) (fun i => gz l (slice_start s + slice_step s * i)).
Fixpoint sl_off (sl : list slice) (idx : list Z) : list Z :=
  match sl, idx with s :: sl', i :: idx' => slice_start s + slice_step s * i :: sl_off sl' idx' | _, _ => [] end.
Definition pickS (sl : list slice) (x : nd C) : nd C :=
  ndtab (sel_shape (nshape x) sl) (fun idx => ndget x (sl_off sl idx)).

(** Slices that stay inside an axis of [n] entries. *)
Definition sl_ok (n : Z) (s : slice) : Prop := match s with SAll => True | SRange a b st => 0 <= a /\ 1 <= st /\ b <= n end.
Lemma slice_len_nonneg n s : 0 <= n -> 0 <= slice_len n s.
Proof. destruct s; cbn; lia. Qed.
Lemma slice_bound n s i : sl_ok n s -> 0 <= i < slice_len n s -> 0 <= slice_start s + slice_step s * i < n.
Proof.
  destruct s as [|a b st]; cbn [sl_ok slice_len slice_start slice_step]; intros H Hi; [lia|].
  destruct H as (H1 & H2 & H3). assert (Hb : i < (Z.min b n - a + st - 1) / st) by lia.
  assert ((i + 1) * st <= Z.min b n - a + st - 1).
  { apply Z.le_trans with ((Z.min b n - a + st - 1) / st * st); [nia|]. pose proof (Z.mul_div_le (Z.min b n - a + st - 1) st). lia. }
  nia.
Qed.
Lemma sl_off_valid sh : forall sl idx, Forall2 sl_ok sh sl -> valid (sel_shape sh sl) idx -> valid sh (sl_off sl idx).
Proof.
  unfold sel_shape. induction sh as [|n sh IH]; intros sl idx H V; inversion H; subst; cbn in V.
  - destruct idx; cbn in *; tauto.
  - destruct idx as [|i idx]; [tauto|]. cbn. destruct V as (V1 & V2). split; [apply slice_bound; auto|]. apply IH; auto.
Qed.
Lemma sel_shape_ok sh sl : shape_ok sh -> shape_ok (sel_shape sh sl).
Proof.
  unfold sel_shape. intros H. revert sl. induction H; intros [|s sl]; cbn; constructor; auto.
  - apply slice_len_nonneg. auto.
  - apply IHForall.
Qed.
Lemma pickS_wf sl x : nd_wf x -> nd_wf (pickS sl x).
Proof. intros (H & _). apply ndtab_wf. apply sel_shape_ok. auto. Qed.

(** Reading through a view. *)
Lemma dot_off sl : forall idx st, List.length idx = List.length sl -> List.length st = List.length sl ->
  dot (sl_off sl idx) st = dot (map slice_start sl) st + dot idx (map (fun '(s, t) => s * slice_step t) (combine st sl)).
Proof.
  induction sl as [|s sl IH]; intros [|i idx] [|t st] H1 H2; cbn in H1, H2; try lia; cbn; auto.
  rewrite IH by lia. lia.
Qed.
Lemma sview_spec (a : sarr C) sl : sarr_ok C a -> Forall2 sl_ok (sshape a) sl ->
  exists v, sview a sl = Ok v /\ sarr_ok C v /\ sshape v = sel_shape (sshape a) sl /\ val C v = pickS sl (val C a).
Proof.
  intros (H1 & H2 & H3) Hs. assert (Ll : List.length (sshape a) = List.length sl) by (clear -Hs; induction Hs; cbn; congruence).
  unfold sview. rewrite Ll. destruct (Nat.ltb_spec (List.length sl) (List.length sl)); [lia|].
  rewrite Nat.sub_diag. cbn [repeat]. rewrite app_nil_r.
  eexists. split; [reflexivity|]. cbn [sshape sstrides sbase smem].
  assert (Le : forall idx, valid (sel_shape (sshape a) sl) idx -> List.length idx = List.length sl).
  { intros idx V. rewrite (valid_len _ _ V). unfold sel_shape. rewrite map_length, combine_length. lia. }
  assert (G : forall idx, valid (sel_shape (sshape a) sl) idx ->
    sbase a + dot (map slice_start sl) (sstrides a) + dot idx (map (fun '(st, s) => st * slice_step s) (combine (sstrides a) sl))
    = sbase a + dot (sl_off sl idx) (sstrides a)).
  { intros idx V. rewrite dot_off; [lia|apply Le; auto|congruence]. }
  split.
  - split; [apply sel_shape_ok; auto|]. split; [cbn [sshape sstrides]; rewrite !map_length, !combine_length; lia|]. cbn [sshape sstrides sbase smem].
    intros idx V. fold (sel_shape (sshape a) sl) in V. rewrite G by auto. apply H3. apply sl_off_valid; auto.
  - split; [reflexivity|]. unfold val at 1. cbn [sshape sstrides sbase smem]. unfold pickS. rewrite nshape_val.
    fold (sel_shape (sshape a) sl). apply ndtab_ext; [apply sel_shape_ok; auto|]. intros idx V. rewrite G by auto.
    unfold val. rewrite ndget_ndtab by (apply sl_off_valid; auto). reflexivity.
Qed.

(** Selections axis by axis. *)
Definition sls_of (n : nat) (L : list (nat * slice)) : list slice := fold_left (fun sl '(k, v) => set_slice k v sl) L (repeat SAll n).
Lemma set_slice_length k v l : List.length (set_slice k v l) = List.length l.
Proof. revert k. induction l as [|h t IH]; intros [|k]; cbn; auto. Qed.
Lemma nth_set_slice k v l j : nth j (set_slice k v l) SAll = if Nat.eqb j k && (j <? List.length l)%nat then v else nth j l SAll.
Proof.
  revert k j. induction l as [|h t IH]; intros [|k] [|j]; cbn; rewrite ?Bool.andb_false_r; auto.
  rewrite IH. cbn. destruct (Nat.eqb j k); auto.
Qed.
Lemma sls_of_length n L : List.length (sls_of n L) = n.
Proof.
  unfold sls_of. rewrite <- (repeat_length SAll n) at 2. generalize (repeat SAll n). induction L as [|[k v] L IH]; intros l; cbn; auto.
  rewrite IH. apply set_slice_length.
Qed.
Lemma sl_off_set sl : forall k v idx, (k < List.length sl)%nat -> nth k sl SAll = SAll -> List.length idx = List.length sl ->
  sl_off (set_slice k v sl) idx = sl_off sl (setn k (slice_start v + slice_step v * nthz k idx) idx).
Proof.
  induction sl as [|s sl IH]; intros [|k] v [|i idx] Hk Hn Hl; cbn in Hk, Hl; try lia; cbn in *.
  - subst s. cbn. f_equal. destruct (slice_start v + slice_step v * i); reflexivity.
  - f_equal. apply IH; auto; lia.
Qed.
Lemma sel_shape_set sh : forall sl k v, List.length sl = List.length sh -> nth k sl SAll = SAll -> (k < List.length sl)%nat ->
  sel_shape sh (set_slice k v sl) = setn k (slice_len (nthz k sh) v) (sel_shape sh sl).
Proof.
  unfold sel_shape. induction sh as [|n sh IH]; intros [|s sl] [|k] v Hl Hn Hk; cbn in *; try lia; auto.
  f_equal. apply IH; auto; lia.
Qed.
Lemma sel_shape_len sh sl : List.length sl = List.length sh -> List.length (sel_shape sh sl) = List.length sh.
Proof. intros H. unfold sel_shape. rewrite map_length, combine_length. lia. Qed.
Lemma sel_shape_nth sh : forall sl k, List.length sl = List.length sh -> (k < List.length sh)%nat ->
  nthz k (sel_shape sh sl) = slice_len (nthz k sh) (nth k sl SAll).
Proof.
  unfold sel_shape. induction sh as [|n sh IH]; intros [|s sl] [|k] Hl Hk; cbn in *; try lia; auto. apply IH; lia.
Qed.

Lemma pickS_set sl k v (x : nd C) : nd_wf x -> List.length sl = List.length (nshape x) -> (k < List.length sl)%nat -> nth k sl SAll = SAll ->
  sl_ok (nthz k (nshape x)) v ->
  pickS (set_slice k v sl) x = along k (slice_len (nthz k (nshape x)) v) (pick1 v) (pickS sl x).
Proof.
  intros Hx Hl Hk Hn Hv. unfold pickS at 1, along. cbn [nshape pickS ndtab].
  rewrite sel_shape_set by auto.
  assert (S0 : nthz k (sel_shape (nshape x) sl) = nthz k (nshape x)) by (rewrite sel_shape_nth by (auto; lia); rewrite Hn; reflexivity).
  assert (So : shape_ok (setn k (slice_len (nthz k (nshape x)) v) (sel_shape (nshape x) sl))).
  { apply shape_ok_setn; [apply sel_shape_ok; apply Hx|]. apply slice_len_nonneg. apply shape_ok_nth. apply Hx. }
  apply ndtab_ext; auto. intros idx V.
  assert (Li : List.length idx = List.length sl) by (rewrite (valid_len _ _ V), setn_length, sel_shape_len; auto).
  assert (Hkv : 0 <= nthz k idx < slice_len (nthz k (nshape x)) v).
  { pose proof (valid_nth _ _ k V) as Q. rewrite setn_length, sel_shape_len, nthz_setn in Q by (rewrite ?sel_shape_len; auto; lia).
    apply Q. lia. }
  assert (Lz : zlen (line (pickS sl x) k idx) = nthz k (nshape x)).
  { rewrite zlen_line by (apply pickS_wf; auto). cbn [nshape pickS ndtab]. auto. }
  unfold pick1. rewrite Lz. rewrite gz_tab by auto.
  pose proof (slice_bound _ _ _ Hv Hkv) as Hb.
  unfold line. cbn [nshape pickS ndtab]. rewrite S0. rewrite gz_tab by auto.
  unfold pickS. rewrite ndget_ndtab.
  - rewrite sl_off_set by auto. reflexivity.
  - rewrite <- (setn_nthz k (sel_shape (nshape x) sl)). rewrite <- (setn_setn k _ (slice_len (nthz k (nshape x)) v)).
    apply valid_setn; auto. rewrite S0. auto.
Qed.

Lemma pickS_all (x : nd C) : nd_wf x -> pickS (repeat SAll (List.length (nshape x))) x = x.
Proof.
  intros Hx. unfold pickS. rewrite <- (ndtab_ndget x Hx) at 3.
  assert (E : sel_shape (nshape x) (repeat SAll (List.length (nshape x))) = nshape x).
  { unfold sel_shape. clear. induction (nshape x) as [|n sh IH]; cbn; congruence. }
  rewrite E. apply ndtab_ext; [apply Hx|]. intros idx V. f_equal.
  clear E. revert idx V. induction (nshape x) as [|n sh IH]; intros [|i idx] V; cbn in *; try tauto.
  rewrite IH by tauto. f_equal. destruct i; reflexivity.
Qed.

Definition op_of (sh : list Z) (p : nat * slice) : aop := (fst p, (slice_len (nthz (fst p) sh) (snd p), pick1 (snd p))).
Lemma linop_pick1 N s : 0 <= N -> linop C N (slice_len N s) (pick1 s).
Proof.
  intros HN. split.
  - intros x Hx. unfold pick1. rewrite zlen_tab by (apply slice_len_nonneg; apply zlen_nonneg). rewrite Hx. auto.
  - intros a x b y Hx Hy. unfold pick1. rewrite Linear.zlen_vlin by lia. rewrite Hx, Hy, Linear.vlin_tab. apply tab_ext. intros i Hi.
    apply Linear.gz_vlin. lia.
Qed.

Lemma pickS_sls L (x : nd C) : nd_wf x -> NoDup (map fst L) ->
  Forall (fun p => (fst p < List.length (nshape x))%nat /\ sl_ok (nthz (fst p) (nshape x)) (snd p) /\ 0 < slice_len (nthz (fst p) (nshape x)) (snd p)) L ->
  pickS (sls_of (List.length (nshape x)) L) x = aps (map (op_of (nshape x)) L) x.
Proof.
  intros Hx Hd HL.
  assert (G : forall sl, List.length sl = List.length (nshape x) -> (forall p, In p L -> nth (fst p) sl SAll = SAll) ->
    pickS (fold_left (fun sl '(k, v) => set_slice k v sl) L sl) x = aps (map (op_of (nshape x)) L) (pickS sl x)).
  { induction L as [|[k v] L IH]; intros sl Hl Hs; cbn [fold_left map aps]; auto.
    cbn [map fst] in Hd. inversion Hd; subst. inversion HL as [|? ? (B1 & B2 & B3) HL']; subst. cbn [fst snd] in *.
    rewrite IH; auto.
    - f_equal. unfold ap, op_of. cbn [ao_ax ao_n ao_T fst snd]. apply pickS_set; auto; [lia|]. apply (Hs (k, v)). left; auto.
    - rewrite set_slice_length. auto.
    - intros p Hp. rewrite nth_set_slice. destruct (Nat.eqb_spec (fst p) k) as [E|E].
      + exfalso. apply H1. rewrite <- E. apply in_map. auto.
      + cbn. apply Hs. right; auto. }
  unfold sls_of. rewrite G.
  - rewrite pickS_all by auto. reflexivity.
  - apply repeat_length.
  - intros p _. apply nth_repeat.
Qed.

End AO.
