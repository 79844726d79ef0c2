(** Proofs about the transforms along one axis of strided arrays. *)
From Verif Require Import Base BaseLemmas CConv Spec Lengths Dwt DwtProofs Swt SwtSpec SwtProofs Nd NdSpec Axis.

Lemma mapM_ok {A B} (f : A -> res B) (g : A -> B) l : (forall x, In x l -> f x = Ok (g x)) -> mapM f l = Ok (map g l).
Proof.
  induction l as [|a l IH]; intros H; cbn; auto. rewrite H by (left; auto). cbn.
  rewrite IH by (intros; apply H; right; auto). reflexivity.
Qed.

Lemma mapM_tab {A B} (f : A -> res B) n (h : Z -> A) (g : Z -> B) :
  (forall k, 0 <= k < n -> f (h k) = Ok (g k)) -> mapM f (tab n h) = Ok (tab n g).
Proof.
  unfold tab. intros H. assert (G : forall k, In k (seq 0 (Z.to_nat n)) -> f (h (Z.of_nat k)) = Ok (g (Z.of_nat k))).
  { intros k Hk. apply in_seq in Hk. apply H. lia. }
  clear H. induction (seq 0 (Z.to_nat n)) as [|a l IH]; cbn; auto.
  rewrite G by (left; auto). cbn. rewrite IH by (intros; apply G; right; auto). reflexivity.
Qed.

(** ** Index arithmetic *)

Lemma num_loops_spec axis sh : num_loops axis sh = prodZ (setn axis 1 sh).
Proof.
  unfold num_loops.
  assert (G : forall sh k n, fold_left (fun n '(i, s) => if Nat.eqb i axis then n else n * s) (combine (seq k (length sh)) sh) n
    = n * prodZ (if (k <=? axis)%nat then setn (axis - k) 1 sh else sh)).
  { induction sh0 as [|s l IH]; intros k n; cbn [length seq combine fold_left].
    - destruct (k <=? axis)%nat; rewrite ?setn_nil; cbn; lia.
    - rewrite IH. destruct (Nat.eqb_spec k axis) as [->|Hk].
      + rewrite Nat.leb_refl, Nat.sub_diag. destruct (Nat.leb_spec (S axis) axis); try lia. cbn [setn prodZ]. lia.
      + destruct (Nat.leb_spec k axis); destruct (Nat.leb_spec (S k) axis); try lia.
        * replace (axis - k)%nat with (S (axis - S k)) by lia. cbn [setn prodZ]. lia.
        * cbn [setn prodZ]. lia. }
  rewrite G. cbn [Nat.leb]. rewrite Nat.sub_0_r. lia.
Qed.

Lemma dot_setn k v : forall idx st, length st = length idx -> (k < length idx)%nat ->
  dot (setn k v idx) st = dot idx st + (v - nthz k idx) * nthz k st.
Proof.
  unfold nthz. induction k as [|k IH]; intros [|i idx] [|s st] Hl Hk; cbn in *; try lia.
  rewrite IH by lia. lia.
Qed.

Definition pos_shape (sh : list Z) : Prop := Forall (fun s => 1 <= s) sh.

Lemma axis_offset_spec axis sh st i : length st = length sh -> pos_shape (setn axis 1 sh) ->
  0 <= i < prodZ (setn axis 1 sh) -> axis_offset axis sh st i = dot (unravel (setn axis 1 sh) i) st.
Proof.
  intros Hl Hp Hi. unfold axis_offset.
  set (f := fun '(reduced_idx, offset) '(j, (s, st)) => if Nat.eqb j axis then (reduced_idx, offset)
         else (reduced_idx / s, offset + (reduced_idx mod s) * st)).
  assert (G : forall sh st k off, length st = length sh ->
    let sh' := if (k <=? axis)%nat then setn (axis - k) 1 sh else sh in
    pos_shape sh' ->
    fold_left f (rev (combine (seq k (length sh)) (combine sh st))) (i, off)
    = (i / prodZ sh', off + dot (unravel sh' (i mod prodZ sh')) st)).
  { clear sh st Hl Hp Hi. induction sh as [|s l IH]; intros [|t st] k off Hl; cbn [length] in Hl; try lia.
    - intros sh' _. subst sh'. destruct (k <=? axis)%nat; rewrite ?setn_nil; cbn; rewrite Z.div_1_r; f_equal; lia.
    - intros sh' Hp. cbn [length seq combine rev]. rewrite fold_left_app.
      set (l' := if (S k <=? axis)%nat then setn (axis - S k) 1 l else l).
      assert (Hsh : sh' = (if Nat.eqb k axis then 1 else s) :: l').
      { subst sh' l'. destruct (Nat.eqb_spec k axis) as [->|Hk].
        - rewrite Nat.leb_refl, Nat.sub_diag. destruct (Nat.leb_spec (S axis) axis); try lia. reflexivity.
        - destruct (Nat.leb_spec k axis); destruct (Nat.leb_spec (S k) axis); try lia; auto.
          replace (axis - k)%nat with (S (axis - S k)) by lia. reflexivity. }
      rewrite Hsh in Hp. inversion Hp as [|? ? Hs Hp']; subst.
      rewrite IH by (try exact Hp'; lia). fold l'.
      rewrite Hsh. clear Hsh sh'. cbn [fold_left f].
      pose proof (prodZ_pos l' Hp') as HP. set (P := prodZ l') in *.
      assert (E1 : forall u, 1 <= u -> (i mod (u * P)) / P = (i / P) mod u).
      { intros u Hu. rewrite (Z.mul_comm u P). rewrite Z.rem_mul_r by lia.
        rewrite (Z.mul_comm P). rewrite Z.div_add by lia. rewrite (Z.div_small (i mod P) P); [lia|].
        apply Z.mod_pos_bound. lia. }
      assert (E2 : forall u, 1 <= u -> (i mod (u * P)) mod P = i mod P).
      { intros u Hu. rewrite (Z.mul_comm u P), Z.rem_mul_r by lia.
        rewrite Z.mul_comm, Z_mod_plus_full. apply Zmod_mod. }
      unfold f. destruct (Nat.eqb k axis); cbn [prodZ unravel]; fold P; cbn [dot];
        rewrite E1, E2 by lia; f_equal.
      + f_equal. lia.
      + rewrite Z.mod_1_r. lia.
      + rewrite (Z.mul_comm s P). symmetry. rewrite Z.div_div; lia.
      + lia. }
  specialize (G sh st 0%nat 0 Hl). cbn [Nat.leb] in G. rewrite Nat.sub_0_r in G. rewrite (G Hp).
  cbn [snd]. rewrite Z.mod_small by auto. lia.
Qed.

Lemma unravel_axis axis : forall sh i, (axis < length sh)%nat -> pos_shape (setn axis 1 sh) ->
  0 <= i < prodZ (setn axis 1 sh) -> nthz axis (unravel (setn axis 1 sh) i) = 0.
Proof.
  intros sh i Ha Hp Hi. assert (Hs : shape_ok (setn axis 1 sh)) by (revert Hp; apply Forall_impl; intros; lia).
  pose proof (valid_nth _ _ axis (unravel_valid _ Hs i Hi)) as H. rewrite setn_length in H. specialize (H Ha).
  rewrite nthz_setn in H by auto. lia.
Qed.

Section AP.
Variable C : CRing.
Variable fuel : nat.

(** Validity of a strided array: every index is inside the memory. *)
Definition sarr_ok (a : sarr C) : Prop :=
  shape_ok (sshape a) /\ length (sstrides a) = length (sshape a) /\
  forall idx, valid (sshape a) idx -> 0 <= sbase a + dot idx (sstrides a) < zlen (smem a).
(** No two indices at the same place. *)
Definition no_overlap (a : sarr C) : Prop :=
  forall idx idx', valid (sshape a) idx -> valid (sshape a) idx' ->
    dot idx (sstrides a) = dot idx' (sstrides a) -> idx = idx'.

Lemma val_wf a : sarr_ok a -> nd_wf (val C a).
Proof. intros (H & _). apply ndtab_wf. auto. Qed.

Lemma read_row_ok (m : list C) p st n : (forall j, 0 <= j < n -> 0 <= p + j * st < zlen m) ->
  read_row m p st n = Ok (tab n (fun j => gz m (p + j * st))).
Proof. intros H. unfold read_row. apply mapM_tab. intros k Hk. apply rd_ok. auto. Qed.

Lemma write_row_ok (m row : list C) p st :
  (forall j, 0 <= j < zlen row -> 0 <= p + j * st < zlen m) ->
  (forall j j', 0 <= j < zlen row -> 0 <= j' < zlen row -> j * st = j' * st -> j = j') ->
  exists m', write_row m p st row = Ok m' /\ zlen m' = zlen m /\
    (forall j, 0 <= j < zlen row -> gz m' (p + j * st) = gz row j) /\
    (forall q, (forall j, 0 <= j < zlen row -> q <> p + j * st) -> gz m' q = gz m q).
Proof.
  intros Hb Hi. unfold write_row.
  assert (E0 : combine (tab (zlen row) (fun j => j)) row = tab (zlen row) (fun k => (k, gz row k))).
  { rewrite <- combine_tab, tab_gz. reflexivity. }
  rewrite E0. clear E0.
  destruct (foldM_tab (fun k m' => zlen m' = zlen m /\
     (forall j, 0 <= j < k -> gz m' (p + j * st) = gz row j) /\
     (forall q, (forall j, 0 <= j < k -> q <> p + j * st) -> gz m' q = gz m q))
     (fun m '(j, v) => wr m (p + j * st) v) (zlen row) (fun k => (k, gz row k)) m) as (m' & E & H).
  - apply zlen_nonneg.
  - repeat split; auto; intros; lia.
  - intros k s Hk (Hl & Hw & Hu). rewrite wr_ok by (rewrite Hl; apply Hb; auto).
    eexists. split; [reflexivity|]. rewrite zlen_upd. repeat split; auto.
    + intros j Hj. rewrite gz_upd by (rewrite Hl; apply Hb; auto).
      destruct (Z.eqb_spec (p + j * st) (p + k * st)) as [e|n].
      * assert (j = k) by (apply Hi; lia). congruence.
      * apply Hw. assert (j <> k) by congruence. lia.
    + intros q Hq. rewrite gz_upd by (rewrite Hl; apply Hb; auto).
      destruct (Z.eqb_spec q (p + k * st)) as [e|n].
      * exfalso. apply (Hq k); auto; lia.
      * apply Hu. intros j Hj. apply Hq. lia.
  - exists m'. split; [exact E|]. tauto.
Qed.

Section Loop.
Variables (axis : nat) (inputs : list (sarr C)) (out : sarr C) (kern : list (list C) -> list C -> res (list C))
  (T : list (list C) -> list C).
Let sh := sshape out.
Let N := nthz axis sh.
Hypothesis Hax : (axis < length sh)%nat.
Hypothesis Hout : sarr_ok out.
Hypothesis Hinj : no_overlap out.
Hypothesis Hin : forall a, In a inputs -> sarr_ok a /\ sshape a = setn axis (nthz axis (sshape a)) sh.
Hypothesis Hkern : forall rows row0, map zlen rows = map (fun a => nthz axis (sshape a)) inputs -> zlen row0 = N ->
  kern rows row0 = Ok (T rows) /\ zlen (T rows) = N.

Definition result_at (idx : list Z) : C := gz (T (map (fun a => line (val C a) axis idx) inputs)) (nthz axis idx).

Lemma input_row_ok a i : In a inputs -> pos_shape (setn axis 1 sh) -> 0 <= i < prodZ (setn axis 1 sh) ->
  (let p := sbase a + axis_offset axis sh (sstrides a) i in
   if make_temp a axis then read_row (smem a) p (nthz axis (sstrides a)) (nthz axis (sshape a))
   else read_row (smem a) p 1 (nthz axis (sshape a))) = Ok (line (val C a) axis (unravel (setn axis 1 sh) i)).
Proof.
  intros Ha Hp Hi. destruct (Hin a Ha) as ((Hs & Hl & Hb) & Hsh). cbv zeta.
  assert (Hsp : shape_ok (setn axis 1 sh)) by (revert Hp; apply Forall_impl; intros; lia).
  set (idx := unravel (setn axis 1 sh) i).
  assert (Hv : valid (setn axis 1 sh) idx) by (apply unravel_valid; auto).
  assert (Hli : length idx = length sh) by (rewrite (valid_len _ _ Hv), setn_length; auto).
  assert (Hls : length (sshape a) = length sh) by (rewrite Hsh, setn_length; auto).
  assert (E : axis_offset axis sh (sstrides a) i = dot idx (sstrides a)) by (apply axis_offset_spec; auto; lia).
  assert (Hd : forall j, dot (setn axis j idx) (sstrides a) = dot idx (sstrides a) + j * nthz axis (sstrides a)).
  { intros j. rewrite dot_setn by lia. unfold idx at 2. rewrite unravel_axis by auto. lia. }
  assert (Hvj : forall j, 0 <= j < nthz axis (sshape a) -> valid (sshape a) (setn axis j idx)).
  { intros j Hj. rewrite Hsh. rewrite <- (setn_setn axis _ 1 sh). apply valid_setn; auto. }
  assert (G : read_row (smem a) (sbase a + dot idx (sstrides a)) (nthz axis (sstrides a)) (nthz axis (sshape a))
     = Ok (line (val C a) axis idx)).
  { rewrite read_row_ok.
    - f_equal. unfold line. cbn [nshape val ndtab]. apply tab_ext. intros j Hj.
      unfold val. rewrite ndget_ndtab by (apply Hvj; auto). rewrite Hd. f_equal. lia.
    - intros j Hj. pose proof (Hb _ (Hvj j Hj)) as HH. rewrite Hd in HH. lia. }
  rewrite E. unfold make_temp. destruct (Z.eqb_spec (nthz axis (sstrides a)) 1) as [e|n]; cbn [negb].
  - rewrite <- G. rewrite e. reflexivity.
  - exact G.
Qed.

Lemma axis_loop_spec temp : (make_temp out axis = true -> zlen temp = N) ->
  exists m', axis_loop axis inputs out kern temp = Ok m' /\ zlen m' = zlen (smem out) /\
    (forall idx, valid sh idx -> gz m' (sbase out + dot idx (sstrides out)) = result_at idx) /\
    (forall q, (forall idx, valid sh idx -> q <> sbase out + dot idx (sstrides out)) -> gz m' q = gz (smem out) q).
Proof.
  intros Ht. destruct Hout as (Hs & Hl & Hb). fold sh in Hs, Hl, Hb. unfold axis_loop. fold sh.
  rewrite num_loops_spec. set (sh1 := setn axis 1 sh).
  assert (Hsp : shape_ok sh1) by (apply shape_ok_setn; auto; lia).
  assert (HN : 0 <= N) by (apply shape_ok_nth; auto).
  set (lin := fun idx => ravel sh1 (setn axis 0 idx)).
  destruct (foldM_tab (fun k (st : list C * list C) => let '(m, tmp) := st in
      zlen m = zlen (smem out) /\ (make_temp out axis = true -> zlen tmp = N) /\
      (forall idx, valid sh idx -> lin idx < k -> gz m (sbase out + dot idx (sstrides out)) = result_at idx) /\
      (forall q, (forall idx, valid sh idx -> q <> sbase out + dot idx (sstrides out)) -> gz m q = gz (smem out) q))
      (axis_body axis inputs out kern) (prodZ sh1) (fun i => i) (smem out, temp)) as ([m tmp] & E & H).
  - apply prodZ_nonneg. auto.
  - repeat split; auto. intros idx Hv Hk. exfalso.
    assert (V : valid sh1 (setn axis 0 idx)) by (apply valid_setn; auto; lia).
    pose proof (ravel_bound sh1 _ V). unfold lin in Hk. lia.
  - intros i [m tmp] Hi (Hlm & Htmp & Hdone & Hun). unfold axis_body.
    assert (Hp : pos_shape sh1) by (apply prodZ_pos_inv; auto; lia).
    set (idx0 := unravel sh1 i).
    assert (Hv0 : valid sh1 idx0) by (apply unravel_valid; auto).
    assert (Hli : length idx0 = length sh) by (rewrite (valid_len _ _ Hv0); unfold sh1; rewrite setn_length; auto).
    assert (Ha0 : nthz axis idx0 = 0) by (apply unravel_axis; auto).
    assert (Hd : forall j, dot (setn axis j idx0) (sstrides out) = dot idx0 (sstrides out) + j * nthz axis (sstrides out)).
    { intros j. rewrite dot_setn by lia. rewrite Ha0. lia. }
    assert (Hvj : forall j, 0 <= j < N -> valid sh (setn axis j idx0)).
    { intros j Hj. rewrite <- (setn_nthz axis sh). rewrite <- (setn_setn axis _ 1 sh). apply valid_setn; auto. }
    fold sh. rewrite (mapM_ok _ (fun a => line (val C a) axis idx0)) by (intros a Ha; apply input_row_ok; auto).
    cbn [bind].
    assert (EO : axis_offset axis sh (sstrides out) i = dot idx0 (sstrides out)) by (apply axis_offset_spec; auto; lia).
    rewrite EO. set (p := sbase out + dot idx0 (sstrides out)).
    set (stp := nthz axis (sstrides out)).
    assert (Hbj : forall j, 0 <= j < N -> 0 <= p + j * stp < zlen m).
    { intros j Hj. pose proof (Hb _ (Hvj j Hj)) as HH. rewrite Hd in HH. fold stp in HH. lia. }
    assert (R : exists row0, (if make_temp out axis then Ok tmp else read_row m p 1 (nthz axis sh)) = Ok row0 /\ zlen row0 = N).
    { destruct (make_temp out axis) eqn:Em.
      - exists tmp. auto.
      - unfold make_temp in Em. destruct (Z.eqb_spec (nthz axis (sstrides out)) 1) as [e|]; [|discriminate].
        fold stp in e. rewrite read_row_ok.
        + eexists. split; [reflexivity|]. apply zlen_tab. auto.
        + intros j Hj. specialize (Hbj j Hj). rewrite e in Hbj. lia. }
    destruct R as (row0 & -> & Hrow0). cbn [bind].
    destruct (Hkern (map (fun a => line (val C a) axis idx0) inputs) row0) as (-> & HT); auto.
    { rewrite map_map. apply map_ext_in. intros a Ha. rewrite zlen_line; auto. apply val_wf. apply Hin. auto. }
    cbn [bind]. set (row := T (map (fun a => line (val C a) axis idx0) inputs)) in *.
    destruct (write_row_ok m row p stp) as (m' & Ew & Hlm' & Hw & Hu).
    { rewrite HT. auto. }
    { rewrite HT. intros j j' Hj Hj' Hjj.
      assert (Es : setn axis j idx0 = setn axis j' idx0).
      { apply Hinj; try (apply Hvj; auto). rewrite !Hd. fold stp. lia. }
      apply (f_equal (nthz axis)) in Es. rewrite !nthz_setn in Es by lia. auto. }
    assert (Ew' : (if make_temp out axis then write_row m p stp row else write_row m p 1 row) = Ok m').
    { unfold make_temp. fold stp. destruct (Z.eqb_spec stp 1) as [e|]; cbn [negb]; auto. rewrite <- Ew, e. reflexivity. }
    rewrite Ew'. cbn [bind]. eexists. split; [reflexivity|].
    split; [lia|]. split; [intros Em; rewrite Em; auto|]. rewrite HT in Hw, Hu. split.
    + intros idx Hv Hk.
      assert (V : valid sh1 (setn axis 0 idx)) by (apply valid_setn; auto; lia).
      assert (Ui : unravel sh1 (lin idx) = setn axis 0 idx) by (apply unravel_ravel; auto).
      destruct (Z.eq_dec (lin idx) i) as [e|ne].
      * rewrite e in Ui. fold idx0 in Ui.
        assert (Ei : idx = setn axis (nthz axis idx) idx0).
        { rewrite Ui, setn_setn, setn_nthz. auto. }
        pose proof (valid_nth sh idx axis Hv Hax) as Hj. fold N in Hj.
        assert (Ep : sbase out + dot idx (sstrides out) = p + nthz axis idx * stp).
        { unfold p, stp. rewrite Ei at 1. rewrite Hd. lia. }
        rewrite Ep, Hw by auto. unfold result_at, row. f_equal. f_equal. apply map_ext. intros a.
        rewrite Ui. apply line_setn.
      * rewrite Hu; [apply Hdone; auto; lia|].
        intros j Hj Eq. apply ne.
        assert (Ei : idx = setn axis j idx0).
        { apply Hinj; auto. rewrite Hd. unfold p, stp in Eq. lia. }
        unfold lin. rewrite Ei, setn_setn. pose proof (setn_nthz axis idx0) as Q. rewrite Ha0 in Q. rewrite Q.
        apply ravel_unravel; auto.
    + intros q Hq. rewrite Hu; [apply Hun; auto|].
      intros j Hj Eq. apply (Hq (setn axis j idx0)); auto. rewrite Hd. unfold p, stp in Eq. lia.
  - rewrite E. cbn [bind]. exists m. cbn [fst]. destruct H as (H1 & _ & H3 & H4).
    split; auto. split; auto. split; auto. intros idx Hv. apply H3; auto.
    assert (V : valid sh1 (setn axis 0 idx)) by (apply valid_setn; auto; lia).
    pose proof (ravel_bound sh1 _ V). unfold lin. lia.
Qed.

End Loop.
End AP.

(** ** Contiguous arrays *)

Lemma c_strides_length sh : length (c_strides sh) = length sh.
Proof. induction sh; cbn; auto. Qed.

Lemma dot_c_strides sh : forall idx, length idx = length sh -> dot idx (c_strides sh) = ravel sh idx.
Proof. induction sh as [|s sh IH]; intros [|i idx] H; cbn in *; try lia. rewrite IH; lia. Qed.

Section AP2.
Variable C : CRing.
Add Ring Cring_ring_ax : (rth C).
Variable fuel : nat.

Lemma contig_ok sh (mem : list C) : shape_ok sh -> zlen mem = prodZ sh -> sarr_ok C (mkSarr mem 0 sh (c_strides sh)).
Proof.
  intros Hs Hm. split; [exact Hs|]. split; [apply c_strides_length|].
  cbn [sshape sbase sstrides smem]. intros idx Hv. rewrite dot_c_strides by (apply valid_len; auto).
  rewrite Hm. pose proof (ravel_bound sh idx Hv). lia.
Qed.

Lemma contig_no_overlap sh (mem : list C) : no_overlap C (mkSarr mem 0 sh (c_strides sh)).
Proof.
  intros idx idx' Hv Hv'. cbn [sshape sstrides] in *. rewrite !dot_c_strides by (apply valid_len; auto).
  intros E. rewrite <- (unravel_ravel sh idx), <- (unravel_ravel sh idx') by auto. rewrite E. reflexivity.
Qed.

Lemma of_nd_ok (a : nd C) : nd_wf a -> sarr_ok C (of_nd a).
Proof. intros (H1 & H2). apply contig_ok; auto. Qed.

Lemma val_contig sh (mem : list C) : shape_ok sh -> zlen mem = prodZ sh -> val C (mkSarr mem 0 sh (c_strides sh)) = mkNd sh mem.
Proof.
  intros Hs Hm. unfold val. cbn [sshape sbase sstrides smem]. unfold ndtab. f_equal.
  rewrite <- (tab_gz mem), Hm. apply tab_ext. intros i Hi.
  rewrite dot_c_strides by (apply valid_len; apply unravel_valid; auto).
  rewrite ravel_unravel by auto. rewrite gz_tab by lia. reflexivity.
Qed.

Lemma val_of_nd (a : nd C) : nd_wf a -> val C (of_nd a) = a.
Proof. intros (H1 & H2). destruct a. apply val_contig; auto. Qed.

Lemma nshape_val (a : sarr C) : nshape (val C a) = sshape a.
Proof. reflexivity. Qed.

Lemma np_empty_ok junk sh : prodZ sh < max_alloc ->
  np_empty junk sh = Ok (mkSarr (tab (prodZ sh) junk) 0 sh (c_strides sh) : sarr C).
Proof. intros H. unfold np_empty. replace (prodZ sh <? max_alloc) with true by lia. reflexivity. Qed.

(** Writing into a fresh contiguous array gives exactly the tabulated result. *)
Lemma axis_loop_contig axis inputs sh (mem : list C) kern T temp :
  (axis < length sh)%nat -> shape_ok sh -> zlen mem = prodZ sh ->
  let out := mkSarr mem 0 sh (c_strides sh) in
  (forall a, In a inputs -> sarr_ok C a /\ sshape a = setn axis (nthz axis (sshape a)) sh) ->
  (forall rows row0, map zlen rows = map (fun a => nthz axis (sshape a)) inputs -> zlen row0 = nthz axis sh ->
    kern rows row0 = Ok (T rows) /\ zlen (T rows) = nthz axis sh) ->
  (make_temp out axis = true -> zlen temp = nthz axis sh) ->
  axis_loop axis inputs out kern temp = Ok (ndata (ndtab sh (result_at C axis inputs T))).
Proof.
  intros Hax Hs Hm out Hin Hk Ht.
  destruct (axis_loop_spec C axis inputs out kern T) with (temp := temp) as (m' & E & Hl & Hv & _); auto.
  - apply contig_ok; auto.
  - apply contig_no_overlap.
  - rewrite E. f_equal. cbn [out sshape sbase smem sstrides] in Hl, Hv. unfold ndtab. cbn [ndata].
    rewrite <- (tab_gz m'), Hl, Hm. apply tab_ext. intros i Hi.
    pose proof (unravel_valid sh Hs i Hi) as V. rewrite <- Hv by auto. f_equal.
    rewrite dot_c_strides by (apply valid_len; auto). rewrite ravel_unravel; auto.
Qed.

Lemma check_shapes_ok f err : forall a b axis k, length a = length b ->
  (forall j, (j < length a)%nat -> (k + j)%nat <> axis -> nthz j a = nthz j b) ->
  (forall j, (j < length a)%nat -> (k + j)%nat = axis -> f (nthz j a) (nthz j b) = Ok tt) ->
  check_shapes k axis f err a b = Ok tt.
Proof.
  induction a as [|s a IH]; intros [|t b] axis k Hl H1 H2; cbn in Hl; try lia; cbn [check_shapes]; auto.
  assert (E : (if Nat.eqb k axis then f s t else if s =? t then Ok tt else Err err) = Ok tt).
  { destruct (Nat.eqb_spec k axis) as [e|n].
    - apply (H2 0%nat); cbn; lia.
    - pose proof (H1 0%nat ltac:(cbn; lia) ltac:(lia)) as HH. cbn in HH. rewrite HH, Z.eqb_refl. reflexivity. }
  rewrite E. cbn [bind]. apply IH; [lia| |].
  - intros j Hj Hn. apply (H1 (S j)); cbn; lia.
  - intros j Hj Hn. apply (H2 (S j)); cbn; lia.
Qed.

Lemma check_shapes_setn f err a axis n : (axis < length a)%nat -> f (nthz axis a) n = Ok tt ->
  check_shapes 0 axis f err a (setn axis n a) = Ok tt.
Proof.
  intros Hax Hf. apply check_shapes_ok.
  - rewrite setn_length. auto.
  - intros j Hj Hn. rewrite nthz_setn_ne; auto.
  - intros j Hj Hn. cbn in Hn. subst j. rewrite nthz_setn by auto. auto.
Qed.

Lemma malloc_row_ok (junk : Z -> C) n code : 0 <= n < max_alloc -> exists t, malloc_row junk n code = Ok t /\ zlen t = n.
Proof. intros H. unfold malloc_row. replace (n <? max_alloc) with true by lia. eexists. split; [reflexivity|]. apply zlen_tab. lia. Qed.

(** ** downcoef_axis for arbitrary layouts of input and output *)

Definition axis_kernel (w : wavelet C) (approx : bool) (m : mode) (level : Z) (tr : transform) (x : list C) : list C :=
  let h := if approx then dec_lo w else dec_hi w in
  match tr with DWT_TRANSFORM => analysis m h x | SWT_TRANSFORM => swt_step level h x end.
Definition axis_len (w : wavelet C) (m : mode) (tr : transform) (n : Z) : Z :=
  match tr with DWT_TRANSFORM => coeff_len m n (dec_len w) | SWT_TRANSFORM => n end.
Definition axis_pre (w : wavelet C) (m : mode) (level : Z) (tr : transform) (n : Z) : Prop :=
  wf_bank w /\ resources fuel n (dec_len w) /\
  match tr with
  | DWT_TRANSFORM => min_len m <= n
  | SWT_TRANSFORM => 1 <= level /\ 1 <= n /\ (2 ^ level | n) /\ swt_resources fuel n (dec_len w) level
  end.

Lemma axis_kernel_ok w (approx : bool) m level tr (x row0 : list C) n :
  axis_pre w m level tr n -> zlen x = n -> zlen row0 = axis_len w m tr n ->
  ignore_code row0
      match tr with
      | DWT_TRANSFORM => if approx then dec_a fuel x w row0 m else dec_d fuel x w row0 m
      | SWT_TRANSFORM => if approx then swt_a fuel x w row0 level else swt_d fuel x w row0 level
      end = Ok (axis_kernel w approx m level tr x) /\
  zlen (axis_kernel w approx m level tr x) = axis_len w m tr n.
Proof.
  intros (Hw & Hr & Hp) Hx H0. pose proof Hw as (H1 & H2 & H3 & H4 & H5). subst n.
  destruct tr; unfold axis_kernel, axis_len in *.
  - assert (1 <= zlen x) by (destruct m; cbn in Hp; lia).
    destruct approx.
    + rewrite dec_a_ok by auto. split; [reflexivity|]. apply zlen_analysis; auto. unfold dec_len in *. lia.
    + rewrite dec_d_ok by auto. split; [reflexivity|]. rewrite zlen_analysis by lia. rewrite H1. reflexivity.
  - destruct Hp as (HL & Hn & Hd & Hsr). unfold swt_a, swt_d.
    destruct approx; rewrite c_swt_spec; rewrite ?H1; fold (dec_len w); auto;
      split; try reflexivity; apply zlen_swt_step.
Qed.

Lemma axis_len_bound w m level tr n : axis_pre w m level tr n -> 1 <= n /\ 0 <= axis_len w m tr n < max_alloc.
Proof.
  intros ((H1 & H2 & H3 & H4 & H5) & (Hr & Hr') & Hp). destruct tr; unfold axis_len.
  - assert (1 <= n) by (destruct m; cbn in Hp; lia). pose proof (coeff_len_bounds m n (dec_len w) H H5). lia.
  - lia.
Qed.

Lemma axis_len_buffer w m level tr n : axis_pre w m level tr n ->
  match tr with
  | DWT_TRANSFORM => dwt_buffer_length n (dec_len w) m
  | SWT_TRANSFORM => swt_buffer_length n
  end = axis_len w m tr n.
Proof.
  intros Hp. pose proof (axis_len_bound _ _ _ _ _ Hp). destruct Hp as ((H1 & H2 & H3 & H4 & H5) & _).
  destruct tr; unfold axis_len; [|reflexivity]. apply coeff_len_buffer; lia.
Qed.

Theorem downcoef_axis_spec junk (inp out : sarr C) w axis (approx : bool) m level tr :
  let n := nthz axis (sshape inp) in
  sarr_ok C inp -> sarr_ok C out -> no_overlap C out -> (axis < length (sshape inp))%nat ->
  axis_pre w m level tr n -> sshape out = setn axis (axis_len w m tr n) (sshape inp) ->
  exists mem, downcoef_axis fuel junk inp out w axis approx m level tr = Ok mem /\ zlen mem = zlen (smem out) /\
    (forall idx, valid (sshape out) idx ->
       gz mem (sbase out + dot idx (sstrides out))
       = gz (axis_kernel w approx m level tr (line (val C inp) axis idx)) (nthz axis idx)) /\
    (forall q, (forall idx, valid (sshape out) idx -> q <> sbase out + dot idx (sstrides out)) ->
       gz mem q = gz (smem out) q).
Proof.
  intros n Hi Ho Hno Hax Hpre Hsh. unfold downcoef_axis.
  pose proof (axis_len_bound _ _ _ _ _ Hpre) as (Hn1 & Hb).
  rewrite Hsh, setn_length, Nat.eqb_refl. cbn [negb].
  destruct (Nat.leb_spec (length (sshape inp)) axis); [lia|].
  rewrite check_shapes_setn; auto.
  2: { fold n. pose proof (axis_len_buffer _ _ _ _ _ Hpre) as E. destruct tr; rewrite E, Z.eqb_refl; reflexivity. }
  cbn [bind]. fold n. destruct (malloc_row_ok junk n 6) as (t1 & E1 & _).
  { destruct Hpre as (_ & (_ & ?) & _). lia. }
  assert (X1 : exists t : list C, (if make_temp inp axis then malloc_row junk n 6 else Ok ([] : list C)) = Ok t) by (destruct (make_temp inp axis); eauto).
  destruct X1 as (t & ->). cbn [bind].
  rewrite nthz_setn by auto.
  assert (X2 : exists t : list C, (if make_temp out axis then malloc_row junk (axis_len w m tr n) 6 else Ok ([] : list C)) = Ok t /\
     (make_temp out axis = true -> zlen t = axis_len w m tr n)).
  { destruct (make_temp out axis); [|eexists; split; [reflexivity|discriminate]].
    destruct (malloc_row_ok junk (axis_len w m tr n) 6 Hb) as (t2 & E2 & L2). eauto. }
  destruct X2 as (t2 & -> & Lt2). cbn [bind].
  destruct (axis_loop_spec C axis [inp] out (fun rows row0 =>
    let row := hd [] rows in
    ignore_code row0
      match tr with
      | DWT_TRANSFORM => if approx then dec_a fuel row w row0 m else dec_d fuel row w row0 m
      | SWT_TRANSFORM => if approx then swt_a fuel row w row0 level else swt_d fuel row w row0 level
      end) (fun rows => axis_kernel w approx m level tr (hd [] rows))) with (temp := t2) as (mem & E & Hl & Hv & Hu).
  - rewrite Hsh, setn_length. auto.
  - auto.
  - auto.
  - intros a [<-|[]]. split; auto. rewrite Hsh, setn_setn, setn_nthz. auto.
  - rewrite Hsh, nthz_setn by auto. intros rows row0 Hr H0. cbn [map] in Hr. destruct rows as [|r [|r' rows]]; cbn in Hr; try discriminate.
    injection Hr as Hr. cbn [hd]. apply axis_kernel_ok; auto.
  - rewrite Hsh, nthz_setn by auto. auto.
  - exists mem. split; [exact E|]. split; [auto|]. split.
    + rewrite <- Hsh. intros idx Hidx. rewrite Hv by auto. reflexivity.
    + rewrite <- Hsh. auto.
Qed.
End AP2.
