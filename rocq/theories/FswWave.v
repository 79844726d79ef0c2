(** wavedec and waverec along one axis of an array of any dimension. *)
From Verif Require Import Base BaseLemmas CConv Spec ExtLemmas UpConv Lengths Dwt DwtProofs PR LengthsProofs Linear Multilevel MultilevelProofs
  Swt SwtSpec Nd NdSpec NdLinear Axis AxisProofs AxisProofs2 Multidim MultidimProofs MultidimFacts MultilevelNd MultilevelNdProofs SwtNd PackSpec Packing PackBox
  Fsw FswSpec FswLine FswAxis FswProofs FswBands.
Open Scope Z_scope.

Section FW.
Variable C : CRing.
Variable fuel : nat.
Variable junk : Z -> C.
Add Ring Cring_ring_fw : (rth C).

Lemma waverec_ax_gen (y : nd C) w m axis k M : nd_wf y -> zlen (nshape y) <= 64 ->
  norm_axis (zlen (nshape y)) axis = Z.of_nat k -> (k < List.length (nshape y))%nat -> wf_bank w -> roomy k (nshape y) M ->
  forall t A la o c ds, (forall v, zlen v = nthz k (nshape y) -> zlen (A v) = la) -> 1 <= la -> chain fuel m (dec_len w) la t ->
  (forall l, In l t -> rec_len m l (dec_len w) <= M) ->
  sarr_ok C c -> val C c = along k la A y -> Forall2 (fun d p => sarr_ok C d /\ val C d = piece_ax C k y p) ds (pieces o t) ->
  exists r, waverec_ax fuel junk (Some c) (map Some ds) w m axis = Ok (Some r) /\ sarr_ok C r /\
    val C r = along k (msyn_len m (dec_len w) la t) (fun v => msyn C m w (A v) o t v) y.
Proof.
  intros Hy H64 Hax Hk Hw Hroom. set (N := nthz k (nshape y)) in *. set (F := dec_len w) in *.
  pose proof Hw as (W1 & W2 & W3 & W4 & W5). fold F in W2, W3, W5.
  induction t as [|l t IH]; intros A la o c ds HA Hla Hch HM Hc Ec Hds.
  - inversion Hds; subst. exists c. cbn [map waverec_ax msyn msyn_len]. auto.
  - destruct ds as [|d ds]; [inversion Hds|]. cbn [pieces] in Hds. assert (Hd : sarr_ok C d /\ val C d = piece_ax C k y (o, l)) by (inversion Hds; auto).
    assert (Hds' : Forall2 (fun d p => sarr_ok C d /\ val C d = piece_ax C k y p) ds (pieces (o + l) t)) by (inversion Hds; auto).
    destruct Hd as (Hdo & Ed). destruct Hch as (Hfit & Hl1 & Hrl & Hres & Hch).
    assert (Sd : sshape d = setn k l (nshape y)) by (rewrite <- (nshape_val C d), Ed; apply along_shape).
    assert (Sc : sshape c = setn k la (nshape y)) by (rewrite <- (nshape_val C c), Ec; apply along_shape).
    assert (Efit : exists c', fit_ax c d axis = Ok c' /\ sarr_ok C c' /\ val C c' = along k l (fun v => piece C 0 l (A v)) y).
    { unfold fit_ax.
      destruct (axis_size_ok (sshape c) axis k) as (E1 & _); [rewrite Sc; unfold zlen; rewrite setn_length; exact Hax|rewrite Sc, setn_length; auto|].
      destruct (axis_size_ok (sshape d) axis k) as (E2 & _); [rewrite Sd; unfold zlen; rewrite setn_length; exact Hax|rewrite Sd, setn_length; auto|].
      rewrite E1, E2. cbn [bind]. rewrite Sc, Sd, !nthz_setn by auto.
      destruct Hfit as [->| ->].
      - replace (l =? l + 1) with false by lia. replace (l =? l) with true by lia. cbn [negb].
        exists c. split; auto. split; auto. rewrite Ec. apply along_ext; auto; try lia. intros v Hv. rewrite <- (HA v Hv). rewrite piece_all. reflexivity.
      - replace (l + 1 =? l + 1) with true by lia. rewrite Ec.
        assert (Wa : nd_wf (along k (l + 1) A y)) by (apply along_wf; auto; lia).
        replace (setn k l (nshape y)) with (setn k l (nshape (along k (l + 1) A y))) by (rewrite along_shape, setn_setn; auto).
        rewrite nd_slice_prefix; auto.
        + eexists. split; [reflexivity|].
          assert (Wp : nd_wf (along k l (piece C 0 l) (along k (l + 1) A y))) by (apply along_wf; auto; lia).
          split; [apply of_nd_ok; auto|]. rewrite val_of_nd by auto. rewrite along_along; auto; lia.
        + rewrite along_shape, setn_length. auto.
        + rewrite along_shape, nthz_setn by auto. lia. }
    destruct Efit as (c' & Ef & Hc' & Ec'). cbn [map waverec_ax msyn msyn_len]. rewrite Ef. cbn [bind].
    assert (Sc' : sshape c' = setn k l (nshape y)) by (rewrite <- (nshape_val C c'), Ec'; apply along_shape).
    rewrite (py_idwt_spec C fuel junk c' d w m axis k (setn k l (nshape y))); auto.
    2: { unfold zlen in *. rewrite setn_length. auto. }
    2: { unfold zlen in *. rewrite setn_length. auto. }
    2: { rewrite setn_length. auto. }
    2-4: rewrite nthz_setn by auto; auto.
    2: { rewrite nthz_setn, setn_setn by auto. apply Hroom. fold F. split; [lia|]. apply HM. left. auto. }
    cbn [bind].
    assert (Es : ndadd (sax k m (rec_lo w) (val C c')) (sax k m (rec_hi w) (val C d)) =
                 along k (rec_len m l F) (fun v => syn1 C m w (piece C 0 l (A v)) (piece C o l v)) y).
    { rewrite Ec', Ed. unfold piece_ax. cbn [fst snd]. unfold sax. rewrite !along_shape, !nthz_setn by auto. rewrite W2, W3. change (dec_len w) with F.
      rewrite !along_along; auto; try lia; try (intros; apply zlen_piece; lia).
      rewrite ndadd_along; auto; [lia|]. intros v Hv. rewrite !zlen_synthesis; rewrite !zlen_piece, ?W2, ?W3; try lia; unfold F, dec_len in *; lia. }
    rewrite Es.
    assert (Wn : nd_wf (along k (rec_len m l F) (fun v => syn1 C m w (piece C 0 l (A v)) (piece C o l v)) y)) by (apply along_wf; auto; fold F in Hrl; lia).
    apply (IH _ (rec_len m l F) (o + l)); auto.
    + intros v Hv. rewrite zlen_syn1; auto; rewrite !zlen_piece by lia; auto. split; [lia|]. fold F. lia.
    + intros l' Hl'. apply HM. right. auto.
    + apply of_nd_ok. auto.
    + apply val_of_nd. auto.
Qed.

Lemma pieces_nth t : forall o j, (j < List.length t)%nat -> nth j (pieces o t) (0, 0) = (o + sum_of (firstn j t), nth j t 0).
Proof.
  induction t as [|l t IH]; intros o j Hj; cbn in Hj; [lia|]. destruct j as [|j]; cbn [pieces nth firstn].
  - f_equal. unfold sum_of. cbn. lia.
  - rewrite IH by lia. change (sum_of (l :: firstn j t)) with (l + sum_of (firstn j t)). f_equal. lia.
Qed.
Lemma pieces_length t : forall o, List.length (pieces o t) = List.length t.
Proof. induction t; intros o; cbn; auto. Qed.

Lemma multi_ax_nth k m w n j (x : nd C) : nd_wf x -> (k < List.length (nshape x))%nat -> wf_bank w -> 1 <= nthz k (nshape x) -> (j <= n)%nat ->
  nth j (multi_ax C k m w n x) x = sub_ax (mkFstep k n w m) (Z.of_nat j) x.
Proof.
  intros Hx Hk (_ & _ & _ & _ & W5) HN Hj. unfold multi_ax, sub_ax, fs_lens, multi_lens, multi_analysis. cbn [fs_ax fs_lev fs_w fs_m]. rewrite Nat2Z.id. destruct j as [|j]; [reflexivity|]. cbn [nth].
  assert (Hq : (j < List.length (rev (seq 0 n)))%nat) by (rewrite rev_length, seq_length; lia).
  assert (G : forall B (f : nat -> B) d, nth j (map f (rev (seq 0 n))) d = f (nth j (rev (seq 0 n)) 0%nat)).
  { intros B f d. rewrite nth_indep with (d' := f 0%nat) by (rewrite map_length; auto). apply map_nth. }
  rewrite G. unfold det_ax. rewrite G. apply along_ext; auto.
  - match goal with |- 0 <= ?a => assert (1 <= a) by (apply approx_len_pos; auto) end. lia.
  - intros v _. rewrite G. reflexivity.
Qed.

Lemma multi_pieces k m w n (x : nd C) : nd_wf x -> (k < List.length (nshape x))%nat -> wf_bank w -> 1 <= nthz k (nshape x) ->
  let s := mkFstep k n w m in
  multi_ax C k m w n x = map (piece_ax C k (stack_ax s x)) (pieces 0 (fs_lens s (nshape x))).
Proof.
  intros Hx Hk Hw HN s. pose proof Hw as (W1 & _ & _ & _ & W5).
  apply nth_ext with (d := x) (d' := piece_ax C k (stack_ax s x) (0, 0)).
  - unfold multi_ax. cbn [List.length]. rewrite !map_length, pieces_length, rev_length, seq_length, fs_lens_length. reflexivity.
  - intros j Hj. assert (Hj' : (j <= n)%nat). { unfold multi_ax in Hj. cbn [List.length] in Hj. rewrite map_length, rev_length, seq_length in Hj. lia. }
    rewrite multi_ax_nth by auto. rewrite map_nth, pieces_nth by (rewrite fs_lens_length; unfold s; cbn [fs_lev]; lia).
    rewrite Z.add_0_l. fold s. symmetry.
    assert (Hp : Forall (fun l => 1 <= l) (fs_lens s (nshape x))) by (apply multi_lens_pos; auto).
    assert (Hjn : (j < List.length (fs_lens s (nshape x)))%nat) by (rewrite fs_lens_length; unfold s; cbn [fs_lev]; lia).
    destruct (tile_bounds _ _ Hp Hjn) as (T1 & T2 & T3).
    unfold piece_ax, sub_ax, stack_ax. cbn [fst snd]. rewrite Nat2Z.id. change k with (fs_ax s) at 1. rewrite along_along; auto; try lia.
    + apply along_ext; auto; [lia|]. intros v Hv. change (fs_ax s) with k in Hv. unfold stacked, fs_lens. change (fs_ax s) with k. rewrite <- Hv. change (fs_m s) with m. change (fs_w s) with w. change (fs_lev s) with n.
      rewrite <- zlen_multi by (auto; lia). apply piece_concat.
      rewrite <- (map_length zlen), zlen_multi by (auto; lia). rewrite Hv. exact Hjn.
    + intros v Hv. rewrite zlen_stacked by (auto; change (fs_ax s) with k in Hv; lia). rewrite Hv. reflexivity.
Qed.

Theorem wavedec_round_trip (data : sarr C) w m level axis k n B : sarr_ok C data -> ndim data <= 64 ->
  norm_axis (ndim data) axis = Z.of_nat k -> (k < List.length (sshape data))%nat -> pr_wavelet w ->
  1 <= nthz k (sshape data) -> level_is (nthz k (sshape data)) (dec_len w) level n ->
  levels_ok m (dec_len w) n (nthz k (sshape data)) -> resources fuel (nthz k (sshape data)) (dec_len w) ->
  fsw_good C fuel B (sshape data) [mkFstep k n w m] ->
  exists cs r, py_wavedec fuel junk data w m level axis = Ok cs /\ py_waverec fuel junk (map Some cs) w m axis = Ok (Some r) /\
    sshape r = grown (mkFstep k n w m) (sshape data) /\ forall idx, Nd.valid (sshape data) idx -> ndget (val C r) idx = ndget (val C data) idx.
Proof.
  intros Hd H64 Hax Hk Hpr HN Hlev Hl Hr Hg. set (s := mkFstep k n w m) in *. pose proof (pr_wf w Hpr) as Hw.
  pose proof (fsw_good_tail _ _ _ _ _ _ Hg) as (_ & _ & Hs). pose proof Hs as (_ & _ & _ & _ & _ & A6 & A7).
  pose proof (val_wf C data Hd) as W.
  destruct (py_wavedec_spec C fuel junk data w m level axis k n) as (cs & E & Hok & Ev); auto.
  { eapply fsw_good_roomy with (s := s); eauto. }
  exists cs.
  set (y := stack_ax s (val C data)). set (N := nthz k (sshape data)) in *.
  assert (Hgv : fstep_good C fuel B (nshape (val C data)) s) by (rewrite nshape_val; auto).
  assert (Wy : nd_wf y) by (eapply stack_ax_wf; eauto).
  assert (Sy : nshape y = setn k (sum_of (fs_lens s (sshape data))) (sshape data)).
  { unfold y. rewrite stack_ax_shape, nshape_val. reflexivity. }
  pose proof Hw as (W1 & W2 & W3 & W4 & W5).
  assert (Hp : Forall2 (fun d p => sarr_ok C d /\ val C d = piece_ax C k y p) cs (pieces 0 (fs_lens s (sshape data)))).
  { rewrite (multi_pieces k m w n (val C data)) in Ev by (rewrite ?nshape_val; auto). rewrite nshape_val in Ev. fold s in Ev. fold y in Ev.
    revert Hok Ev. generalize (pieces 0 (fs_lens s (sshape data))). clear. induction cs as [|c cs IH]; intros [|p l] Hok Ev; cbn [map] in Ev; try discriminate; constructor.
    - split; [inversion Hok; auto|]. congruence.
    - apply IH; [inversion Hok; auto|]. congruence. }
  unfold fs_lens, multi_lens in Hp. cbn [pieces] in Hp. destruct cs as [|c ds]; [inversion Hp|].
  assert (Hc : sarr_ok C c /\ val C c = piece_ax C k y (0, approx_len (fs_m s) (dec_len (fs_w s)) (fs_lev s) (nthz (fs_ax s) (sshape data)))) by (inversion Hp; auto).
  assert (Hds : Forall2 (fun d p => sarr_ok C d /\ val C d = piece_ax C k y p) ds (pieces (0 + approx_len m (dec_len w) n N) (map (fun j => approx_len m (dec_len w) (S j) N) (rev (seq 0 n))))) by (inversion Hp; auto).
  destruct Hc as (Hc & Ec). change (val C c = piece_ax C k y (0, approx_len m (dec_len w) n N)) in Ec. unfold piece_ax in Ec. cbn [fst snd] in Ec.
  destruct (waverec_ax_gen y w m axis k (nthz k B)) with (t := map (fun j => approx_len m (dec_len w) (S j) N) (rev (seq 0 n)))
    (A := piece C 0 (approx_len m (dec_len w) n N)) (la := approx_len m (dec_len w) n N) (o := 0 + approx_len m (dec_len w) n N) (c := c) (ds := ds)
    as (r & Er & Hor & Evr); auto.
  - rewrite Sy. unfold zlen, ndim in *. rewrite setn_length. unfold zlen in *. lia.
  - rewrite Sy. unfold zlen. rewrite setn_length. exact Hax.
  - rewrite Sy, setn_length. auto.
  - rewrite Sy. intros l Hll. rewrite setn_setn. pose proof (fsw_good_roomy C fuel junk B (sshape data) [s] s (nthz k B) Hg (Z.le_refl _)) as R. apply R. auto.
  - intros v _. apply zlen_piece. pose proof (approx_len_pos m (dec_len w) n N HN W5). lia.
  - pose proof (approx_len_pos m (dec_len w) n N HN W5). lia.
  - apply (multi_chain C fuel junk); auto.
  - intros l Hll. etransitivity; [eapply multi_rec_bound; eauto|exact A6].
  - exists r. split; [exact E|]. split.
    + destruct ds; [|exact Er]. cbn [map] in *. exact Er.
    + assert (Eg : val C r = grow_ax C s (val C data)).
      { rewrite Evr. rewrite <- (unstack_stack_ax C fuel junk B) by auto. unfold unstack_ax. fold y. rewrite nshape_val. reflexivity. }
      split; [rewrite <- (nshape_val C r), Eg, grow_ax_shape, nshape_val; reflexivity|].
      intros idx V. rewrite Eg. change (grow_ax C s (val C data)) with (grow_all C [s] (val C data)). eapply grow_all_get; rewrite ?nshape_val; eauto.
Qed.

Theorem wavedec_lines (data : sarr C) w m level axis k n : sarr_ok C data -> ndim data <= 64 ->
  norm_axis (ndim data) axis = Z.of_nat k -> (k < List.length (sshape data))%nat -> wf_bank w ->
  1 <= nthz k (sshape data) -> level_is (nthz k (sshape data)) (dec_len w) level n ->
  levels_ok m (dec_len w) n (nthz k (sshape data)) -> resources fuel (nthz k (sshape data)) (dec_len w) ->
  roomy k (sshape data) (2 * Z.max (nthz k (sshape data)) (dec_len w)) ->
  exists cs, py_wavedec fuel junk data w m level axis = Ok cs /\ List.length cs = S n /\
    forall j, (j <= n)%nat -> val C (nth j cs data) = sub_ax (mkFstep k n w m) (Z.of_nat j) (val C data).
Proof.
  intros Hd H64 Hax Hk Hw HN Hlev Hl Hr Hroom. destruct (py_wavedec_spec C fuel junk data w m level axis k n) as (cs & E & _ & Ev); auto.
  exists cs. split; auto. split.
  - rewrite <- (map_length (val C) cs), Ev. unfold multi_ax. cbn [List.length]. rewrite map_length, rev_length, seq_length. reflexivity.
  - intros j Hj. rewrite <- (map_nth (val C)), Ev. apply multi_ax_nth; auto; rewrite ?nshape_val; auto. apply val_wf. auto.
Qed.

End FW.
