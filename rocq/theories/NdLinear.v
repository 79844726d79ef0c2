(** Linear operations along different axes commute; analysis followed by
    synthesis along an axis is the one-sample extension of odd lines. *)
From Verif Require Import Base BaseLemmas CConv Spec ExtLemmas Lengths DwtProofs PR Linear SwtSpec Nd NdSpec Dwt.

Section NL.
Variable C : CRing.
Add Ring Cring_ring_ndl : (rth C).

(** A linear map from lists of length [N] to lists of length [n]. *)
Definition linop (N n : Z) (T : list C -> list C) : Prop :=
  (forall x, zlen x = N -> zlen (T x) = n) /\
  (forall a x b y, zlen x = N -> zlen y = N -> T (vlin a x b y) = vlin a (T x) b (T y)).

Definition delta (N t : Z) : list C := tab N (fun i => if i =? t then r1 else r0).

Lemma linop_rep N n T x k : linop N n T -> 0 <= N -> zlen x = N ->
  gz (T x) k = sumZ 0 N (fun t => gz x t [*] gz (T (delta N t)) k).
Proof.
  intros (HL & HT) HN Hx.
  assert (Hlt : forall f : Z -> C, zlen (tab N f) = N) by (intros; apply zlen_tab; auto).
  assert (G : forall M, 0 <= M -> M <= N ->
    gz (T (tab N (fun i => if i <? M then gz x i else r0))) k = sumZ 0 M (fun t => gz x t [*] gz (T (delta N t)) k)).
  { apply (natlike_ind (fun M => M <= N -> gz (T (tab N (fun i => if i <? M then gz x i else r0))) k = sumZ 0 M (fun t => gz x t [*] gz (T (delta N t)) k))).
    - intros _. rewrite sumZ_empty by lia.
      replace (tab N (fun i => if i <? 0 then gz x i else r0)) with (vlin r0 x r0 x).
      + rewrite HT by auto. rewrite gz_vlin by reflexivity. ring.
      + apply list_ext; [rewrite zlen_vlin by auto; rewrite Hlt; auto|].
        intros i Hi. rewrite zlen_vlin in Hi by auto. rewrite gz_vlin by reflexivity. rewrite gz_tab by lia.
        replace (i <? 0) with false by lia. ring.
    - intros M HM IH HMN. change (Z.succ M) with (M + 1). rewrite sumZ_last by lia. rewrite <- IH by lia.
      replace (tab N (fun i => if i <? M + 1 then gz x i else r0)) with
        (vlin r1 (tab N (fun i => if i <? M then gz x i else r0)) (gz x M) (delta N M)).
      + rewrite HT by (unfold delta; rewrite Hlt; auto). rewrite gz_vlin.
        * ring.
        * rewrite !HL; auto. apply Hlt.
      + unfold delta. rewrite vlin_tab. apply tab_ext. intros i Hi.
        destruct (Z.ltb_spec i M), (Z.ltb_spec i (M + 1)), (Z.eqb_spec i M); try lia; subst; ring. }
  rewrite <- G by lia. f_equal. f_equal. transitivity (tab (zlen x) (gz x)); [symmetry; apply tab_gz|].
  rewrite Hx. apply tab_ext. intros i Hi. replace (i <? N) with true by lia. reflexivity.
Qed.

Lemma ndget_along_rep ax n T (x : nd C) idx : nd_wf x -> linop (nthz ax (nshape x)) n T ->
  valid (setn ax n (nshape x)) idx ->
  ndget (along ax n T x) idx = sumZ 0 (nthz ax (nshape x)) (fun t => ndget x (setn ax t idx) [*] gz (T (delta (nthz ax (nshape x)) t)) (nthz ax idx)).
Proof.
  intros Hx HT Hv. rewrite ndget_along by auto.
  rewrite (linop_rep (nthz ax (nshape x)) n) by (auto; try (apply shape_ok_nth; apply Hx); apply zlen_line; auto).
  apply sumZ_ext. intros t Ht. unfold line. rewrite gz_tab by lia. reflexivity.
Qed.

Lemma valid_setn_drop sh : forall idx k n t, (k < length sh)%nat -> valid (setn k n sh) idx -> 0 <= t < nthz k sh -> valid sh (setn k t idx).
Proof.
  intros idx k n t Hk Hv Ht. rewrite <- (setn_nthz k sh). rewrite <- (setn_setn k _ n sh). apply valid_setn; auto.
Qed.

Theorem along_comm ax bx n1 n2 T1 T2 (x : nd C) : nd_wf x -> ax <> bx ->
  (ax < length (nshape x))%nat -> (bx < length (nshape x))%nat -> 0 <= n1 -> 0 <= n2 ->
  linop (nthz ax (nshape x)) n1 T1 -> linop (nthz bx (nshape x)) n2 T2 ->
  along ax n1 T1 (along bx n2 T2 x) = along bx n2 T2 (along ax n1 T1 x).
Proof.
  intros Hx Hne Ha Hb Hn1 Hn2 H1 H2.
  set (N1 := nthz ax (nshape x)) in *. set (N2 := nthz bx (nshape x)) in *.
  apply nd_ext.
  - apply along_wf; auto. apply along_wf; auto.
  - apply along_wf; auto. apply along_wf; auto.
  - rewrite !along_shape. apply setn_comm. auto.
  - rewrite !along_shape. intros idx Hv.
    assert (E1 : nthz ax (nshape (along bx n2 T2 x)) = N1) by (rewrite along_shape, nthz_setn_ne; auto).
    assert (E2 : nthz bx (nshape (along ax n1 T1 x)) = N2) by (rewrite along_shape, nthz_setn_ne; auto).
    rewrite ndget_along_rep; rewrite ?E1; auto.
    2: { apply along_wf; auto. }
    assert (Hv' : valid (setn bx n2 (setn ax n1 (nshape x))) idx) by (rewrite setn_comm by auto; auto).
    rewrite ndget_along_rep; rewrite ?E2; auto.
    2: { apply along_wf; auto. }
    transitivity (sumZ 0 N1 (fun t => sumZ 0 N2 (fun u =>
       ndget x (setn bx u (setn ax t idx)) [*] gz (T2 (delta N2 u)) (nthz bx idx) [*] gz (T1 (delta N1 t)) (nthz ax idx)))).
    + apply sumZ_ext. intros t Ht. rewrite ndget_along_rep; fold N2; auto.
      * rewrite <- sumZ_scal_r. apply sumZ_ext. intros u Hu.
        rewrite (nthz_setn_ne bx ax) by auto. reflexivity.
      * apply (valid_setn_drop (setn bx n2 (nshape x)) idx ax n1 t); auto; [rewrite setn_length; auto|].
        rewrite nthz_setn_ne by auto. auto.
    + rewrite (sumZ_swap C). apply sumZ_ext. intros u Hu. rewrite ndget_along_rep; fold N1; auto.
      * rewrite <- sumZ_scal_r. apply sumZ_ext. intros t Ht.
        rewrite (nthz_setn_ne ax bx) by auto. rewrite (setn_comm bx ax) by auto. ring.
      * apply (valid_setn_drop (setn ax n1 (nshape x)) idx bx n2 u); auto; [rewrite setn_length; auto|].
        rewrite nthz_setn_ne by auto. auto.
Qed.

(** ** Instances *)
Lemma linop_analysis m (h : list C) N : 1 <= N -> 1 <= zlen h -> linop N (coeff_len m N (zlen h)) (analysis m h).
Proof.
  intros HN Hh. split.
  - intros x Hx. rewrite zlen_analysis by lia. rewrite Hx. reflexivity.
  - intros. apply analysis_linear. lia.
Qed.

Lemma linop_synthesis m (g : list C) N : 0 <= rec_len m N (zlen g) -> linop N (rec_len m N (zlen g)) (synthesis m g).
Proof.
  intros HN. split.
  - intros x Hx. rewrite zlen_synthesis; rewrite Hx; auto.
  - intros. apply synthesis_linear. lia.
Qed.

Lemma zlen_swt_step' l (h x : list C) : zlen (swt_step l h x) = zlen x.
Proof. unfold swt_step. apply zlen_tab. apply zlen_nonneg. Qed.

Lemma linop_swt l (h : list C) N : linop N N (swt_step l h).
Proof.
  split.
  - intros x Hx. rewrite zlen_swt_step'. auto.
  - intros a x b y Hx Hy. unfold swt_step. rewrite zlen_vlin by lia. rewrite Hx, Hy, vlin_tab. apply tab_ext.
    intros n Hn. rewrite <- !sumZ_scal, <- sumZ_add. apply sumZ_ext. intros t _. rewrite gz_vlin by lia. ring.
Qed.

(** One-sample extension of odd lines (identity on even ones). *)
Definition pad1 (m : mode) (x : list C) : list C := tab (zlen x + zlen x mod 2) (ext m x).

Lemma zlen_pad1 m x : zlen (pad1 m x) = zlen x + zlen x mod 2.
Proof. unfold pad1. apply zlen_tab. pose proof (zlen_nonneg x). lia. Qed.

Lemma linop_pad1 m N : 0 <= N -> linop N (N + N mod 2) (pad1 m).
Proof.
  intros HN. split.
  - intros x Hx. rewrite zlen_pad1. rewrite Hx. auto.
  - intros a x b y Hx Hy. unfold pad1. rewrite zlen_vlin by lia. rewrite Hx, Hy, vlin_tab. apply tab_ext.
    intros n Hn. apply ext_linear. lia.
Qed.

Definition pax (ax : nat) (m : mode) (x : nd C) : nd C :=
  let N := nthz ax (nshape x) in along ax (N + N mod 2) (pad1 m) x.

Lemma dax_wf ax m h (x : nd C) : nd_wf x -> 0 <= coeff_len m (nthz ax (nshape x)) (zlen h) -> nd_wf (dax ax m h x).
Proof. intros. apply along_wf; auto. Qed.

Theorem pr_ax ax m (w : wavelet C) (x : nd C) : nd_wf x -> (ax < length (nshape x))%nat ->
  pr_wavelet w -> min_len m <= nthz ax (nshape x) ->
  ndadd (sax ax m (rec_lo w) (dax ax m (dec_lo w) x)) (sax ax m (rec_hi w) (dax ax m (dec_hi w) x)) = pax ax m x.
Proof.
  intros Hx Hax Hpr Hm. pose proof Hpr as (Hh1 & Hg0 & Hg1 & HF2 & HF & _).
  set (N := nthz ax (nshape x)) in *. assert (HN : 1 <= N) by (destruct m; cbn in Hm; lia).
  set (F := zlen (dec_lo w)) in *.
  pose proof (coeff_len_bounds m N F HN HF) as Hcl.
  assert (E : rec_len m (coeff_len m N F) F = N + N mod 2) by (apply rec_coeff_len; auto).
  assert (L0 : nthz ax (nshape (dax ax m (dec_lo w) x)) = coeff_len m N F) by (unfold dax; rewrite along_shape, nthz_setn; auto).
  assert (L1 : nthz ax (nshape (dax ax m (dec_hi w) x)) = coeff_len m N F) by (unfold dax; rewrite along_shape, nthz_setn, Hh1; auto).
  assert (W0 : nd_wf (dax ax m (dec_lo w) x)) by (apply dax_wf; auto; fold N F; lia).
  assert (W1 : nd_wf (dax ax m (dec_hi w) x)) by (apply dax_wf; auto; rewrite Hh1; fold N F; lia).
  assert (S0 : nshape (sax ax m (rec_lo w) (dax ax m (dec_lo w) x)) = setn ax (N + N mod 2) (nshape x)).
  { unfold sax. rewrite along_shape, L0, Hg0, E. unfold dax. rewrite along_shape, setn_setn. reflexivity. }
  assert (S1 : nshape (sax ax m (rec_hi w) (dax ax m (dec_hi w) x)) = setn ax (N + N mod 2) (nshape x)).
  { unfold sax. rewrite along_shape, L1, Hg1, E. unfold dax. rewrite along_shape, setn_setn. reflexivity. }
  assert (Hs : shape_ok (setn ax (N + N mod 2) (nshape x))) by (apply shape_ok_setn; [apply Hx|lia]).
  unfold ndadd, pax. rewrite S0. fold N. unfold along at 1. apply ndtab_ext; auto.
  intros idx Hv.
  assert (Li : zlen (line x ax idx) = N) by (apply zlen_line; auto).
  assert (Vx : valid (setn ax (coeff_len m N F) (nshape x)) (setn ax 0 idx)).
  { rewrite <- (setn_setn ax _ (N + N mod 2) (nshape x)). apply valid_setn; auto; lia. }
  assert (G : forall h g, zlen h = F -> zlen g = F ->
    ndget (sax ax m g (dax ax m h x)) idx = gz (synthesis m g (analysis m h (line x ax idx))) (nthz ax idx)).
  { intros h g Hh Hg. unfold sax.
    assert (Lh : nthz ax (nshape (dax ax m h x)) = coeff_len m N F) by (unfold dax; rewrite along_shape, nthz_setn, Hh; auto).
    rewrite Lh, Hg, E. rewrite ndget_along.
    - f_equal. f_equal. rewrite <- (line_setn _ ax 0 idx). unfold dax. fold N. rewrite Hh.
      rewrite line_along; auto.
      + rewrite line_setn. auto.
      + rewrite line_setn. rewrite zlen_analysis; rewrite ?Li; auto; try lia. rewrite Hh. auto.
    - unfold dax. rewrite along_shape, setn_setn. auto. }
  rewrite !G by auto.
  rewrite <- gz_vadd.
  - rewrite (analysis_synthesis C (dec_lo w) (dec_hi w) (rec_lo w) (rec_hi w)) by (auto; rewrite Li; auto).
    unfold pad1. rewrite Li. reflexivity.
  - rewrite !zlen_synthesis; rewrite !zlen_analysis; rewrite ?Li, ?Hg0, ?Hg1, ?Hh1; fold F; auto; try lia.
Qed.

End NL.
