(** Circular shifts of n-dimensional data along one axis. *)
From Coq Require Import Ascii String.
From Verif Require Import Base BaseLemmas CConv Spec ExtLemmas Lengths LengthsProofs Dwt DwtProofs PR Linear Swt SwtSpec SwtProofs Nd NdSpec NdLinear Axis AxisProofs AxisProofs2 Multidim MultidimProofs MultidimFacts Multilevel MultilevelProofs Facts1 MultilevelNd MultilevelNdProofs MultilevelNdFacts SwtNd SwtNdArgs AxisOps NdSynth NdSwtSpec SwtNdBand SwtNdSlices SwtNdLevel SwtNdLevel2 SwtNdFwd SwtNdInv Mra MraProofs MranLoop MranSum MranAdd MranSwt MranDwt Cyclic CyclicMain CyclicNd.
From Verif Require FswAxis.

Section R.
Variable C : CRing.
Add Ring Cring_ring_rn : (rth C).
Variable fuel : nat.
Notation step := (step C).
Notation lev := (lev_shape C).

(** numpy.roll(x, s, axis): the element at i moves to i + s modulo the length. *)
Definition ndroll (ax : nat) (s : Z) (x : nd C) : nd C :=
  ndtab (nshape x) (fun idx => ndget x (setn ax ((nthz ax idx - s) mod nthz ax (nshape x)) idx)).

Lemma ndroll_along ax s (x : nd C) : nd_wf x -> (ax < List.length (nshape x))%nat -> ndroll ax s x = along ax (nthz ax (nshape x)) (roll s) x.
Proof.
  intros Wx Hax. unfold ndroll, along. rewrite setn_nthz. apply ndtab_ext; [apply Wx|]. intros idx V.
  assert (Hv : 0 <= nthz ax idx < nthz ax (nshape x)) by (apply valid_nth; auto). unfold roll. rewrite zlen_line by auto. rewrite gz_tab by auto.
  unfold line. rewrite gz_tab by (apply Z.mod_pos_bound; lia). reflexivity.
Qed.
Lemma ndroll_wf ax s (x : nd C) : nd_wf x -> nd_wf (ndroll ax s x).
Proof. intros (H & _). apply ndtab_wf. auto. Qed.
Lemma ndroll_shape ax s (x : nd C) : nshape (ndroll ax s x) = nshape x.
Proof. reflexivity. Qed.

Lemma dax_roll_same ax h s (x : nd C) : nd_wf x -> (ax < List.length (nshape x))%nat -> 1 <= nthz ax (nshape x) -> nthz ax (nshape x) mod 2 = 0 -> 1 <= zlen h ->
  dax ax PERIODIZATION h (ndroll ax (2 * s) x) = ndroll ax s (dax ax PERIODIZATION h x).
Proof.
  intros Wx Hax H1 H2 Hh. set (n := nthz ax (nshape x)) in *.
  assert (Wd : nd_wf (dax ax PERIODIZATION h x)) by (apply dax_wf; auto; cbn [coeff_len]; lia).
  rewrite (ndroll_along ax s) by (auto; unfold dax; rewrite along_shape, setn_length; auto).
  unfold dax at 1. rewrite ndroll_shape. fold n. rewrite ndroll_along by auto. fold n. cbn [coeff_len].
  rewrite FswAxis.along_along; auto; try lia; [|intros v Hv; rewrite zlen_roll; auto].
  unfold dax. rewrite along_shape, nthz_setn by auto. fold n. cbn [coeff_len].
  rewrite FswAxis.along_along; auto; try lia; [|intros v Hv; rewrite zlen_analysis by lia; cbn [coeff_len]; rewrite Hv; reflexivity].
  unfold along. apply ndtab_ext; [apply shape_ok_setn; [apply Wx|lia]|]. intros idx V. f_equal. apply analysis_roll; rewrite zlen_line; auto.
Qed.
Lemma dax_roll_other ax bx m h s (x : nd C) : nd_wf x -> ax <> bx -> (ax < List.length (nshape x))%nat -> (bx < List.length (nshape x))%nat ->
  1 <= nthz ax (nshape x) -> 1 <= nthz bx (nshape x) -> 1 <= zlen h -> 0 <= coeff_len m (nthz ax (nshape x)) (zlen h) ->
  dax ax m h (ndroll bx s x) = ndroll bx s (dax ax m h x).
Proof.
  intros Wx Hne Hax Hbx H1 H2 Hh Hc.
  assert (Wd : nd_wf (dax ax m h x)) by (apply dax_wf; auto).
  rewrite (ndroll_along bx s (dax ax m h x)) by (auto; unfold dax; rewrite along_shape, setn_length; auto).
  unfold dax. rewrite ndroll_shape, along_shape, nthz_setn_ne by auto. rewrite ndroll_along by auto.
  apply along_comm; auto; try lia; [apply linop_analysis; auto|apply linop_roll; auto].
Qed.

Lemma band_roll_other plan bx s : forall key (x : nd C), nd_wf x -> plan_ok C fuel plan (nshape x) -> ~ In bx (map (st_ax C) plan) ->
  (bx < List.length (nshape x))%nat -> 1 <= nthz bx (nshape x) -> band C key plan (ndroll bx s x) = ndroll bx s (band C key plan x).
Proof.
  induction plan as [|t p IH]; intros [|c k] x Wx Hp Hni Hbx Hb; cbn [band]; auto.
  destruct Hp as (Ht & Hd & Hp). cbn [map] in Hni. pose proof Ht as (Ha & Hw & Hm & Hr). destruct (step_len C fuel t (nshape x) Ht) as (L1 & L2).
  pose proof (zlen_pick C c (st_w C t) Hw) as Zp.
  rewrite dax_roll_other; auto; try (rewrite Zp; destruct Hw as (_ & _ & _ & _ & ?); lia); [|intros E; apply Hni; left; auto].
  apply IH.
  - apply (dax_wf' C fuel); auto.
  - rewrite dax_shape by auto. auto.
  - intros Hi; apply Hni; right; auto.
  - unfold dax. rewrite along_shape, setn_length. auto.
  - unfold dax. rewrite along_shape, nthz_setn_ne; auto. intros E; apply Hni; left; auto.
Qed.

Definition rolled_axis (plan : list step) (bx : nat) (sh : list Z) : Prop :=
  In bx (map (st_ax C) plan) /\ NoDup (map (st_ax C) plan) /\ (forall t, In t plan -> st_ax C t = bx -> st_m C t = PERIODIZATION) /\ nthz bx sh mod 2 = 0.

Lemma plan_axis p : forall sh q, plan_ok C fuel p sh -> In q p -> NoDup (map (st_ax C) p) -> (st_ax C q < List.length sh)%nat /\ 1 <= nthz (st_ax C q) sh.
Proof.
  induction p as [|r p IH]; intros sh q Hp Hq Hnd; [destruct Hq|]. destruct Hp as (Hr & _ & Hp). inversion Hnd; subst.
  destruct Hq as [<-|Hq]; [split; [apply Hr|apply (step_len C fuel r sh Hr)]|].
  destruct (IH _ q Hp Hq) as (A & B); auto. unfold step_shape in A, B. rewrite setn_length in A. split; auto.
  rewrite nthz_setn_ne in B; auto. intros E. apply H1. rewrite <- E. apply in_map. auto.
Qed.

Lemma band_roll plan bx s : forall key (x : nd C), nd_wf x -> plan_ok C fuel plan (nshape x) -> rolled_axis plan bx (nshape x) -> String.length key = List.length plan ->
  band C key plan (ndroll bx (2 * s) x) = ndroll bx s (band C key plan x).
Proof.
  induction plan as [|t p IH]; intros [|c k] x Wx Hp (Hi & Hnd & HM & He) Hk; cbn in Hk; try lia; [destruct Hi|].
  assert (Hb : (bx < List.length (nshape x))%nat /\ 1 <= nthz bx (nshape x)).
  { apply in_map_iff in Hi. destruct Hi as (q & <- & Hq). apply (plan_axis (t :: p)); auto. }
  destruct Hp as (Ht & Hd & Hp). cbn [map] in Hi, Hnd. inversion Hnd as [|? ? Hni Hnd']; subst. cbn [band].
  pose proof Ht as (Ha & Hw & Hm & Hr). destruct (step_len C fuel t (nshape x) Ht) as (L1 & L2). pose proof (zlen_pick C c (st_w C t) Hw) as Zp.
  assert (Zp1 : 1 <= zlen (pick C c (st_w C t))) by (rewrite Zp; destruct Hw as (_ & _ & _ & _ & ?); lia).
  set (y := dax (st_ax C t) (st_m C t) (pick C c (st_w C t)) x).
  assert (Wy : nd_wf y) by (apply (dax_wf' C fuel); auto).
  assert (Sy : nshape y = step_shape C t (nshape x)) by (apply dax_shape; auto).
  assert (Sy' : nshape y = setn (st_ax C t) (coeff_len (st_m C t) (nthz (st_ax C t) (nshape x)) (zlen (pick C c (st_w C t)))) (nshape x)) by reflexivity.
  destruct (Nat.eq_dec bx (st_ax C t)) as [->|Hne].
  - assert (Ey : dax (st_ax C t) (st_m C t) (pick C c (st_w C t)) (ndroll (st_ax C t) (2 * s) x) = ndroll (st_ax C t) s y).
    { unfold y. rewrite (HM t (or_introl eq_refl) eq_refl). apply dax_roll_same; auto. }
    rewrite Ey. apply band_roll_other; auto; [rewrite Sy; auto| |]; rewrite Sy'; [rewrite setn_length; auto|rewrite nthz_setn by auto; rewrite Zp; lia].
  - assert (Ey : dax (st_ax C t) (st_m C t) (pick C c (st_w C t)) (ndroll bx (2 * s) x) = ndroll bx (2 * s) y).
    { unfold y. apply dax_roll_other; auto; try apply Hb. rewrite Zp. lia. }
    rewrite Ey. apply IH; auto; [rewrite Sy; auto|].
    split; [destruct Hi; [congruence|auto]|]. split; auto. split; [intros q Hq; apply HM; right; auto|]. rewrite Sy', nthz_setn_ne by auto. auto.
Qed.

Theorem dwtn_roll junk (x y : sarr C) w m axes plan bx s : sarr_ok C x -> sarr_ok C y -> val C y = ndroll bx (2 * s) (val C x) -> 1 <= ndim x <= 64 -> plan <> [] ->
  resolves C (ndim x) w m (default_axes (ndim x) axes) plan -> plan_ok C fuel plan (sshape x) -> rolled_axis plan bx (sshape x) ->
  exists X, dwtn fuel junk x w m axes = Ok X /\ dwtn fuel junk y w m axes = Ok (map (fun '(k, v) => (k, of_nd (ndroll bx s (val C v)))) X).
Proof.
  intros Ox Oy Ey Hn Hne HR HP HO. assert (HS : sshape y = sshape x) by (rewrite <- !(nshape_val C), Ey; reflexivity).
  assert (Hny : ndim y = ndim x) by (unfold ndim; rewrite HS; auto). assert (Wx := val_wf C x Ox).
  eexists. split; [apply (dwtn_bands C fuel junk x w m axes plan); auto|].
  rewrite (dwtn_bands C fuel junk y w m axes plan) by (rewrite ?Hny, ?HS; auto). f_equal. rewrite map_map. apply map_ext_in. intros k Hk.
  rewrite Ey, band_roll; rewrite ?nshape_val; auto; [|apply ad_keys_length; auto].
  rewrite val_of_nd; auto. apply (band_wf C fuel); rewrite ?nshape_val; auto.
Qed.

(** Along an axis which is not transformed, in any mode. *)
Theorem dwtn_roll_other junk (x y : sarr C) w m axes plan bx s : sarr_ok C x -> sarr_ok C y -> val C y = ndroll bx s (val C x) -> 1 <= ndim x <= 64 -> plan <> [] ->
  resolves C (ndim x) w m (default_axes (ndim x) axes) plan -> plan_ok C fuel plan (sshape x) -> ~ In bx (map (st_ax C) plan) ->
  (bx < List.length (sshape x))%nat -> 1 <= nthz bx (sshape x) ->
  exists X, dwtn fuel junk x w m axes = Ok X /\ dwtn fuel junk y w m axes = Ok (map (fun '(k, v) => (k, of_nd (ndroll bx s (val C v)))) X).
Proof.
  intros Ox Oy Ey Hn Hne HR HP HO Hb Hb1. assert (HS : sshape y = sshape x) by (rewrite <- !(nshape_val C), Ey; reflexivity).
  assert (Hny : ndim y = ndim x) by (unfold ndim; rewrite HS; auto). assert (Wx := val_wf C x Ox).
  eexists. split; [apply (dwtn_bands C fuel junk x w m axes plan); auto|].
  rewrite (dwtn_bands C fuel junk y w m axes plan) by (rewrite ?Hny, ?HS; auto). f_equal. rewrite map_map. apply map_ext_in. intros k Hk.
  rewrite Ey, band_roll_other; rewrite ?nshape_val; auto.
  rewrite val_of_nd; auto. apply (band_wf C fuel); rewrite ?nshape_val; auto.
Qed.

(** Several levels: shifts by multiples of 2^N. *)
Definition rolled_levels (plan : list step) (bx : nat) (sh : list Z) (N : nat) : Prop :=
  In bx (map (st_ax C) plan) /\ (forall t, In t plan -> st_ax C t = bx -> st_m C t = PERIODIZATION) /\ (2 ^ Z.of_nat N | nthz bx sh).

Lemma rolled_level plan bx sh B N n : levels_good C fuel B sh plan N -> rolled_levels plan bx sh N -> (n < N)%nat -> rolled_axis plan bx (lev plan n sh).
Proof.
  intros HG (Hi & HM & Hdv) Hn. pose proof (HG O ltac:(lia)) as (_ & _ & _ & _ & Hd & H6). split; auto. split; auto. split; auto.
  apply in_map_iff in Hi. destruct Hi as (t & <- & Ht). destruct (H6 t Ht) as ((Ha & Hw & Hm & Hr) & _). cbn [lev_shape] in Ha, Hm.
  rewrite nthz_lev_shape by auto. rewrite (HM t Ht eq_refl) in *. cbn [min_len] in Hm.
  assert (Hp : (2 ^ Z.of_nat (S n) | nthz (st_ax C t) sh)).
  { destruct Hdv as (q & Hq). replace (Z.of_nat N) with (Z.of_nat (N - S n) + Z.of_nat (S n)) in Hq by lia. rewrite Z.pow_add_r in Hq by lia. exists (q * 2 ^ Z.of_nat (N - S n)). rewrite Hq. ring. }
  assert (Hp' : (2 ^ Z.of_nat n | nthz (st_ax C t) sh)) by (destruct Hp as (q & Hq); rewrite Nat2Z.inj_succ, Z.pow_succ_r in Hq by lia; exists (2 * q); rewrite Hq; ring).
  pose proof (half_len (dec_len (st_w C t)) _ n Hp') as E0. pose proof (half_len (dec_len (st_w C t)) _ (S n) Hp) as E1.
  rewrite Nat2Z.inj_succ, Z.pow_succ_r in E1 by lia. assert (0 < 2 ^ Z.of_nat n) by (apply Z.pow_pos_nonneg; lia).
  set (u := approx_len PERIODIZATION (dec_len (st_w C t)) n (nthz (st_ax C t) sh)) in *. set (v := approx_len PERIODIZATION (dec_len (st_w C t)) (S n) (nthz (st_ax C t) sh)) in *. clearbody u v.
  assert (u = 2 * v) by nia. lia.
Qed.

Lemma appr_roll plan bx B N s (x : nd C) : nd_wf x -> levels_good C fuel B (nshape x) plan N -> rolled_levels plan bx (nshape x) N ->
  forall n, (n <= N)%nat -> appr C plan n (ndroll bx (2 ^ Z.of_nat N * s) x) = ndroll bx (2 ^ Z.of_nat (N - n) * s) (appr C plan n x).
Proof.
  intros Wx HG HR. induction n as [|n IH]; intros Hn; cbn [appr]; [rewrite Nat.sub_0_r; reflexivity|].
  rewrite IH by lia. destruct (appr_wf C fuel plan B n x Wx) as (Wn & Sn); [intros j Hj; apply HG; lia|].
  replace (2 ^ Z.of_nat (N - n) * s) with (2 * (2 ^ Z.of_nat (N - S n) * s)).
  - apply band_roll; auto; rewrite ?Sn.
    + apply (plan_good_ok C fuel B). apply HG. lia.
    + apply (rolled_level plan bx (nshape x) B N n); auto.
    + apply all_a_length.
  - replace (Z.of_nat (N - n)) with (Z.succ (Z.of_nat (N - S n))) by lia. rewrite Z.pow_succ_r by lia. ring.
Qed.

Theorem wavedecn_roll junk (x y : sarr C) w m axes plan B N bx s : sarr_ok C x -> sarr_ok C y -> val C y = ndroll bx (2 ^ Z.of_nat N * s) (val C x) ->
  1 <= ndim x <= 64 -> plan <> [] -> resolves C (ndim x) w m (default_axes (ndim x) axes) plan -> plan_good C fuel B (sshape x) plan ->
  (forall t, In t plan -> levels_ok (st_m C t) (dec_len (st_w C t)) N (nthz (st_ax C t) (sshape x))) -> rolled_levels plan bx (sshape x) N ->
  exists a X b Y, wavedecn fuel junk x w m (Some (Z.of_nat N)) axes = Ok (a, X) /\ wavedecn fuel junk y w m (Some (Z.of_nat N)) axes = Ok (b, Y) /\
    val C b = ndroll bx s (val C a) /\ List.length Y = N /\
    forall j d, nth_error X j = Some d -> nth_error Y j = Some (map (fun '(k, v) => (k, of_nd (ndroll bx (2 ^ Z.of_nat j * s) (val C v)))) d).
Proof.
  intros Ox Oy Ey Hn Hne HR HG Hlev HO. assert (HS : sshape y = sshape x) by (rewrite <- !(nshape_val C), Ey; reflexivity).
  assert (Hny : ndim y = ndim x) by (unfold ndim; rewrite HS; auto). assert (Wx := val_wf C x Ox).
  assert (HL : levels_good C fuel B (sshape x) plan N) by (apply levels_good_intro; auto).
  assert (Hc : check_level (level_pairs C (sshape x) plan) (Some (Z.of_nat N)) = Ok (Z.of_nat N)).
  { unfold check_level. destruct plan as [|t p]; [congruence|]. unfold level_pairs. cbn [map list_min]. replace (Z.of_nat N <? 0) with false by lia. reflexivity. }
  destruct (wavedecn_spec C fuel junk x w m (Some (Z.of_nat N)) axes plan B (Z.of_nat N)) as (a & Ea & Oa & Va); auto; [rewrite Nat2Z.id; auto|].
  destruct (wavedecn_spec C fuel junk y w m (Some (Z.of_nat N)) axes plan B (Z.of_nat N)) as (b & Eb & Ob & Vb); auto; rewrite ?Hny, ?HS; auto; [rewrite Nat2Z.id; auto|].
  rewrite Nat2Z.id in *. eexists _, _, _, _. split; [exact Ea|]. split; [exact Eb|].
  assert (HL' : levels_good C fuel B (nshape (val C x)) plan N) by (rewrite nshape_val; auto).
  assert (HO' : rolled_levels plan bx (nshape (val C x)) N) by (rewrite nshape_val; auto).
  pose proof (appr_roll plan bx B N s (val C x) Wx HL' HO') as HA.
  split; [rewrite Va, Vb, Ey, HA by lia; rewrite Nat.sub_diag; change (2 ^ Z.of_nat 0) with 1; rewrite Z.mul_1_l; reflexivity|].
  split; [rewrite map_length, rev_length, seq_length; auto|]. intros j d Hj. rewrite nth_error_map in Hj |- *.
  destruct (nth_error (rev (seq 0 N)) j) as [i|] eqn:Ei; [|discriminate]. cbn [option_map] in *. injection Hj as <-.
  assert (Hi : (j < N)%nat /\ i = (N - j - 1)%nat).
  { clear -Ei. revert j Ei. induction N as [|N IH]; intros j Ei; [destruct j; discriminate|]. rewrite seq_S, rev_app_distr in Ei. cbn [rev app Nat.add] in Ei.
    destruct j as [|j]; cbn [nth_error] in Ei; [injection Ei as <-; lia|]. destruct (IH j Ei). lia. }
  destruct Hi as (Hj & ->). f_equal. rewrite Ey, HA by lia. unfold det. rewrite map_map. apply map_ext_in. intros k Hk. apply tl_keys in Hk. destruct Hk as (Hk & _).
  destruct (appr_wf C fuel plan B (N - j - 1) (val C x) Wx) as (Wn & Sn); [intros q Hq; apply HL'; lia|].
  pose proof (plan_good_ok _ _ _ _ _ (HL' (N - j - 1)%nat ltac:(lia))) as Hpo. rewrite <- Sn in Hpo.
  f_equal. f_equal. rewrite val_of_nd by (apply (band_wf C fuel); auto).
  replace (2 ^ Z.of_nat (N - (N - j - 1)) * s) with (2 * (2 ^ Z.of_nat j * s)).
  - apply band_roll; auto; [|apply ad_keys_length; auto]. rewrite Sn. apply (rolled_level plan bx (nshape (val C x)) B N); auto. lia.
  - replace (N - (N - j - 1))%nat with (S j) by lia. rewrite Nat2Z.inj_succ, Z.pow_succ_r by lia. ring.
Qed.
End R.
