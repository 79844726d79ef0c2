(** dwt after idwt, wavedec after waverec and dwtn after idwtn in
    periodization mode; energies of reconstructed data. *)
From Coq Require Import Ascii String Permutation.
From Verif Require Import Base BaseLemmas CConv Spec ExtLemmas Lengths LengthsProofs Dwt DwtProofs PR Linear Swt Multilevel MultilevelProofs Facts1
  Nd NdSpec NdLinear Axis AxisProofs AxisProofs2 Multidim MultidimProofs MultidimFacts SwtNd AxisOps NdSynth Cyclic.

Section One.
Variable C : CRing.
Add Ring Cring_ring_cm : (rth C).
Variable fuel : nat.

Lemma syn_anal h0 h1 g0 g1 (c d : list C) : pr_bank h0 h1 g0 g1 -> zlen c = zlen d -> 1 <= zlen c ->
  let x := vadd (synthesis PERIODIZATION g0 c) (synthesis PERIODIZATION g1 d) in
  zlen x = 2 * zlen c /\ analysis PERIODIZATION h0 x = c /\ analysis PERIODIZATION h1 x = d.
Proof.
  intros Hpr Hl Hc x. split.
  - unfold x. rewrite zlen_vadd; cbn [synthesis]; rewrite !zlen_tab by lia; lia.
  - assert (Hn : (0 < length c)%nat) by (unfold zlen in Hc; lia).
    apply (synthesis_analysis C (length c) Hn h0 h1 g0 g1 c d Hpr); unfold zlen in *; lia.
Qed.

Theorem dwt_idwt (cA cD : list C) w : pr_wavelet w -> zlen cA = zlen cD -> 1 <= zlen cA ->
  resources fuel (2 * zlen cA) (dec_len w) ->
  exists x, idwt fuel (Some cA) (Some cD) w PERIODIZATION = Ok x /\ zlen x = 2 * zlen cA /\
    dwt fuel x w PERIODIZATION = Ok (cA, cD).
Proof.
  intros Hpr Hl Hn Hr. pose proof (pr_wf w Hpr) as Hw.
  destruct (syn_anal (dec_lo w) (dec_hi w) (rec_lo w) (rec_hi w) cA cD Hpr Hl Hn) as (Hx & E0 & E1).
  assert (Hr' : resources fuel (zlen cA) (dec_len w)) by (unfold resources in *; lia).
  destruct (idwt_spec C fuel cA cD w PERIODIZATION Hw Hl Hn) as (E & _); [cbn [rec_len]; lia|auto|].
  eexists. split; [exact E|]. split; [exact Hx|]. unfold dwt.
  rewrite dwt_single_spec; auto; [|cbn [min_len]; lia|rewrite Hx; auto]. rewrite E0, E1. reflexivity.
Qed.

(** Lengths n, 2n, 4n, ... *)
Fixpoint doubling (n : Z) (ds : list (list C)) : Prop :=
  match ds with [] => True | d :: ds' => zlen d = n /\ doubling (2 * n) ds' end.

Lemma waverec_doubling w ds : forall a : list C, pr_wavelet w -> 1 <= zlen a -> doubling (zlen a) ds ->
  resources fuel (2 ^ zlen ds * zlen a) (dec_len w) ->
  exists x, waverec_loop fuel (Some a) (map Some ds) w PERIODIZATION = Ok (Some x) /\ zlen x = 2 ^ zlen ds * zlen a /\
    multi_analysis PERIODIZATION (dec_lo w) (dec_hi w) (length ds) x = a :: ds.
Proof.
  induction ds as [|d ds IH]; intros a Hpr Ha Hd Hr.
  - exists a. repeat split. change (2 ^ zlen (@nil (list C))) with 1. lia.
  - destruct Hd as (Hd & Hds). pose proof (pr_wf w Hpr) as Hw.
    rewrite zlen_cons in Hr. pose proof (zlen_nonneg ds) as Hz. rewrite Z.pow_add_r in Hr by lia. change (2 ^ 1) with 2 in Hr.
    assert (Hp : 1 <= 2 ^ zlen ds) by (pose proof (Z.pow_pos_nonneg 2 (zlen ds)); lia).
    destruct (syn_anal (dec_lo w) (dec_hi w) (rec_lo w) (rec_hi w) a d Hpr (eq_sym Hd) Ha) as (Hx & E0 & E1).
    set (y := vadd (synthesis PERIODIZATION (rec_lo w) a) (synthesis PERIODIZATION (rec_hi w) d)) in *.
    destruct (IH y) as (x & Ex & Lx & Mx); auto; try lia.
    { rewrite Hx. exact Hds. }
    { rewrite Hx. replace (2 ^ zlen ds * (2 * zlen a)) with (2 ^ zlen ds * 2 * zlen a) by ring. auto. }
    exists x. split; [|split].
    + cbn [map waverec_loop]. unfold waverec_step. rewrite Hd. replace (zlen a =? zlen a + 1) with false by lia. rewrite Z.eqb_refl. cbn [negb bind].
      destruct (idwt_spec C fuel a d w PERIODIZATION Hw (eq_sym Hd) Ha) as (E & _); [cbn [rec_len]; lia|unfold resources in *; nia|].
      rewrite E. cbn [bind]. exact Ex.
    + rewrite Lx, Hx, zlen_cons, Z.pow_add_r by lia. ring.
    + unfold multi_analysis in *. cbn [length approx]. injection Mx as Ma Md. rewrite Ma.
      rewrite seq_S, rev_app_distr. cbn [rev app map]. rewrite Nat.add_0_l, Ma. fold y. rewrite E0, E1, Md. reflexivity.
Qed.

Theorem wavedec_waverec (a : list C) ds w : pr_wavelet w -> 1 <= zlen a -> doubling (zlen a) ds ->
  resources fuel (2 ^ zlen ds * zlen a) (dec_len w) ->
  exists x, waverec fuel (map Some (a :: ds)) w PERIODIZATION = Ok (Some x) /\
    wavedec fuel x w PERIODIZATION (Some (zlen ds)) = Ok (a :: ds).
Proof.
  intros Hpr Ha Hd Hr. destruct (waverec_doubling w ds a Hpr Ha Hd Hr) as (x & E & Lx & M).
  exists x. split; [cbn [map]; rewrite waverec_as_loop; exact E|].
  assert (Hx : 1 <= zlen x) by (pose proof (Z.pow_pos_nonneg 2 (zlen ds)); pose proof (zlen_nonneg ds); rewrite Lx; nia).
  rewrite wavedec_spec; auto using pr_wf, zlen_nonneg.
  - unfold zlen at 1. rewrite Nat2Z.id, M. reflexivity.
  - apply levels_ok_intro; auto; try apply (pr_wf w Hpr); try (left; reflexivity).
  - rewrite Lx. auto.
Qed.

(** The reconstruction of an orthonormal bank keeps the energy. *)
Theorem idwt_energy (cA cD : list C) w : orthonormal w -> zlen cA = zlen cD -> 1 <= zlen cA ->
  resources fuel (2 * zlen cA) (dec_len w) ->
  exists x, idwt fuel (Some cA) (Some cD) w PERIODIZATION = Ok x /\
    sumZ 0 (zlen x) (fun i => gz x i [*] gz x i) =
    sumZ 0 (zlen cA) (fun i => gz cA i [*] gz cA i) [+] sumZ 0 (zlen cD) (fun i => gz cD i [*] gz cD i).
Proof.
  intros Ho Hl Hn Hr. destruct (dwt_idwt cA cD w (proj1 Ho) Hl Hn Hr) as (x & E & Lx & Ed). exists x. split; auto.
  destruct (dwt_energy C fuel x w) as (a & d & E' & En); auto; try lia; [rewrite Lx; auto|].
  rewrite Ed in E'. injection E' as <- <-. symmetry. exact En.
Qed.

(** Different even-length data have different coefficients. *)
Theorem dwt_injective (x y : list C) w cA cD : pr_wavelet w -> 2 <= zlen x -> zlen x mod 2 = 0 -> zlen y mod 2 = 0 -> 2 <= zlen y ->
  resources fuel (zlen x) (dec_len w) -> resources fuel (zlen y) (dec_len w) ->
  dwt fuel x w PERIODIZATION = Ok (cA, cD) -> dwt fuel y w PERIODIZATION = Ok (cA, cD) -> x = y.
Proof.
  intros Hpr Hx Hx2 Hy2 Hy Rx Ry Ex Ey.
  destruct (idwt_dwt_even C fuel x w PERIODIZATION Hx2 Hpr) as (a & d & E1 & E2); [cbn; lia|auto|].
  destruct (idwt_dwt_even C fuel y w PERIODIZATION Hy2 Hpr) as (a' & d' & E1' & E2'); [cbn; lia|auto|].
  rewrite Ex in E1. injection E1 as <- <-. rewrite Ey in E1'. injection E1' as <- <-. congruence.
Qed.

(** ** n dimensions *)
Notation step := (step C).
Lemma dax_syn (s : step) c (A D : nd C) : st_m C s = PERIODIZATION -> pr_wavelet (st_w C s) -> nd_wf A -> nd_wf D -> nshape D = nshape A ->
  (st_ax C s < List.length (nshape A))%nat -> 1 <= nthz (st_ax C s) (nshape A) ->
  dax (st_ax C s) (st_m C s) (pick C c (st_w C s)) (syn C s A D) = if Ascii.eqb c "a"%char then A else D.
Proof.
  intros Hm Hpr WA WD HS Hax HN. pose proof (pr_wf _ Hpr) as Hw. destruct s as [ax [w m]]. cbn [st_ax st_w st_m fst snd] in *. subst m.
  set (n := nthz ax (nshape A)) in *.
  assert (Hsh : nshape (syn C (ax, (w, PERIODIZATION)) A D) = setn ax (2 * n) (nshape A)) by (rewrite syn_shape by auto; reflexivity).
  assert (Ws : nd_wf (syn C (ax, (w, PERIODIZATION)) A D)) by (apply syn_wf; auto; cbn [st_m st_ax st_w fst snd rec_len]; fold n; lia).
  assert (Hd : nshape (dax ax PERIODIZATION (pick C c w) (syn C (ax, (w, PERIODIZATION)) A D)) = nshape A).
  { unfold dax. rewrite along_shape, Hsh, nthz_setn, setn_setn by auto. cbn [coeff_len]. replace ((2 * n + 1) / 2) with n by lia. apply setn_nthz. }
  assert (WR : nd_wf (if Ascii.eqb c "a"%char then A else D)) by (destruct (Ascii.eqb _ _); auto).
  assert (SR : nshape (if Ascii.eqb c "a"%char then A else D) = nshape A) by (destruct (Ascii.eqb _ _); auto).
  apply nd_ext; auto.
  - apply dax_wf; auto. rewrite Hsh, nthz_setn by auto. cbn [coeff_len]. lia.
  - congruence.
  - rewrite Hd. intros idx V. unfold dax. rewrite Hsh, nthz_setn by auto. cbn [coeff_len]. replace ((2 * n + 1) / 2) with n by lia.
    rewrite ndget_along by (rewrite Hsh, setn_setn; unfold n; rewrite setn_nthz; auto).
    assert (LA : zlen (line A ax idx) = n) by (apply zlen_line; auto).
    assert (LD : zlen (line D ax idx) = n) by (rewrite zlen_line by auto; rewrite HS; reflexivity).
    assert (E : line (syn C (ax, (w, PERIODIZATION)) A D) ax idx
      = vadd (synthesis PERIODIZATION (rec_lo w) (line A ax idx)) (synthesis PERIODIZATION (rec_hi w) (line D ax idx))).
    { assert (Lv : forall g (l : list C), zlen l = n -> zlen (synthesis PERIODIZATION g l) = 2 * n)
        by (intros g l Hl; cbn [synthesis]; rewrite zlen_tab by lia; lia).
      assert (Hz : nthz ax (nshape (syn C (ax, (w, PERIODIZATION)) A D)) = 2 * n) by (rewrite Hsh, nthz_setn by auto; reflexivity).
      apply list_ext; [rewrite zlen_line, zlen_vadd by (auto; rewrite !Lv by auto; reflexivity); rewrite Lv by auto; auto|].
      rewrite zlen_line, Hz by auto. intros i Hi. rewrite gz_vadd by (rewrite !Lv by auto; reflexivity).
      unfold line at 1. rewrite Hz, gz_tab by auto.
      assert (Vi : valid (setn ax (2 * n) (nshape A)) (setn ax i idx)) by (apply valid_setn; auto).
      assert (Li : nthz ax (setn ax i idx) = i) by (apply nthz_setn; rewrite (valid_len _ _ V); auto).
      assert (Sn : nthz ax (nshape D) = n) by (rewrite HS; reflexivity).
      unfold syn, ndadd. cbn [st_ax st_w st_m fst snd]. unfold sax. rewrite Sn. fold n. cbn [rec_len].
      rewrite ndget_ndtab by (rewrite along_shape; auto). rewrite !ndget_along by (rewrite ?HS; auto).
      rewrite !line_setn, Li. reflexivity. }
    rewrite E.
    destruct (syn_anal (dec_lo w) (dec_hi w) (rec_lo w) (rec_hi w) (line A ax idx) (line D ax idx) Hpr) as (_ & E0 & E1); try lia.
    assert (Hv : 0 <= nthz ax idx < n) by (apply valid_nth; auto).
    unfold pick. destruct (Ascii.eqb _ _).
    + rewrite E0. unfold line. fold n. rewrite gz_tab by auto. rewrite setn_nthz. reflexivity.
    + rewrite E1. unfold line. rewrite HS. fold n. rewrite gz_tab by auto. rewrite setn_nthz. reflexivity.
Qed.

(** The shape with the given axes doubled. *)
Definition doubled (axes : list nat) (sh : list Z) : list Z := fold_right (fun ax sh => setn ax (2 * nthz ax sh) sh) sh axes.
Lemma doubled_length axes sh : List.length (doubled axes sh) = List.length sh.
Proof. induction axes; cbn [doubled fold_right]; auto. rewrite setn_length. auto. Qed.
Lemma doubled_out axes sh k : ~ In k axes -> nthz k (doubled axes sh) = nthz k sh.
Proof. induction axes as [|a axes IH]; intros H; cbn [doubled fold_right] in *; auto. cbn in H. rewrite nthz_setn_ne by (intros E; apply H; auto). apply IH. auto. Qed.
Lemma doubled_in axes sh k : NoDup axes -> (k < List.length sh)%nat -> In k axes -> nthz k (doubled axes sh) = 2 * nthz k sh.
Proof.
  induction axes as [|a axes IH]; intros H Hk Hi; [destruct Hi|]. inversion H; subst. cbn [doubled fold_right]. fold (doubled axes sh).
  destruct (Nat.eq_dec k a) as [->|Hne].
  - rewrite nthz_setn by (rewrite doubled_length; auto). rewrite doubled_out by auto. reflexivity.
  - rewrite nthz_setn_ne by auto. apply IH; auto. destruct Hi; [congruence|auto].
Qed.

Lemma ssh_doubled plan sh : (forall s, In s plan -> st_m C s = PERIODIZATION) ->
  fold_left (fun sh s => ssh C s sh) (rev plan) sh = doubled (map (st_ax C) plan) sh.
Proof.
  intros H. rewrite <- fold_left_rev_right, rev_involutive. induction plan as [|s p IH]; cbn [fold_right map doubled]; auto.
  fold (doubled (map (st_ax C) p) sh). rewrite IH by (intros; apply H; right; auto).
  unfold ssh. rewrite (H s) by (left; auto). reflexivity.
Qed.

Lemma synth_wf plan : forall Y sh, (forall k, In k (ad_keys (List.length plan)) -> nd_wf (Y k) /\ nshape (Y k) = sh) ->
  (forall s, In s plan -> wf_bank (st_w C s) /\ st_m C s = PERIODIZATION) -> nd_wf (synth C plan Y).
Proof.
  induction plan as [|s p IH]; intros Y sh HY HW; cbn [synth]; [apply HY; left; auto|].
  destruct (HW s (or_introl eq_refl)) as (W & M).
  assert (Wa : nd_wf (synth C p (fun k => Y (String "a"%char k)))).
  { apply (IH _ sh). - intros k Hk. apply HY. cbn [List.length ad_keys]. apply in_or_app. left. apply in_map. auto.
    - intros t Ht. apply HW. right; auto. }
  apply syn_wf; auto. rewrite M. cbn [rec_len]. pose proof (shape_ok_nth (nshape (synth C p (fun k => Y (String "a"%char k)))) (st_ax C s) (proj1 Wa)). lia.
Qed.

Lemma band_synth plan : forall Y sh key, (forall s, In s plan -> st_m C s = PERIODIZATION /\ pr_wavelet (st_w C s)) ->
  NoDup (map (st_ax C) plan) -> (forall s, In s plan -> (st_ax C s < List.length sh)%nat /\ 1 <= nthz (st_ax C s) sh) ->
  (forall k, In k (ad_keys (List.length plan)) -> nd_wf (Y k) /\ nshape (Y k) = sh) ->
  In key (ad_keys (List.length plan)) -> band C key plan (synth C plan Y) = Y key.
Proof.
  induction plan as [|s p IH]; intros Y sh key HP HN HA HY Hk.
  - cbn in Hk. destruct Hk as [<-|[]]. reflexivity.
  - cbn [map] in HN. inversion HN as [|? ? Hni HN']; subst.
    destruct (HP s (or_introl eq_refl)) as (M & PR).
    assert (Hp : forall t, In t p -> wf_bank (st_w C t) /\ st_m C t = PERIODIZATION) by (intros t Ht; destruct (HP t (or_intror Ht)); auto using pr_wf).
    assert (HYc : forall c k, c = "a"%char \/ c = "d"%char -> In k (ad_keys (List.length p)) -> nd_wf (Y (String c k)) /\ nshape (Y (String c k)) = sh).
    { intros c k Hc Hk'. apply HY. cbn [List.length ad_keys]. apply in_or_app.
      destruct Hc as [-> | ->]; [left|right]; apply in_map; auto. }
    assert (Hs : forall c, c = "a"%char \/ c = "d"%char -> nshape (synth C p (fun k => Y (String c k))) = doubled (map (st_ax C) p) sh).
    { intros c Hc. rewrite (synth_shape C p _ sh). - apply ssh_doubled. intros; apply Hp; auto.
      - intros; apply HYc; auto. - intros; apply Hp; auto. }
    assert (Hwf : forall c, c = "a"%char \/ c = "d"%char -> nd_wf (synth C p (fun k => Y (String c k)))).
    { intros c Hc. apply (synth_wf p _ sh); auto. }
    destruct (HA s (or_introl eq_refl)) as (A1 & A2).
    cbn [List.length ad_keys] in Hk. apply in_app_or in Hk.
    assert (Hkey : exists c k, (c = "a"%char \/ c = "d"%char) /\ key = String c k /\ In k (ad_keys (List.length p))).
    { destruct Hk as [Hk|Hk]; apply in_map_iff in Hk; destruct Hk as (k & <- & Hk); eauto 6. }
    destruct Hkey as (c & k & Hc & -> & Hk'). cbn [band synth].
    rewrite dax_syn; auto; rewrite ?Hs by auto; auto.
    + assert (E : (if Ascii.eqb c "a" then synth C p (fun k0 => Y (String "a" k0)) else synth C p (fun k0 => Y (String "d" k0)))
        = synth C p (fun k0 => Y (String c k0))) by (destruct Hc as [-> | ->]; reflexivity).
      rewrite E. apply (IH (fun k0 => Y (String c k0)) sh); auto.
      * intros t Ht. apply HP. right; auto.
      * intros t Ht. apply HA. right; auto.
    + rewrite doubled_length. auto.
    + rewrite doubled_out by auto. auto.
Qed.

Theorem dwtn_idwtn junk (D : dict (sarr C)) (Y : string -> nd C) w m axes plan B sh :
  plan <> [] -> 1 <= zlen sh <= 64 -> resolves C (zlen sh) w m (default_axes (zlen sh) axes) plan ->
  (forall s, In s plan -> st_m C s = PERIODIZATION /\ pr_wavelet (st_w C s) /\ 1 <= nthz (st_ax C s) sh) ->
  shape_ok sh -> plan_good C fuel B (doubled (map (st_ax C) plan) sh) plan ->
  (forall k v, In (k, v) D -> In k (ad_keys (List.length plan)) /\ sarr_ok C v /\ sshape v = sh /\ val C v = Y k) ->
  (forall k, In k (ad_keys (List.length plan)) -> exists v, dget D k = Some v) ->
  exists r, idwtn fuel junk (map (fun '(k, v) => (k, Some v)) D) w m axes = Ok (Some r) /\
    sshape r = doubled (map (st_ax C) plan) sh /\
    dwtn fuel junk r w m axes = Ok (map (fun k => (k, of_nd (Y k))) (ad_keys (List.length plan))).
Proof.
  intros Hne Hn HR HP Hsh Hg HD Hfull. pose proof Hg as (G1 & G2 & G3 & G4 & G5 & G6). rewrite doubled_length in G2.
  assert (Hax : forall s, In s plan -> (st_ax C s < List.length sh)%nat).
  { intros s Hs. destruct (G6 s Hs) as ((A & _) & _). rewrite doubled_length in A. auto. }
  assert (Hin : forall s, In s plan -> nthz (st_ax C s) (doubled (map (st_ax C) plan) sh) = 2 * nthz (st_ax C s) sh).
  { intros s Hs. apply doubled_in; auto. apply in_map. auto. }
  assert (Hle : forall k, nthz k sh <= nthz k (doubled (map (st_ax C) plan) sh)).
  { intros k. destruct (in_dec Nat.eq_dec k (map (st_ax C) plan)) as [Hi|Hi]; [|rewrite doubled_out; auto; lia].
    apply in_map_iff in Hi. destruct Hi as (s & <- & Hs). rewrite Hin by auto. destruct (HP s Hs) as (_ & _ & ?). lia. }
  assert (Hsg : syn_good C fuel B sh plan).
  { refine (conj G1 (conj G2 (conj Hsh (conj _ (conj G5 _))))).
    - intros k. specialize (Hle k). specialize (G4 k). lia.
    - intros s Hs. split; auto. destruct (HP s Hs) as (M & PR & N1). destruct (G6 s Hs) as ((_ & W & _ & R) & L). rewrite Hin in * by auto.
      rewrite M. cbn [rec_len]. split; [|lia]. split; auto. split; [unfold resources in *; lia|]. cbn [rec_len]. lia. }
  destruct (idwtn_synth C fuel junk D Y w m axes plan B sh Hsg HR HD Hfull) as (r & Er & Or & Vr).
  assert (HY : forall k, In k (ad_keys (List.length plan)) -> nd_wf (Y k) /\ nshape (Y k) = sh).
  { intros k Hk. destruct (Hfull k Hk) as (v & Hv). destruct (HD k v (dget_In _ _ _ Hv)) as (_ & Ov & Sv & Vv).
    rewrite <- Vv, nshape_val. split; auto. apply val_wf. auto. }
  assert (Sr : sshape r = doubled (map (st_ax C) plan) sh).
  { rewrite <- (nshape_val C), Vr, (synth_shape C plan Y sh); [apply ssh_doubled; intros; apply HP; auto|intros; apply HY; auto|].
    intros s Hs. apply pr_wf. apply HP. auto. }
  exists r. split; auto. split; auto.
  assert (Hnd : ndim r = zlen sh) by (unfold ndim, zlen; rewrite Sr, doubled_length; reflexivity).
  rewrite (dwtn_bands C fuel junk r w m axes plan); auto; rewrite ?Hnd; auto.
  - f_equal. apply map_ext_in. intros k Hk. f_equal. f_equal. rewrite Vr. apply (band_synth plan Y sh); auto.
    + intros s Hs. destruct (HP s Hs) as (? & ? & ?). auto.
    + intros s Hs. destruct (HP s Hs) as (? & ? & ?). auto.
  - rewrite Sr. apply (plan_good_ok C fuel B). auto.
Qed.
End One.
