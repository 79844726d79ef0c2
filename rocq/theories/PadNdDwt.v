(** The multi-dimensional transform of a padded array contains the transform of
    the array; pad refuses a right width of zero in two modes. *)
From Coq Require Import Ascii String.
From Verif Require Import Base BaseLemmas CConv Spec ExtLemmas Lengths Dwt DwtProofs Linear Swt SwtProofs Nd NdSpec NdLinear Axis AxisProofs AxisProofs2 Multidim MultidimProofs MultidimFacts Pad PadProofs PadNd PadNdSpec PadNdProofs.
From Verif Require FswAxis FswLine FswBands CwtProofs.

(** The steps of dwtn along all axes, in the order of the axes. *)
Fixpoint full_plan {C : CRing} (k : nat) (m : mode) (wl : list (wavelet C)) : list (step C) :=
  match wl with [] => [] | w :: wl => (k, (w, m)) :: full_plan (S k) m wl end.
(** Widths with which the transform in mode [m'] of the padded array contains the transform in mode [m]. *)
Definition wide_enough {C : CRing} (w : wavelet C) (lr : Z * Z) : Prop := fst lr mod 2 = 0 /\ dec_len w - 2 <= fst lr /\ dec_len w - 1 <= snd lr.
(** The position in a band of the padded array. *)
Fixpoint half_shift (ws : list (Z * Z)) (idx : list Z) : list Z :=
  match ws, idx with (l, _) :: ws, i :: idx => (i + l / 2) :: half_shift ws idx | _, _ => [] end.

Section D.
Variable fuel : nat.
Variable C : CRing.
Add Ring Cr_padnd2 : (rth C).
Notation ops := (ops C).
Notation aop := (aop C).
Notation app_op := (app_op C).
Notation piece := (FswLine.piece C).

(** Crops along the axes k, k+1, ... *)
Fixpoint cropall (k : nat) (ons : list (Z * Z)) : list aop :=
  match ons with [] => [] | (o, n) :: ons => (k, (n, piece o n)) :: cropall (S k) ons end.
Fixpoint offset (ons : list (Z * Z)) (idx : list Z) : list Z :=
  match ons, idx with (o, _) :: ons, i :: idx => (o + i) :: offset ons idx | _, _ => [] end.

Lemma ndget_cropall ons : forall k sh1 sh2 (x : nd C) pre suf, nd_wf x -> nshape x = sh1 ++ sh2 -> List.length sh1 = k ->
  Forall2 (fun N '(o, n) => 0 <= o /\ 0 <= n /\ o + n <= N) sh2 ons -> valid sh1 pre -> valid (map snd ons) suf ->
  ndget (ops (cropall k ons) x) (pre ++ suf) = ndget x (pre ++ offset ons suf).
Proof.
  induction ons as [|(o & n) ons IH]; intros k sh1 sh2 x pre suf Wx Hx Hk H V1 V2.
  - destruct suf; [|destruct V2]. reflexivity.
  - destruct suf as [|i suf]; [destruct V2|]. destruct V2 as (Vi & V2). cbn [snd] in Vi. inversion H as [|N ? sh2' ? HN H2]; subst. destruct HN as (H0 & H1 & H3). set (k := List.length sh1) in *.
    assert (Hpre : List.length pre = k) by (apply valid_len; auto). cbn [cropall].
    change (ops ((k, (n, piece o n)) :: cropall (S k) ons) x) with (ops (cropall (S k) ons) (app_op (k, (n, piece o n)) x)).
    replace (pre ++ i :: suf) with ((pre ++ [i]) ++ suf) by (rewrite <- app_assoc; reflexivity).
    rewrite (IH (S k) (sh1 ++ [n]) sh2'); auto.
    + cbn [offset]. rewrite <- app_assoc. cbn [app].
      assert (Vo : valid sh2' (offset ons suf)).
      { clear - H2 V2. revert suf V2. induction H2 as [|M (a & b) sh ons H1 H2 IH]; intros suf V2; destruct suf as [|j suf]; cbn in *; try tauto. split; [lia|]. apply IH. tauto. }
      assert (V : valid (setn k n (nshape x)) (pre ++ i :: offset ons suf)).
      { rewrite Hx, setn_app by auto. apply valid_app; auto. cbn. split; auto. }
      unfold app_op. cbn [fst snd]. rewrite ndget_along by auto. rewrite nthz_app by auto. unfold piece. rewrite gz_tab by lia.
      unfold line. rewrite Hx, nthz_app by auto. rewrite gz_tab by lia. rewrite setn_app by auto. reflexivity.
    + apply along_wf; auto.
    + rewrite app_op_shape. cbn [fst snd]. rewrite Hx, setn_app by auto. rewrite <- app_assoc. reflexivity.
    + rewrite app_length. cbn. lia.
    + apply valid_app; auto. cbn. split; auto.
Qed.

(** ** Bands as operations along the axes *)
Fixpoint bandops (key : string) (k : nat) (m : mode) (wl : list (wavelet C)) (sh : list Z) : list aop :=
  match key, wl, sh with
  | String c key, w :: wl, N :: sh => (k, (coeff_len m N (dec_len w), analysis m (pick C c w))) :: bandops key (S k) m wl sh
  | _, _, _ => []
  end.
Lemma bandops_axes wl : forall key k m sh, incl (map fst (bandops key k m wl sh)) (seq k (List.length sh)) /\ NoDup (map fst (bandops key k m wl sh)).
Proof.
  induction wl as [|w wl IH]; intros [|c key] k m [|N sh]; cbn [bandops map fst List.length seq]; try solve [split; [intros ? []|constructor]].
  destruct (IH key (S k) m sh) as (A & B). split.
  - intros a [<-|Ha]; [left; auto|right; apply A; auto].
  - constructor; auto. intros H. apply A in H. apply in_seq in H. lia.
Qed.
Lemma winall_axes m sh : forall k ws, incl (map fst (winall C m k sh ws)) (seq k (List.length sh)) /\ NoDup (map fst (winall C m k sh ws)).
Proof.
  induction sh as [|N sh IH]; intros k [|w ws]; cbn [winall map fst List.length seq]; try solve [split; [intros ? []|constructor]].
  destruct (IH (S k) ws) as (A & B). split.
  - intros a [<-|Ha]; [left; auto|right; apply A; auto].
  - constructor; auto. intros H. apply A in H. apply in_seq in H. lia.
Qed.
Lemma winall_ok m sh2 : forall k sh1 ws, List.length sh1 = k -> Forall (fun N => 0 <= N) sh2 -> Forall (fun w => 0 <= fst w /\ 0 <= snd w) ws ->
  Forall (op_ok C (sh1 ++ sh2)) (winall C m k sh2 ws).
Proof.
  induction sh2 as [|N sh2 IH]; intros k sh1 [|w ws] Hk HN Hw; cbn [winall]; try constructor.
  - inversion HN; inversion Hw; subst. rewrite <- (nthz_app (List.length sh1) sh1 N sh2) at 2 by auto. apply wop_ok; try tauto; [rewrite app_length; cbn; lia|].
    rewrite nthz_app by auto. auto.
  - inversion HN; inversion Hw; subst. replace (sh1 ++ N :: sh2) with ((sh1 ++ [N]) ++ sh2) by (rewrite <- app_assoc; reflexivity). apply IH; auto. rewrite app_length. cbn. lia.
Qed.
Lemma bandops_ok m wl : forall key k sh1 sh2, List.length sh1 = k -> Forall (fun N => 1 <= N) sh2 -> Forall wf_bank wl ->
  Forall (op_ok C (sh1 ++ sh2)) (bandops key k m wl sh2).
Proof.
  induction wl as [|w wl IH]; intros [|c key] k sh1 [|N sh2] Hk HN Hw; cbn [bandops]; try constructor.
  - inversion HN; inversion Hw; subst. pose proof (zlen_pick C c w ltac:(auto)) as Zp. assert (2 <= dec_len w) by (destruct H5 as (_ & _ & _ & _ & ?); lia).
    split; [cbn; rewrite app_length; cbn; lia|]. cbn [fst snd]. rewrite nthz_app by auto. split; [destruct m; cbn; lia|]. rewrite <- Zp. apply linop_analysis; lia.
  - inversion HN; inversion Hw; subst. replace (sh1 ++ N :: sh2) with ((sh1 ++ [N]) ++ sh2) by (rewrite <- app_assoc; reflexivity). apply IH; auto. rewrite app_length. cbn. lia.
Qed.
Lemma cropall_ok ons : forall k, incl (map fst (cropall k ons)) (seq k (List.length ons)) /\ NoDup (map fst (cropall k ons)).
Proof.
  induction ons as [|(o & n) ons IH]; intros k; cbn [cropall map fst List.length seq]; [split; [intros ? []|constructor]|].
  destruct (IH (S k)) as (A & B). split.
  - intros a [<-|Ha]; [left; auto|right; apply A; auto].
  - constructor; auto. intros H. apply A in H. apply in_seq in H. lia.
Qed.

Lemma band_ops m wl : forall key k sh1 sh2 (x : nd C), nshape x = sh1 ++ sh2 -> List.length sh1 = k -> List.length wl = List.length sh2 -> Forall wf_bank wl ->
  band C key (full_plan k m wl) x = ops (bandops key k m wl sh2) x.
Proof.
  induction wl as [|w wl IH]; intros key k sh1 sh2 x Hx Hk L Hw; cbn [full_plan].
  - destruct key, sh2; reflexivity.
  - destruct sh2 as [|N sh2]; cbn in L; [lia|]. destruct key as [|c key]; [reflexivity|]. inversion Hw as [|? ? Hw1 Hw2]; subst. set (k := List.length sh1) in *.
    cbn [band bandops]. change (st_ax C (k, (w, m))) with k. change (st_m C (k, (w, m))) with m. change (st_w C (k, (w, m))) with w.
    change (ops ((k, (coeff_len m N (dec_len w), analysis m (pick C c w))) :: bandops key (S k) m wl sh2) x) with (ops (bandops key (S k) m wl sh2) (app_op (k, (coeff_len m N (dec_len w), analysis m (pick C c w))) x)).
    assert (E : dax k m (pick C c w) x = app_op (k, (coeff_len m N (dec_len w), analysis m (pick C c w))) x).
    { unfold dax, app_op. cbn [fst snd]. rewrite Hx, nthz_app by auto. rewrite zlen_pick by auto. reflexivity. }
    rewrite E. apply (IH key (S k) (sh1 ++ [coeff_len m N (dec_len w)])); auto; try lia.
    + rewrite app_op_shape. cbn [fst snd]. rewrite Hx, setn_app by auto. rewrite <- app_assoc. reflexivity.
    + rewrite app_length. cbn. lia.
Qed.

Definition crops (m : mode) (wl : list (wavelet C)) (sh : list Z) (ws : list (Z * Z)) : list (Z * Z) :=
  map (fun '(w, (N, (l, _))) => (l / 2, coeff_len m N (dec_len w))) (combine wl (combine sh ws)).

Lemma line_crop m m' (h : list C) v l r F : m <> PERIODIZATION -> m' <> PERIODIZATION -> min_len m <= zlen v -> zlen h = F -> 2 <= F -> 0 <= l -> l mod 2 = 0 -> F - 2 <= l -> F - 1 <= r ->
  piece (l / 2) (coeff_len m (zlen v) F) (analysis m' h (tab (l + zlen v + r) (fun n => ext m v (n - l)))) = analysis m h v.
Proof.
  intros Hm Hm' Hv HF HF2 Hl0 Hl Hl2 Hr. pose proof (zlen_nonneg v) as Hv0. assert (1 <= zlen v) by (destruct m; cbn in Hv; lia).
  assert (Hc : 0 <= coeff_len m (zlen v) F) by (destruct m; cbn; lia).
  apply list_ext.
  - unfold piece. rewrite zlen_tab by auto. rewrite zlen_analysis by lia. rewrite HF. reflexivity.
  - intros i Hi. unfold piece in *. rewrite zlen_tab in Hi by auto. rewrite gz_tab by auto.
    rewrite <- (analysis_window C m m' h v l r i); auto; try lia; [|destruct m'; cbn; lia|rewrite HF; auto].
    unfold window. rewrite Z.add_assoc. f_equal. lia.
Qed.

Lemma crop_band m m' : m <> PERIODIZATION -> m' <> PERIODIZATION -> forall wl ws key k sh1 sh2 (x : nd C), nd_wf x -> nshape x = sh1 ++ sh2 -> List.length sh1 = k ->
  List.length wl = List.length sh2 -> List.length ws = List.length sh2 -> String.length key = List.length sh2 -> Forall wf_bank wl -> Forall (fun N => min_len m <= N) sh2 ->
  Forall (fun w => 0 <= fst w /\ 0 <= snd w) ws -> Forall2 wide_enough wl ws ->
  ops (cropall k (crops m wl sh2 ws)) (ops (bandops key k m' wl (padded m sh2 ws)) (ops (winall C m k sh2 ws) x)) = ops (bandops key k m wl sh2) x.
Proof.
  intros Hm Hm'. assert (Hpos : forall N, min_len m <= N -> 1 <= N) by (intros N; destruct m; cbn; lia).
  induction wl as [|w wl IH]; intros [|(l & r) ws] key k sh1 [|N sh2] x Wx Hx Hk L1 L2 L3 Hw HN Hlr Hwd; cbn in L1, L2, L3; try lia.
  - destruct key; reflexivity.
  - destruct key as [|c key]; cbn in L3; [lia|]. inversion Hw as [|? ? Hw1 Hw2]; subst. inversion HN as [|? ? HN1 HN2]; subst. inversion Hlr as [|? ? Hlr1 Hlr2]; subst.
    inversion Hwd as [|? ? ? ? Hwd1 Hwd2]; subst. destruct Hwd1 as (D1 & D2 & D3). cbn [fst snd] in *. set (k := List.length sh1) in *.
    specialize (Hpos N HN1) as HN1'. assert (HF : 2 <= dec_len w) by (destruct Hw1 as (_ & _ & _ & _ & ?); lia).
    pose proof (zlen_pick C c w Hw1) as Zp.
    set (n := coeff_len m N (dec_len w)). set (h := pick C c w) in *.
    change (crops m (w :: wl) (N :: sh2) ((l, r) :: ws)) with ((l / 2, n) :: crops m wl sh2 ws).
    assert (EN : (match m with PERIODIZATION => N + N mod 2 | _ => N end) = N) by (destruct m; auto; congruence).
    cbn [padded bandops winall cropall]. rewrite EN.
    set (W := (k, wop C m N (l, r)) : aop). set (B := (k, (coeff_len m' (l + N + r) (dec_len w), analysis m' h)) : aop). set (K := (k, (n, piece (l / 2) n)) : aop). set (A := (k, (n, analysis m h)) : aop).
    change (ops (cropall (S k) (crops m wl sh2 ws)) (app_op K (ops (bandops key (S k) m' wl (padded m sh2 ws)) (app_op B (ops (winall C m (S k) sh2 ws) (app_op W x))))) =
      ops (bandops key (S k) m wl sh2) (app_op A x)).
    assert (OW : op_ok C (nshape x) W).
    { unfold W. rewrite Hx. rewrite <- (nthz_app k sh1 N sh2) at 2 by auto. apply wop_ok; cbn [fst snd]; try lia; [rewrite app_length; cbn; lia|rewrite nthz_app by auto; lia]. }
    assert (SW : nshape (app_op W x) = sh1 ++ (l + N + r) :: sh2).
    { rewrite app_op_shape. unfold W. cbn [fst snd wop ext_end]. unfold ext_end. rewrite EN, Hx, setn_app by auto. reflexivity. }
    assert (WW : nd_wf (app_op W x)) by (apply app_op_wf; auto).
    assert (OB : op_ok C (nshape (app_op W x)) B).
    { rewrite SW. split; [cbn; rewrite app_length; cbn; lia|]. unfold B. cbn [fst snd]. rewrite nthz_app by auto. split; [destruct m'; cbn; lia|]. rewrite <- Zp. apply linop_analysis; lia. }
    set (y := app_op B (app_op W x)). assert (Wy : nd_wf y) by (apply app_op_wf; auto).
    assert (Sy : nshape y = sh1 ++ coeff_len m' (l + N + r) (dec_len w) :: sh2) by (unfold y; rewrite app_op_shape; unfold B; cbn [fst snd]; rewrite SW, setn_app by auto; reflexivity).
    assert (Hn : 0 <= n) by (unfold n; destruct m; cbn; lia).
    assert (OK : op_ok C (nshape y) K).
    { rewrite Sy. split; [cbn; rewrite app_length; cbn; lia|]. unfold K. cbn [fst snd]. split; auto. apply FswBands.linop_piece. auto. }
    assert (EA : app_op K y = app_op A x).
    { unfold y, K, B, W, A, app_op. cbn [fst snd wop]. unfold ext_end. rewrite EN.
      assert (Hxk : (k < List.length (nshape x))%nat) by (rewrite Hx, app_length; cbn; lia).
      assert (HNk : nthz k (nshape x) = N) by (rewrite Hx; apply nthz_app; auto).
      assert (Hc' : 0 < coeff_len m' (l + N + r) (dec_len w)) by (destruct m'; cbn; try congruence; apply Z.div_str_pos; lia).
      assert (Z1 : forall v : list C, zlen (tab (l + N + r) (fun j => ext m v (j - l))) = l + N + r) by (intros v; apply zlen_tab; lia).
      rewrite (FswAxis.along_along C k (coeff_len m' (l + N + r) (dec_len w))); auto; try lia.
      rewrite FswAxis.along_along; auto; [|intros v Hv; rewrite zlen_analysis by lia; rewrite Z1, Zp; reflexivity].
      apply along_ext; auto. intros v Hv. rewrite HNk in Hv. unfold n. rewrite <- Hv. apply line_crop; auto; try lia. }
    destruct (winall_axes m sh2 (S k) ws) as (IW & NW). destruct (bandops_axes wl key (S k) m' (padded m sh2 ws)) as (IB & NB).
    assert (HN2' : Forall (fun N => 0 <= N) sh2) by (rewrite Forall_forall in *; intros M HM; specialize (HN2 M HM); specialize (Hpos M HN2); lia).
    assert (Hpre : forall (M : Z), sh1 ++ M :: sh2 = (sh1 ++ [M]) ++ sh2) by (intros M; rewrite <- app_assoc; reflexivity).
    assert (Hlen : forall M : Z, List.length (sh1 ++ [M]) = S k) by (intros M; rewrite app_length; cbn; lia).
    assert (HniW : ~ In k (map fst (winall C m (S k) sh2 ws))) by (intros H; apply IW in H; apply in_seq in H; lia).
    assert (HniB : ~ In k (map fst (bandops key (S k) m' wl (padded m sh2 ws)))) by (intros H; apply IB in H; apply in_seq in H; lia).
    rewrite (ops_comm C (winall C m (S k) sh2 ws) B); auto; [|rewrite SW, Hpre; apply winall_ok; auto]. fold y.
    assert (SWy : nshape (ops (winall C m (S k) sh2 ws) y) = (sh1 ++ [coeff_len m' (l + N + r) (dec_len w)]) ++ padded m sh2 ws).
    { apply winall_shape; auto; try lia. rewrite Sy, Hpre. reflexivity. }
    assert (OWy : Forall (op_ok C (nshape y)) (winall C m (S k) sh2 ws)) by (rewrite Sy, Hpre; apply winall_ok; auto).
    assert (Pp : Forall (fun N => 1 <= N) (padded m sh2 ws)).
    { assert (L2' : List.length ws = List.length sh2) by lia. clear - HN2 Hlr2 L2' Hpos Hm. revert ws Hlr2 L2'. induction HN2 as [|M sh HM HN IH]; intros [|(a & b) ws] Hlr L; cbn in L; try lia; constructor.
      - inversion Hlr as [|? ? (Ha & Hb) _]; subst. cbn [fst snd] in *. specialize (Hpos M HM). destruct m; try congruence; lia.
      - inversion Hlr; subst. apply IH; auto. }
    rewrite (ops_comm C (bandops key (S k) m' wl (padded m sh2 ws)) K); auto.
    + rewrite (ops_comm C (winall C m (S k) sh2 ws) K); auto.
      rewrite EA. apply (IH ws key (S k) (sh1 ++ [n])); auto; try lia.
      * apply app_op_wf; auto. rewrite Hx. split; [cbn; rewrite app_length; cbn; lia|]. unfold A. cbn [fst snd]. rewrite nthz_app by auto. split; auto. unfold n. rewrite <- Zp. apply linop_analysis; lia.
      * rewrite app_op_shape. unfold A. cbn [fst snd]. rewrite Hx, setn_app by auto. apply Hpre.
    + apply ops_wf; auto.
    + assert (Hq : op_ok C (nshape y) K) by auto. destruct Hq as (Q1 & Q2 & Q3). split; [rewrite ops_len; auto|]. split; auto. unfold K. cbn [fst]. rewrite ops_nthz by auto. exact Q3.
    + rewrite SWy. apply bandops_ok; auto.
Qed.

Lemma crops_spec m wl : forall sh ws idx, List.length wl = List.length sh -> List.length ws = List.length sh ->
  valid (map snd (crops m wl sh ws)) idx -> offset (crops m wl sh ws) idx = half_shift ws idx.
Proof.
  unfold crops. induction wl as [|w wl IH]; intros [|N sh] [|(l & r) ws] idx L1 L2 V; cbn in L1, L2; try lia; cbn [combine map] in *; [destruct idx; reflexivity|].
  destruct idx as [|i idx]; [destruct V|]. destruct V as (Vi & V). cbn [snd] in Vi. cbn [offset half_shift]. f_equal; [lia|]. apply IH; auto.
Qed.
Lemma bandops_shape m wl : forall key k sh1 sh2 (x : nd C), nshape x = sh1 ++ sh2 -> List.length sh1 = k -> List.length wl = List.length sh2 -> String.length key = List.length sh2 ->
  nshape (ops (bandops key k m wl sh2) x) = sh1 ++ map (fun '(w, N) => coeff_len m N (dec_len w)) (combine wl sh2).
Proof.
  induction wl as [|w wl IH]; intros [|c key] k sh1 [|N sh2] x Hx Hk L1 L2; cbn in L1, L2; try lia; [cbn; auto|]. cbn [bandops combine map].
  change (ops ((k, (coeff_len m N (dec_len w), analysis m (pick C c w))) :: bandops key (S k) m wl sh2) x) with (ops (bandops key (S k) m wl sh2) (app_op (k, (coeff_len m N (dec_len w), analysis m (pick C c w))) x)).
  rewrite (IH key (S k) (sh1 ++ [coeff_len m N (dec_len w)])); auto; try lia.
  - rewrite <- app_assoc. reflexivity.
  - rewrite app_op_shape. cbn [fst snd]. rewrite Hx, setn_app by auto. rewrite <- app_assoc. reflexivity.
  - rewrite app_length. cbn. lia.
Qed.
Lemma plan_full_wf m wl : forall k sh, plan_ok C fuel (full_plan k m wl) sh -> Forall wf_bank wl.
Proof. induction wl as [|w wl IH]; intros k sh H; constructor; cbn in H; destruct H as ((_ & H & _) & _ & H2); auto. eapply IH; eauto. Qed.
Lemma full_plan_len m wl : forall k, List.length (@full_plan C k m wl) = List.length wl.
Proof. induction wl as [|w wl IH]; intros k; cbn; auto. Qed.
Lemma padded_len m sh : forall ws, List.length ws = List.length sh -> List.length (padded m sh ws) = List.length sh.
Proof. induction sh as [|N sh IH]; intros [|(l & r) ws] L; cbn in *; try lia. rewrite IH; lia. Qed.

(** The bands of the padded array contain the bands of the array. *)
Theorem dwtn_of_padded junk (x : sarr C) w M M' m m' wl a ws : sarr_ok C x -> 1 <= ndim x <= 64 -> m <> PERIODIZATION -> m' <> PERIODIZATION ->
  List.length wl = List.length (sshape x) -> widths (List.length (sshape x)) a = Ok ws -> Forall2 (pad_ok m fuel) (sshape x) ws -> Forall2 wide_enough wl ws ->
  resolves C (ndim x) w M (default_axes (ndim x) None) (full_plan 0 m wl) -> plan_ok C fuel (full_plan 0 m wl) (sshape x) ->
  resolves C (ndim x) w M' (default_axes (ndim x) None) (full_plan 0 m' wl) -> plan_ok C fuel (full_plan 0 m' wl) (padded m (sshape x) ws) ->
  exists p X Y, padn fuel (val C x) a (mode_name m) = Ok p /\ dwtn fuel junk x w M None = Ok X /\ dwtn fuel junk (of_nd p) w M' None = Ok Y /\
    Forall2 (fun u v => fst u = fst v /\ forall idx, valid (sshape (snd u)) idx -> ndget (val C (snd v)) (half_shift ws idx) = ndget (val C (snd u)) idx) X Y.
Proof.
  intros Ox Hn Hm Hm' Lw Ea Hp Hwd R1 P1 R2 P2. assert (Wx := val_wf C x Ox). pose proof (nshape_val C x) as Sx.
  assert (Lws := forall2_len Hp). assert (Hwf := plan_full_wf m wl 0 _ P1).
  assert (Hne : forall mm, @full_plan C 0 mm wl <> []) by (intros mm; destruct wl; [cbn in Lw; unfold ndim, zlen in Hn; lia|discriminate]).
  destruct (padn_spec fuel C m (val C x) a ws) as (p & Ep & Wp & Sp & _); rewrite ?Sx; auto. rewrite Sx in Sp.
  pose proof (padn_ops fuel C m (val C x) a ws) as Ep2. rewrite Sx in Ep2. rewrite (Ep2 Wx Ea Hp) in Ep. injection Ep as Ep. rewrite winall_numbered in Ep by auto. fold aop in Ep.
  exists p. eexists. eexists. split; [rewrite (Ep2 Wx Ea Hp); rewrite winall_numbered by auto; f_equal; exact Ep|].
  split; [apply (dwtn_bands C fuel junk x w M None (full_plan 0 m wl)); auto|].
  assert (Ov : sarr_ok C (of_nd p)) by (apply of_nd_ok; auto).
  assert (Sv : sshape (of_nd p) = padded m (sshape x) ws) by (cbn; auto).
  assert (Nv : ndim (of_nd p) = ndim x) by (unfold ndim, zlen; rewrite Sv, padded_len; auto; lia).
  split; [apply (dwtn_bands C fuel junk (of_nd p) w M' None (full_plan 0 m' wl)); rewrite ?Nv, ?Sv; auto|].
  rewrite !full_plan_len. 
  assert (G : forall key, In key (ad_keys (List.length wl)) -> (forall idx, valid (sshape (of_nd (band C key (full_plan 0 m wl) (val C x)))) idx ->
    ndget (val C (of_nd (band C key (full_plan 0 m' wl) (val C (of_nd p))))) (half_shift ws idx) = ndget (val C (of_nd (band C key (full_plan 0 m wl) (val C x)))) idx)).
  { intros key Hk idx V. apply ad_keys_length in Hk.
    assert (Wb : nd_wf (band C key (full_plan 0 m wl) (val C x))) by (apply (band_wf C fuel); rewrite ?Sx; auto).
    assert (Wb' : nd_wf (band C key (full_plan 0 m' wl) p)) by (apply (band_wf C fuel); rewrite ?Sp; auto).
    rewrite (val_of_nd C p Wp) in *. rewrite val_of_nd by auto. rewrite val_of_nd by auto. cbn [of_nd sshape] in V.
    assert (B1 : band C key (full_plan 0 m wl) (val C x) = ops (bandops key 0 m wl (sshape x)) (val C x)) by (apply (band_ops m wl key 0 []); auto).
    assert (B2 : band C key (full_plan 0 m' wl) p = ops (bandops key 0 m' wl (padded m (sshape x) ws)) p).
    { apply (band_ops m' wl key 0 []); auto. rewrite padded_len; auto; lia. }
    rewrite B1 in V |- *. rewrite B2. rewrite B2 in Wb'.
    assert (S2 : nshape (ops (bandops key 0 m' wl (padded m (sshape x) ws)) p) = map (fun '(w, N) => coeff_len m' N (dec_len w)) (combine wl (padded m (sshape x) ws))).
    { apply (bandops_shape m' wl key 0 []); auto; rewrite padded_len; auto; lia. }
    assert (S1 : nshape (ops (bandops key 0 m wl (sshape x)) (val C x)) = map (fun '(w, N) => coeff_len m N (dec_len w)) (combine wl (sshape x))).
    { apply (bandops_shape m wl key 0 []); auto; lia. }
    assert (Ecr : map snd (crops m wl (sshape x) ws) = map (fun '(w, N) => coeff_len m N (dec_len w)) (combine wl (sshape x))).
    { clear - Lw Lws. unfold crops. revert wl ws Lw Lws. induction (sshape x) as [|N sh IH]; intros [|w wl] [|(l & r) ws] L1 L2; cbn in L1, L2; try lia; cbn; auto. f_equal. apply IH; lia. }
    assert (V' : valid (map snd (crops m wl (sshape x) ws)) idx) by (rewrite Ecr, <- S1; auto).
    assert (Hpos : Forall (fun N => min_len m <= N) (sshape x)) by (clear - Hp; induction Hp as [|N v sh ws (A & _) Hp IH]; constructor; auto).
    assert (Hlr : Forall (fun w => 0 <= fst w /\ 0 <= snd w) ws) by (clear - Hp; induction Hp as [|N v sh ws (A & B & D & _) Hp IH]; constructor; auto).
    rewrite <- (crop_band m m' Hm Hm' wl ws key 0 [] (sshape x) (val C x)); auto; try lia. rewrite Ep.
    change idx with ([] ++ idx) at 2. rewrite (ndget_cropall (crops m wl (sshape x) ws) 0 [] (nshape (ops (bandops key 0 m' wl (padded m (sshape x) ws)) p))); auto.
    - cbn [app]. rewrite crops_spec; auto; lia.
    - rewrite S2. clear - Lw Lws Hpos Hlr Hwd Hwf Hm Hm'. unfold crops. revert wl ws Lw Lws Hlr Hwd Hwf.
      induction Hpos as [|N sh HN Hpos IH]; intros [|w wl] [|(l & r) ws] L1 L2 Hlr Hwd Hwf; cbn in L1, L2; try lia; cbn [padded combine map]; constructor.
      + inversion Hlr as [|? ? (A & B) _]; subst. inversion Hwd as [|? ? ? ? (E & F & G) _]; subst. inversion Hwf as [|? ? (_ & _ & _ & _ & W5) _]; subst. cbn [fst snd] in *.
        replace (match m with PERIODIZATION => N + N mod 2 | _ => N end) with N by (destruct m; auto; congruence).
        assert (Hc : forall m N F, m <> PERIODIZATION -> coeff_len m N F = (N + F - 1) / 2) by (intros m0 N0 F0; destruct m0; try reflexivity; congruence).
        rewrite !Hc by auto. assert (1 <= N) by (destruct m; cbn in HN; lia). lia.
      + inversion Hlr; inversion Hwd; inversion Hwf; subst. apply IH; auto.
    - exact I. }
  revert G. generalize (ad_keys (List.length wl)). clear. intros keys G. induction keys as [|key keys IH]; cbn [map]; constructor.
  - split; [reflexivity|]. cbn [snd]. apply G. left. auto.
  - apply IH. intros key' Hk. apply G. right. auto.
Qed.

(** ** A right width of zero *)
Lemma slice_center (v : list C) l r N : 0 <= l -> 0 <= r -> 0 <= N -> zlen v = l + N + r -> zlen (slice_neg v l r) = N /\ slice_neg (zpad C (slice_neg v l r) l r) l r = slice_neg v l r.
Proof.
  intros Hl Hr HN Hv. split; [|apply slice_zpad; auto]. unfold slice_neg. rewrite Hv. unfold zlen in *. rewrite firstn_length, skipn_length. lia.
Qed.
Lemma pad_antisymmetric_center (v : list C) l r N : 0 <= l -> 1 <= r -> 0 <= N -> zlen v = l + N + r ->
  pad_antisymmetric fuel v l r = pad_antisymmetric fuel (zpad C (slice_neg v l r) l r) l r.
Proof.
  intros Hl Hr HN Hv. destruct (slice_center v l r N) as (E1 & E2); auto; try lia. unfold pad_antisymmetric.
  rewrite E2. rewrite zlen_zpad, E1, Hv by lia. reflexivity.
Qed.
Definition two_modes (m : mode) : option (list C -> Z -> Z -> res (list C)) :=
  match m with SMOOTH => Some pad_smooth | ANTISYMMETRIC => Some (pad_antisymmetric fuel) | _ => None end.
Lemma two_modes_ok m f v l r N : two_modes m = Some f -> zlen v = l + N + r -> 2 <= N -> 0 <= l -> 1 <= r -> l + N + r + 4 < Z.of_nat fuel -> exists u, f v l r = Ok u.
Proof.
  intros E Hv HN Hl Hr Hf. destruct m; try discriminate; injection E as <-.
  - unfold pad_smooth. rewrite py_item_pos by lia. cbn [bind]. rewrite py_item_pos by lia. cbn [bind]. cbv zeta.
    set (v1 := set_slice _ _ _ _). assert (Hv1 : zlen v1 = zlen v) by (unfold v1, set_slice; rewrite zlen_tab; lia).
    rewrite py_item_neg by (try rewrite Hv1; lia). cbn [bind]. rewrite py_item_neg by (try rewrite Hv1; lia). cbn [bind].
    replace (r =? 0) with false by lia. eauto.
  - rewrite (pad_antisymmetric_center v l r N) by lia. destruct (slice_center v l r N) as (E1 & _); try lia.
    eexists. apply pad_antisymmetric_spec; rewrite ?E1; lia.
Qed.
Lemma two_modes_r0 m f v l N : two_modes m = Some f -> zlen v = l + N + 0 -> 2 <= N -> 0 <= l -> f v l 0 = Err ValueError.
Proof.
  intros E Hv HN Hl. destruct m; try discriminate; injection E as <-.
  - apply pad_smooth_r0; lia.
  - unfold pad_antisymmetric. cbv zeta. cbn [Z.eqb]. unfold np_pad. change (zlen (@nil C)) with 0.
    destruct (l =? 0) eqn:El; cbn [Z.eqb negb andb bind]; [|reflexivity].
    rewrite zlen_tab by lia. replace (l + 0 + 0 =? zlen v) with false by lia. reflexivity.
Qed.

Lemma mapM_some {A B} (f : A -> res B) l : (forall a, In a l -> exists b, f a = Ok b) -> exists bs, mapM f l = Ok bs.
Proof.
  induction l as [|a l IH]; intros H; cbn [mapM]; [eauto|]. destruct (H a (or_introl eq_refl)) as (b & ->). cbn [bind].
  destruct IH as (bs & ->); [intros c Hc; apply H; right; auto|]. cbn [bind]. eauto.
Qed.

Theorem padn_right_zero m (x : nd C) a ws : m = SMOOTH \/ m = ANTISYMMETRIC -> nd_wf x -> widths (List.length (nshape x)) a = Ok ws ->
  Forall2 (fun N w => 2 <= N /\ 0 <= fst w /\ 0 <= snd w /\ fst w + N + snd w + 4 < Z.of_nat fuel) (nshape x) ws ->
  (exists w, In w ws /\ snd w = 0) -> padn fuel x a (mode_name m) = Err ValueError.
Proof.
  intros Hm Wx Ea H (w0 & Hw0 & Hz). destruct (two_modes m) as [f|] eqn:Ef; [|destruct Hm as [->| ->]; discriminate].
  assert (L := forall2_len H).
  assert (Ep : padn fuel x a (mode_name m) = np_padn_with f x ws).
  { unfold padn. rewrite Ea. cbn [bind]. destruct Hm as [->| ->]; injection Ef as <-; reflexivity. }
  rewrite Ep. unfold np_padn_with. set (sh := nshape x) in *.
  assert (HA : forall w, In w (numbered ws) -> (fst w < List.length sh)%nat /\ 2 <= nthz (fst w) sh /\ 0 <= fst (snd w) /\ 0 <= snd (snd w) /\ fst (snd w) + nthz (fst w) sh + snd (snd w) + 4 < Z.of_nat fuel).
  { intros w Hw. rewrite (numbered_nth ws (0, 0)) in Hw. apply in_map_iff in Hw. destruct Hw as (k & <- & Hk). apply in_seq in Hk. cbn [fst snd]. split; [lia|].
    clear - H Hk. revert k Hk. induction H as [|N v sh ws Hv H IH]; intros k Hk; cbn in Hk; [lia|]. destruct k as [|k]; cbn; auto. apply (IH k). lia. }
  rewrite padn_modes; auto; [|discriminate|intros w Hw; destruct (HA w Hw) as (A & B & D & E & _); cbn [min_len]; repeat split; auto; fold sh; lia].
  cbn [bind]. rewrite winall_numbered by auto. fold sh. set (y := ops _ x).
  assert (Sy : nshape y = padded ZEROPAD sh ws) by (apply (winall_shape C ZEROPAD sh ws 0 []); auto).
  assert (Sy2 : shape_ok (nshape y) /\ forall k, (k < List.length sh)%nat -> nthz k (nshape y) = fst (nth k ws (0, 0)) + nthz k sh + snd (nth k ws (0, 0)) /\ Forall (fun N => 1 <= N) (nshape y)).
  { rewrite Sy. clear - H. induction H as [|N (l & r) sh ws (A & B & D & _) H (IH1 & IH2)]; cbn [padded fst snd] in *; [split; [constructor|intros k Hk; cbn in Hk; lia]|].
    split; [constructor; [lia|auto]|]. assert (HF : Forall (fun N => 1 <= N) (padded ZEROPAD sh ws)).
    { clear - H. induction H as [|N (l & r) sh ws (A & B & D & _) H IH]; cbn [padded fst snd] in *; constructor; auto; lia. }
    intros [|k] Hk; cbn in Hk; (split; [|constructor; [lia|auto]]); [reflexivity|]. apply (IH2 k). lia. }
  destruct Sy2 as (Ok & Sy2).
  assert (Hex : exists w, In w (numbered ws) /\ snd (snd w) = 0).
  { destruct (In_nth ws w0 (0, 0) Hw0) as (k & Hk & E). exists (k, w0). split; auto. rewrite (numbered_nth ws (0, 0)). apply in_map_iff. exists k. rewrite E. split; auto. apply in_seq. lia. }
  assert (HN : forall w, In w (numbered ws) -> nthz (fst w) (padded ZEROPAD sh ws) = fst (snd w) + nthz (fst w) sh + snd (snd w)).
  { intros w Hw. pose proof (HA w Hw) as (A & _). rewrite (numbered_nth ws (0, 0)) in Hw. apply in_map_iff in Hw. destruct Hw as (k & <- & Hk). cbn [fst snd] in *. rewrite <- Sy. apply Sy2. auto. }
  assert (Hpos : (0 < List.length sh)%nat) by (destruct ws; cbn in *; [destruct Hw0|lia]).
  destruct (Sy2 0%nat Hpos) as (_ & HF). rewrite Sy in Ok, HF.
  clearbody y. clear Ep Sy2 Hw0 Hz w0. revert y Sy HA HN Hex. generalize (numbered ws). intros L0. 
  induction L0 as [|(k & l & r) L0 IH]; intros y Sy HA HN Hex; [destruct Hex as (w & [] & _)|].
  cbn [foldM]. destruct (HA _ (or_introl eq_refl)) as (A & B & D & E & F). pose proof (HN _ (or_introl eq_refl)) as HNk. cbn [fst snd] in *.
  assert (Hlin : forall idx, zlen (line y k idx) = l + nthz k sh + r).
  { intros idx. unfold line. rewrite Sy, HNk. apply zlen_tab. lia. }
  destruct (Z.eq_dec r 0) as [->|Hr].
  - unfold each_line. set (sh1 := setn k 1 (nshape y)).
    assert (H1 : 1 <= prodZ sh1).
    { apply prodZ_pos. unfold sh1. rewrite Sy. clear - HF. revert k. induction HF as [|a s Ha HF IH]; intros [|k]; cbn; constructor; auto; lia. }
    assert (Et : exists t, tab (prodZ sh1) (fun i => i) = 0 :: t).
    { unfold tab. destruct (Z.to_nat (prodZ sh1)) as [|q] eqn:Eq; [lia|]. cbn. eauto. }
    destruct Et as (t & ->). cbn [mapM]. rewrite (two_modes_r0 m f _ l (nthz k sh)); auto.
  - destruct (mapM_some (fun i => f (line y k (unravel (setn k 1 (nshape y)) i)) l r) (tab (prodZ (setn k 1 (nshape y))) (fun i => i))) as (vs & Evs).
    { intros i _. apply (two_modes_ok m f _ l r (nthz k sh)); auto; lia. }
    unfold each_line. rewrite Evs. cbn [bind]. apply IH.
    + cbn. auto.
    + intros w Hw. apply HA. right. auto.
    + intros w Hw. apply HN. right. auto.
    + destruct Hex as (w & [<-|Hw] & Hz); [cbn in Hz; lia|]. exists w. auto.
Qed.
End D.
