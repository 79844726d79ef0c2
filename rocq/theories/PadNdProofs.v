(** pad in several dimensions: zero padding followed by a function along every
    axis, and edge padding followed by wrapping, give the extension of the
    array axis by axis. *)
From Coq Require Import Ascii String.
From Verif Require Import Base BaseLemmas CConv Spec ExtLemmas Lengths Dwt DwtProofs Linear Swt SwtProofs Nd NdSpec NdLinear Axis AxisProofs Pad PadProofs PadNd PadNdSpec.
From Verif Require FswAxis CwtNd CwtProofs.

Lemma forall2_len {A B} (R : A -> B -> Prop) l l' : Forall2 R l l' -> List.length l = List.length l'.
Proof. induction 1; cbn; auto. Qed.
Arguments forall2_len {A B R l l'}.

Section P.
Variable fuel : nat.
Variable C : CRing.
Add Ring Cr_padnd : (rth C).

(** ** Operations along distinct axes *)
Definition aop := (nat * (Z * (list C -> list C)))%type.
Definition app_op (o : aop) (x : nd C) : nd C := along (fst o) (fst (snd o)) (snd (snd o)) x.
Definition ops (L : list aop) (x : nd C) : nd C := fold_left (fun x o => app_op o x) L x.
Definition op_ok (sh : list Z) (o : aop) : Prop := (fst o < List.length sh)%nat /\ 0 <= fst (snd o) /\ linop C (nthz (fst o) sh) (fst (snd o)) (snd (snd o)).

Lemma op_ok_setn sh k n o : fst o <> k -> op_ok sh o -> op_ok (setn k n sh) o.
Proof. intros Hne (H1 & H2 & H3). split; [rewrite setn_length; auto|]. split; auto. rewrite nthz_setn_ne by auto. auto. Qed.
Lemma app_op_wf o x : nd_wf x -> op_ok (nshape x) o -> nd_wf (app_op o x).
Proof. intros W (H1 & H2 & H3). apply along_wf; auto. Qed.
Lemma app_op_shape o x : nshape (app_op o x) = setn (fst o) (fst (snd o)) (nshape x).
Proof. apply along_shape. Qed.

Lemma app_op_comm o p x : nd_wf x -> fst o <> fst p -> op_ok (nshape x) o -> op_ok (nshape x) p -> app_op o (app_op p x) = app_op p (app_op o x).
Proof. intros W Hne (A & B & D) (E & F & G). apply along_comm; auto. Qed.

Lemma ops_comm L : forall o x, nd_wf x -> op_ok (nshape x) o -> Forall (op_ok (nshape x)) L -> NoDup (map fst L) -> ~ In (fst o) (map fst L) ->
  app_op o (ops L x) = ops L (app_op o x).
Proof.
  induction L as [|p L IH]; intros o x W Ho HL Hd Hn; cbn [ops fold_left]; auto.
  inversion HL as [|? ? Hp HL']; subst. inversion Hd as [|? ? Hn' Hd']; subst. cbn in Hn.
  change (fold_left (fun x o => app_op o x) L (app_op p x)) with (ops L (app_op p x)).
  change (fold_left (fun x o => app_op o x) L (app_op p (app_op o x))) with (ops L (app_op p (app_op o x))).
  assert (Hne : fst o <> fst p) by (intros E; apply Hn; left; auto).
  rewrite IH.
  - f_equal. apply app_op_comm; auto.
  - apply app_op_wf; auto.
  - rewrite app_op_shape. apply op_ok_setn; auto.
  - rewrite app_op_shape. rewrite Forall_forall in *. intros q Hq. apply op_ok_setn; [|apply HL'; auto]. intros E. apply Hn'. rewrite <- E. apply in_map. auto.
  - auto.
  - intros H. apply Hn. right. auto.
Qed.

Lemma ops_wf L : forall x, nd_wf x -> Forall (op_ok (nshape x)) L -> NoDup (map fst L) -> nd_wf (ops L x).
Proof.
  induction L as [|p L IH]; intros x W HL Hd; cbn [ops fold_left]; auto.
  inversion HL as [|? ? Hp HL']; subst. inversion Hd as [|? ? Hn' Hd']; subst. apply IH; [apply app_op_wf; auto| |auto].
  rewrite app_op_shape. rewrite Forall_forall in *. intros q Hq. apply op_ok_setn; [|apply HL'; auto]. intros E. apply Hn'. rewrite <- E. apply in_map. auto.
Qed.
Lemma ops_len L : forall x, List.length (nshape (ops L x)) = List.length (nshape x).
Proof. induction L as [|p L IH]; intros x; cbn [ops fold_left]; auto. etransitivity; [apply IH|]. rewrite app_op_shape. apply setn_length. Qed.
Lemma ops_nthz L : forall x k, ~ In k (map fst L) -> nthz k (nshape (ops L x)) = nthz k (nshape x).
Proof.
  induction L as [|p L IH]; intros x k Hn; cbn [ops fold_left]; auto. cbn in Hn. etransitivity; [apply IH; intros H; apply Hn; right; auto|].
  rewrite app_op_shape. apply nthz_setn_ne. intros E. apply Hn. left. auto.
Qed.

(** A first pass along all axes, then a second one. *)
Lemma two_pass {W} (f : nd C -> W -> res (nd C)) (ax : W -> nat) (P Q : W -> Z * (list C -> list C)) L : forall x, nd_wf x -> NoDup (map ax L) ->
  (forall w, In w L -> op_ok (nshape x) (ax w, P w) /\ op_ok (nshape x) (ax w, Q w) /\
     forall y, nd_wf y -> List.length (nshape y) = List.length (nshape x) -> nthz (ax w) (nshape y) = nthz (ax w) (nshape x) ->
       f (app_op (ax w, P w) y) w = Ok (app_op (ax w, Q w) y)) ->
  foldM f (ops (map (fun w => (ax w, P w)) L) x) L = Ok (ops (map (fun w => (ax w, Q w)) L) x).
Proof.
  induction L as [|w L IH]; intros x Wx Hd H; cbn [map]; [reflexivity|]. inversion Hd as [|? ? Hn Hd']; subst.
  destruct (H w (or_introl eq_refl)) as (HP & HQ & Hf).
  assert (Ef : forall X, map fst (map (fun w => (ax w, X w)) L : list aop) = map ax L) by (intros X; rewrite map_map; apply map_ext; reflexivity).
  assert (HL : Forall (op_ok (nshape x)) (map (fun w => (ax w, P w)) L)).
  { apply Forall_forall. intros o Ho. apply in_map_iff in Ho. destruct Ho as (v & <- & Hv). apply H. right. auto. }
  change (ops ((ax w, P w) :: map (fun w => (ax w, P w)) L) x) with (ops (map (fun w => (ax w, P w)) L) (app_op (ax w, P w) x)).
  change (ops ((ax w, Q w) :: map (fun w => (ax w, Q w)) L) x) with (ops (map (fun w => (ax w, Q w)) L) (app_op (ax w, Q w) x)).
  cbn [foldM]. rewrite <- ops_comm; try rewrite Ef; auto. rewrite Hf.
  - cbn [bind]. rewrite ops_comm; try rewrite Ef; auto. apply IH; auto; [apply app_op_wf; auto|]. intros v Hv.
    assert (Hne : ax v <> ax w) by (intros E; apply Hn; rewrite <- E; apply in_map; auto).
    destruct (H v (or_intror Hv)) as (A & B & D). rewrite app_op_shape. cbn [fst snd].
    split; [apply op_ok_setn; auto|]. split; [apply op_ok_setn; auto|]. intros y Wy L1 L2. rewrite setn_length in L1. rewrite nthz_setn_ne in L2 by auto. apply D; auto.
  - apply ops_wf; try rewrite Ef; auto.
  - apply ops_len.
  - apply ops_nthz. rewrite Ef. auto.
Qed.
(** A single pass. *)
Lemma one_pass {W} (f : nd C -> W -> res (nd C)) (ax : W -> nat) (Q : W -> Z * (list C -> list C)) L : forall x, nd_wf x -> NoDup (map ax L) ->
  (forall w, In w L -> op_ok (nshape x) (ax w, Q w) /\
     forall y, nd_wf y -> List.length (nshape y) = List.length (nshape x) -> nthz (ax w) (nshape y) = nthz (ax w) (nshape x) -> f y w = Ok (app_op (ax w, Q w) y)) ->
  foldM f x L = Ok (ops (map (fun w => (ax w, Q w)) L) x).
Proof.
  induction L as [|w L IH]; intros x Wx Hd H; cbn [map foldM]; [reflexivity|]. inversion Hd as [|? ? Hn Hd']; subst.
  destruct (H w (or_introl eq_refl)) as (HQ & Hf). rewrite Hf by auto. cbn [bind].
  change (ops ((ax w, Q w) :: map (fun w => (ax w, Q w)) L) x) with (ops (map (fun w => (ax w, Q w)) L) (app_op (ax w, Q w) x)).
  apply IH; auto; [apply app_op_wf; auto|]. intros v Hv.
  assert (Hne : ax v <> ax w) by (intros E; apply Hn; rewrite <- E; apply in_map; auto).
  destruct (H v (or_intror Hv)) as (B & D). rewrite app_op_shape. cbn [fst snd].
  split; [apply op_ok_setn; auto|]. intros y Wy L1 L2. rewrite setn_length in L1. rewrite nthz_setn_ne in L2 by auto. apply D; auto.
Qed.

(** ** Lines *)
Lemma each_line_ok f k l r n N P Q (y : nd C) : nd_wf y -> (k < List.length (nshape y))%nat -> nthz k (nshape y) = N -> 1 <= n ->
  (forall v, zlen v = N -> zlen (P v) = n) -> (forall v, zlen v = N -> f (P v) l r = Ok (Q v)) ->
  each_line f (along k n P y) (k, (l, r)) = Ok (along k n Q y).
Proof.
  intros Wy Hk HN Hn HP HQ. unfold each_line. rewrite along_shape, setn_setn. set (sh1 := setn k 1 (nshape y)).
  assert (S1 : shape_ok sh1) by (apply shape_ok_setn; [apply Wy|lia]).
  assert (HV : forall i, 0 <= i < prodZ sh1 -> valid (setn k n (nshape y)) (setn k 0 (unravel sh1 i))).
  { intros i Hi. pose proof (unravel_valid sh1 S1 i Hi) as V. rewrite <- (setn_setn k n 1 (nshape y)). apply valid_setn; [exact V|lia]. }
  rewrite (mapM_ok _ (fun i => Q (line y k (unravel sh1 i)))).
  - cbn [bind]. f_equal. unfold along at 1. apply ndtab_ext; [apply shape_ok_setn; [apply Wy|lia]|]. intros idx V.
    assert (V1 : valid sh1 (setn k 0 idx)) by (unfold sh1; rewrite <- (setn_setn k 1 n (nshape y)); apply valid_setn; [exact V|lia]).
    pose proof (ravel_bound sh1 _ V1) as Hb. unfold along. rewrite CwtProofs.map_tab, CwtNd.nth_tab by auto. rewrite unravel_ravel by auto. rewrite line_setn. reflexivity.
  - intros i Hi. apply CwtProofs.in_tab in Hi. destruct Hi as (j & Hj & ->). pose proof (zlen_line y k (unravel sh1 j) Wy) as Zl. rewrite HN in Zl.
    rewrite <- (line_setn (along k n P y) k 0). rewrite line_along; rewrite ?line_setn; auto.
Qed.

Lemma along_ext k n T U (y : nd C) : nd_wf y -> 0 <= n -> (forall v, zlen v = nthz k (nshape y) -> T v = U v) -> along k n T y = along k n U y.
Proof. intros Wy Hn H. unfold along. apply ndtab_ext; [apply shape_ok_setn; [apply Wy|auto]|]. intros idx _. rewrite H; auto. apply zlen_line. auto. Qed.

(** The extension along one axis. *)
Definition ext_end (m : mode) (N : Z) : Z := match m with PERIODIZATION => N + N mod 2 | _ => N end.
Definition wop (m : mode) (N : Z) (w : Z * Z) : Z * (list C -> list C) :=
  (fst w + ext_end m N + snd w, fun v => tab (fst w + ext_end m N + snd w) (fun n => ext m v (n - fst w))).
Lemma ext_end_ge m N : 0 <= N -> N <= ext_end m N.
Proof. intros H. destruct m; cbn; lia. Qed.
Lemma wop_ok m sh k w : (k < List.length sh)%nat -> 0 <= nthz k sh -> 0 <= fst w -> 0 <= snd w -> op_ok sh (k, wop m (nthz k sh) w).
Proof.
  intros Hk HN Hl Hr. pose proof (ext_end_ge m (nthz k sh) HN). split; [exact Hk|]. cbn [fst snd wop]. split; [lia|]. split.
  - intros v Hv. apply zlen_tab. lia.
  - intros a x b y Hx Hy. rewrite vlin_tab. apply tab_ext. intros n Hn. apply ext_linear. lia.
Qed.

Lemma numbered_axes {A} (l : list A) : map fst (numbered l) = seq 0 (List.length l).
Proof.
  unfold numbered. generalize 0%nat. induction l as [|a l IH]; intros k; cbn; auto. f_equal. apply IH.
Qed.
Lemma numbered_nth {A} (l : list A) d : numbered l = map (fun k => (k, nth k l d)) (seq 0 (List.length l)).
Proof.
  unfold numbered. assert (G : forall k (g : nat -> A), (forall i, (i < List.length l)%nat -> g (k + i)%nat = nth i l d) -> combine (seq k (List.length l)) l = map (fun j => (j, g j)) (seq k (List.length l))).
  { induction l as [|a l IH]; intros k g Hg; cbn; auto. f_equal.
    - f_equal. specialize (Hg 0%nat ltac:(cbn; lia)). rewrite Nat.add_0_r in Hg. symmetry. exact Hg.
    - apply IH. intros i Hi. replace (S k + i)%nat with (k + S i)%nat by lia. rewrite Hg by (cbn; lia). reflexivity. }
  apply G. reflexivity.
Qed.

Definition ax_ok (m : mode) (sh : list Z) (w : nat * (Z * Z)) : Prop := (fst w < List.length sh)%nat /\ pad_ok m fuel (nthz (fst w) sh) (snd w).

Lemma numbered_ok m sh ws : Forall2 (pad_ok m fuel) sh ws -> forall w, In w (numbered ws) -> ax_ok m sh w.
Proof.
  intros H w Hw. assert (L := forall2_len H). rewrite (numbered_nth ws (0, 0)) in Hw. apply in_map_iff in Hw. destruct Hw as (k & <- & Hk). apply in_seq in Hk.
  unfold ax_ok. cbn [fst snd]. split; [lia|]. clear L. revert k Hk. induction H as [|N v sh ws Hv H IH]; intros k Hk; cbn in Hk; [lia|].
  destruct k as [|k]; cbn; auto. apply (IH k). lia.
Qed.

Lemma padn_modes m (x : nd C) ws : nd_wf x -> m <> PERIODIZATION -> (forall w, In w (numbered ws) -> (fst w < List.length (nshape x))%nat /\ 0 <= fst (snd w) /\ 0 <= snd (snd w) /\ min_len m <= nthz (fst w) (nshape x)) ->
  np_padn m x ws = Ok (ops (map (fun w => (fst w, wop m (nthz (fst w) (nshape x)) (snd w))) (numbered ws)) x).
Proof.
  intros Wx Hm H. unfold np_padn. apply (one_pass (np_pad_axis m) fst (fun w => wop m (nthz (fst w) (nshape x)) (snd w))); auto.
  - rewrite numbered_axes. apply seq_NoDup.
  - intros (k & l & r) Hw. destruct (H _ Hw) as (Hk & Hl & Hr & HN). cbn [fst snd] in *.
    assert (1 <= nthz k (nshape x)) by (destruct m; cbn in HN; lia).
    split; [apply wop_ok; cbn [fst snd]; auto; lia|]. intros y Wy L1 L2. unfold np_pad_axis. rewrite L2.
    replace (nthz k (nshape x) =? 0) with false by lia. cbn [andb]. f_equal. unfold app_op. cbn [fst snd wop].
    replace (ext_end m (nthz k (nshape x))) with (nthz k (nshape x)) by (destruct m; auto; congruence).
    destruct m; try reflexivity; cbn in HN; replace (nthz k (nshape x) =? 1) with false by lia; reflexivity.
Qed.

Lemma padn_with m f (x : nd C) ws : nd_wf x -> m <> PERIODIZATION -> Forall2 (pad_ok m fuel) (nshape x) ws ->
  (forall v l r, pad_ok m fuel (zlen v) (l, r) -> f (zpad C v l r) l r = Ok (window m v l (zlen v + r))) ->
  np_padn_with f x ws = Ok (ops (map (fun w => (fst w, wop m (nthz (fst w) (nshape x)) (snd w))) (numbered ws)) x).
Proof.
  intros Wx Hm H Hf. pose proof (numbered_ok m (nshape x) ws H) as HA. unfold np_padn_with.
  assert (HA' : forall w, In w (numbered ws) -> (fst w < List.length (nshape x))%nat /\ 0 <= fst (snd w) /\ 0 <= snd (snd w) /\ 1 <= nthz (fst w) (nshape x)).
  { intros w Hw. destruct (HA w Hw) as (A & B & D & E & _). repeat split; auto. destruct m; cbn in B; lia. }
  rewrite padn_modes; auto; [|discriminate]. cbn [bind].
  apply (two_pass (each_line f) fst (fun w => wop ZEROPAD (nthz (fst w) (nshape x)) (snd w)) (fun w => wop m (nthz (fst w) (nshape x)) (snd w))); auto.
  - rewrite numbered_axes. apply seq_NoDup.
  - intros w Hw. destruct (HA' w Hw) as (A & B & D & E). pose proof (HA w Hw) as (_ & Hok). destruct w as (k & l & r). cbn [fst snd] in *.
    split; [apply wop_ok; cbn [fst snd]; auto; lia|]. split; [apply wop_ok; cbn [fst snd]; auto; lia|]. intros y Wy L1 L2.
    unfold app_op. cbn [fst snd wop]. replace (ext_end m (nthz k (nshape x))) with (nthz k (nshape x)) by (destruct m; auto; congruence). cbn [ext_end].
    apply (each_line_ok _ _ _ _ _ (nthz k (nshape x))); auto; try lia.
    + intros v Hv. apply zlen_tab. lia.
    + intros v Hv. pose proof (Hf v l r) as G. rewrite Hv in G. specialize (G Hok).
      unfold zpad, window in G. rewrite Hv in G. rewrite !Z.add_assoc in G. exact G.
Qed.

Lemma nth_parity k sh : nth k (map (fun N => (0, N mod 2)) sh) (0, 0) = (0, nthz k sh mod 2).
Proof. exact (map_nth (fun N => (0, N mod 2)) sh 0 k). Qed.

Lemma padn_periodization (x : nd C) ws : nd_wf x -> Forall2 (pad_ok PERIODIZATION fuel) (nshape x) ws ->
  (x' <- np_padn CONSTANT_EDGE x (map (fun N => (0, N mod 2)) (nshape x)) ;; np_padn PERIODIC x' ws) =
  Ok (ops (map (fun w => (fst w, wop PERIODIZATION (nthz (fst w) (nshape x)) (snd w))) (numbered ws)) x).
Proof.
  intros Wx H. pose proof (numbered_ok PERIODIZATION (nshape x) ws H) as HA. assert (L := forall2_len H).
  assert (Hpos : forall k, (k < List.length (nshape x))%nat -> 1 <= nthz k (nshape x)).
  { intros k Hk. assert (G : In (k, nth k ws (0, 0)) (numbered ws)) by (rewrite (numbered_nth ws (0, 0)); apply in_map_iff; exists k; split; auto; apply in_seq; lia).
    destruct (HA _ G) as (_ & B & _). cbn in B. exact B. }
  rewrite padn_modes; auto; [|discriminate|].
  - cbn [bind].
    assert (E : map (fun w : nat * (Z * Z) => (fst w, wop CONSTANT_EDGE (nthz (fst w) (nshape x)) (snd w))) (numbered (map (fun N => (0, N mod 2)) (nshape x))) =
      map (fun w : nat * (Z * Z) => (fst w, wop CONSTANT_EDGE (nthz (fst w) (nshape x)) (0, nthz (fst w) (nshape x) mod 2))) (numbered ws)).
    { rewrite (numbered_nth _ (0, 0)), (numbered_nth ws (0, 0)), !map_map, map_length, <- L. apply map_ext_in. intros k Hk. apply in_seq in Hk. cbn [fst snd]. do 2 f_equal.
      rewrite nth_parity. reflexivity. }
    rewrite E. unfold np_padn.
    apply (two_pass (np_pad_axis PERIODIC) fst (fun w => wop CONSTANT_EDGE (nthz (fst w) (nshape x)) (0, nthz (fst w) (nshape x) mod 2)) (fun w => wop PERIODIZATION (nthz (fst w) (nshape x)) (snd w))); auto.
    + rewrite numbered_axes. apply seq_NoDup.
    + intros w Hw. destruct (HA w Hw) as (A & B & D1 & D2 & _). destruct w as (k & l & r). cbn [fst snd] in *. cbn in B. set (N := nthz k (nshape x)) in *.
      pose proof (Z.mod_pos_bound N 2 ltac:(lia)) as Hb.
      split; [apply wop_ok; cbn [fst snd]; fold N; auto; lia|]. split; [apply wop_ok; cbn [fst snd]; fold N; auto; lia|]. intros y Wy L1 L2.
      unfold app_op. cbn [fst snd wop]. cbn [ext_end]. rewrite Z.add_0_l. unfold np_pad_axis. rewrite along_shape, nthz_setn by (rewrite L1; auto).
      replace (N + N mod 2 =? 0) with false by lia. cbn [andb]. f_equal.
      rewrite FswAxis.along_along; auto; try lia; [|intros v Hv; apply zlen_tab; lia].
      apply along_ext; auto; [lia|]. intros v Hv. rewrite L2 in Hv. apply tab_ext. intros n Hn. cbn [ext]. unfold pext. rewrite zlen_tab by lia. rewrite Hv.
      pose proof (Z.mod_pos_bound (n - l) (N + N mod 2) ltac:(lia)) as Hq. rewrite gz_tab by lia. f_equal. lia.
  - intros w Hw. rewrite (numbered_nth _ (0, 0)) in Hw. apply in_map_iff in Hw. destruct Hw as (k & <- & Hk). apply in_seq in Hk. rewrite map_length in Hk. cbn [fst snd].
    rewrite nth_parity. cbn [fst snd]. specialize (Hpos k ltac:(lia)).
    pose proof (Z.mod_pos_bound (nthz k (nshape x)) 2 ltac:(lia)). cbn [min_len]. lia.
Qed.

Theorem padn_ops m (x : nd C) a ws : nd_wf x -> widths (List.length (nshape x)) a = Ok ws -> Forall2 (pad_ok m fuel) (nshape x) ws ->
  padn fuel x a (mode_name m) = Ok (ops (map (fun w => (fst w, wop m (nthz (fst w) (nshape x)) (snd w))) (numbered ws)) x).
Proof.
  intros Wx Ea H. unfold padn. rewrite Ea. cbn [bind].
  assert (HA' : forall w, In w (numbered ws) -> (fst w < List.length (nshape x))%nat /\ 0 <= fst (snd w) /\ 0 <= snd (snd w) /\ min_len m <= nthz (fst w) (nshape x)).
  { intros w Hw. destruct (numbered_ok m (nshape x) ws H w Hw) as (A & B & D & E & _). repeat split; auto. }
  destruct m; cbn [mode_name].
  1-3: match goal with |- _ = Ok (ops (map (fun w => (fst w, wop ?m _ _)) _) _) => exact (padn_modes m x ws Wx ltac:(discriminate) HA') end.
  - apply (padn_with SMOOTH); auto; [discriminate|]. intros v l r (H1 & H2 & H3 & H4 & H5 & _). apply pad_smooth_spec; cbn in *; try lia; destruct (H5 eq_refl); lia.
  - exact (padn_modes PERIODIC x ws Wx ltac:(discriminate) HA').
  - exact (padn_periodization x ws Wx H).
  - exact (padn_modes REFLECT x ws Wx ltac:(discriminate) HA').
  - apply (padn_with ANTISYMMETRIC); auto; [discriminate|]. intros v l r (H1 & H2 & H3 & H4 & _ & H5). cbn in *. apply pad_antisymmetric_spec; auto; lia.
  - exact (padn_modes ANTIREFLECT x ws Wx ltac:(discriminate) HA').
Qed.

(** ** Elements of the padded array *)
Fixpoint winall (m : mode) (k : nat) (sh : list Z) (ws : list (Z * Z)) : list aop :=
  match sh, ws with N :: sh, w :: ws => (k, wop m N w) :: winall m (S k) sh ws | _, _ => [] end.
Lemma winall_numbered m sh ws : List.length sh = List.length ws -> map (fun w => (fst w, wop m (nthz (fst w) sh) (snd w))) (numbered ws) = winall m 0 sh ws.
Proof.
  unfold numbered. intros L.
  assert (G : forall sh2 ws k, List.length sh2 = List.length ws -> (forall i, (i < List.length sh2)%nat -> nthz (k + i) sh = nthz i sh2) ->
    map (fun w => (fst w, wop m (nthz (fst w) sh) (snd w))) (combine (seq k (List.length ws)) ws) = winall m k sh2 ws).
  { clear L ws. induction sh2 as [|N sh2 IH]; intros [|w ws] k L Hg; cbn in L; try lia; cbn [List.length seq combine map winall fst snd]; auto. f_equal.
    - specialize (Hg 0%nat ltac:(cbn; lia)). rewrite Nat.add_0_r in Hg. rewrite Hg. reflexivity.
    - apply IH; [lia|]. intros i Hi. replace (S k + i)%nat with (k + S i)%nat by lia. rewrite Hg by (cbn; lia). reflexivity. }
  apply G; auto.
Qed.
Lemma setn_app k n sh1 N sh2 : List.length sh1 = k -> setn k n (sh1 ++ N :: sh2) = sh1 ++ n :: sh2.
Proof. intros <-. induction sh1 as [|a sh1 IH]; cbn; auto. f_equal. apply IH. Qed.
Lemma nthz_app k sh1 N sh2 : List.length sh1 = k -> nthz k (sh1 ++ N :: sh2) = N.
Proof. intros <-. unfold nthz. induction sh1 as [|a sh1 IH]; cbn; auto. Qed.
Lemma valid_app sh1 : forall sh2 a b, valid sh1 a -> valid sh2 b -> valid (sh1 ++ sh2) (a ++ b).
Proof. induction sh1 as [|N sh1 IH]; intros sh2 [|i a] b H1 H2; cbn in *; try tauto. split; [tauto|]. apply IH; tauto. Qed.

Lemma ndext_ext m sh : forall (f g : list Z -> C) idx, List.length idx = List.length sh -> (forall rest, valid sh rest -> f rest = g rest) -> ndext m sh f idx = ndext m sh g idx.
Proof.
  induction sh as [|N sh IH]; intros f g [|i idx] L H; cbn in L; try lia; cbn [ndext]; [apply H; exact I|].
  apply IH; [lia|]. intros rest Hr. f_equal. apply tab_ext. intros t Ht. apply H. cbn. auto.
Qed.

Lemma winall_shape m sh2 : forall ws k sh1 (x : nd C), nshape x = sh1 ++ sh2 -> List.length sh1 = k -> List.length sh2 = List.length ws ->
  nshape (ops (winall m k sh2 ws) x) = sh1 ++ padded m sh2 ws.
Proof.
  induction sh2 as [|N sh2 IH]; intros [|(l & r) ws] k sh1 x Hx Hk L; cbn in L; try lia; [cbn; auto|].
  cbn [winall]. change (ops ((k, wop m N (l, r)) :: winall m (S k) sh2 ws) x) with (ops (winall m (S k) sh2 ws) (app_op (k, wop m N (l, r)) x)).
  rewrite (IH ws (S k) (sh1 ++ [l + ext_end m N + r])); try lia.
  - rewrite <- app_assoc. reflexivity.
  - rewrite app_op_shape. cbn [fst snd wop]. rewrite Hx, setn_app by auto. rewrite <- app_assoc. reflexivity.
  - rewrite app_length. cbn. lia.
Qed.

Lemma ndget_winall m sh2 : forall ws k sh1 (x : nd C) pre suf, nd_wf x -> nshape x = sh1 ++ sh2 -> List.length sh1 = k -> List.length sh2 = List.length ws ->
  Forall (fun N => 0 <= N) sh2 -> Forall (fun w => 0 <= fst w /\ 0 <= snd w) ws -> valid sh1 pre -> valid (padded m sh2 ws) suf ->
  ndget (ops (winall m k sh2 ws) x) (pre ++ suf) = ndext m sh2 (fun rest => ndget x (pre ++ rest)) (unpad ws suf).
Proof.
  induction sh2 as [|N sh2 IH]; intros [|(l & r) ws] k sh1 x pre suf Wx Hx Hk L HN Hw V1 V2; cbn in L; try lia.
  - cbn [padded] in V2. destruct suf; [reflexivity|destruct V2].
  - cbn [padded] in V2. destruct suf as [|i suf]; [destruct V2|]. destruct V2 as (Vi & V2). fold (ext_end m N) in Vi.
    inversion HN as [|? ? HN1 HN2]; subst. inversion Hw as [|? ? Hw1 Hw2]; subst. cbn [fst snd] in Hw1. pose proof (ext_end_ge m N HN1) as Hge.
    set (n := l + ext_end m N + r) in *. set (k := List.length sh1) in *.
    assert (Hpre : List.length pre = k) by (apply valid_len; auto).
    cbn [winall]. change (ops ((k, wop m N (l, r)) :: winall m (S k) sh2 ws) x) with (ops (winall m (S k) sh2 ws) (app_op (k, wop m N (l, r)) x)).
    assert (Hx' : nshape (app_op (k, wop m N (l, r)) x) = (sh1 ++ [n]) ++ sh2).
    { rewrite app_op_shape. cbn [fst snd wop]. rewrite Hx, setn_app by auto. rewrite <- app_assoc. reflexivity. }
    replace (pre ++ i :: suf) with ((pre ++ [i]) ++ suf) by (rewrite <- app_assoc; reflexivity).
    rewrite (IH ws (S k) (sh1 ++ [n])); auto; try lia.
    + cbn [unpad ndext]. apply ndext_ext.
      * apply valid_len in V2. clear - V2 L. revert sh2 suf V2 L. induction ws as [|(l & r) ws IH]; intros [|N sh2] [|i suf] V2 L; cbn in *; try lia. rewrite (IH sh2); auto.
      * intros rest Hr. rewrite <- app_assoc. cbn [app]. assert (V : valid (setn k n (nshape x)) (pre ++ i :: rest)).
        { rewrite Hx, setn_app by auto. apply valid_app; auto. cbn. split; auto. }
        unfold app_op. cbn [fst snd wop]. fold n. rewrite ndget_along by auto. rewrite nthz_app by auto. rewrite gz_tab by lia. f_equal.
        unfold line. rewrite Hx, nthz_app by auto. apply tab_ext. intros t Ht. rewrite setn_app by auto. reflexivity.
    + apply along_wf; auto. cbn [fst snd wop]. lia.
    + rewrite app_length. cbn. lia.
    + apply valid_app; auto. cbn. split; auto.
Qed.

Theorem padn_spec m (x : nd C) a ws : nd_wf x -> widths (List.length (nshape x)) a = Ok ws -> Forall2 (pad_ok m fuel) (nshape x) ws ->
  exists p, padn fuel x a (mode_name m) = Ok p /\ nd_wf p /\ nshape p = padded m (nshape x) ws /\
    forall idx, valid (padded m (nshape x) ws) idx -> ndget p idx = ndext m (nshape x) (ndget x) (unpad ws idx).
Proof.
  intros Wx Ea H. assert (L := forall2_len H). eexists. split; [apply padn_ops; eauto|]. rewrite winall_numbered by auto. split; [|split].
  - rewrite <- winall_numbered by auto. apply ops_wf; auto.
    + apply Forall_forall. intros o Ho. apply in_map_iff in Ho. destruct Ho as (w & <- & Hw). destruct (numbered_ok m (nshape x) ws H w Hw) as (A & B & D & E & _). apply wop_ok; auto. destruct m; cbn in B; lia.
    + rewrite map_map. cbn [fst]. change (map (fun w : nat * (Z * Z) => fst w) (numbered ws)) with (map fst (numbered ws)). rewrite numbered_axes. apply seq_NoDup.
  - apply (winall_shape m (nshape x) ws 0 []); auto.
  - intros idx V. change idx with ([] ++ idx) at 1. rewrite (ndget_winall m (nshape x) ws 0 []); auto.
    + apply Wx.
    + clear - H. induction H as [|N w sh ws (A & B & D & _) H IH]; constructor; auto.
    + exact I.
Qed.
End P.
