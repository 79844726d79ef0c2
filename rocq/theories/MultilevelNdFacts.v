(** wavedec2/waverec2 against wavedecn/waverecn, dwtn_max_level, and the
    prediction of shapes. *)
From Coq Require Import Ascii String.
From Verif Require Import Base BaseLemmas CConv Spec Instances ExtLemmas Lengths Dwt DwtProofs LengthsProofs PR Linear Multilevel MultilevelProofs Swt SwtProofs Nd NdSpec NdLinear Axis AxisProofs AxisProofs2 Multidim MultidimProofs MultidimFacts MultilevelNd MultilevelNdProofs.

Lemma objs_length {A} (p : per_axis A) n l : objs_per_axis p n = Ok l -> List.length l = n.
Proof.
  rewrite per_axis_spec. destruct p as [a|l0]; intros H; [injection H as <-; apply repeat_length|].
  destruct (Nat.eqb_spec (List.length l0) 1) as [E|_].
  - destruct l0 as [|a [|b t]]; cbn in E; try lia. injection H as <-. cbn [flat_map]. rewrite app_nil_r. apply repeat_length.
  - destruct (Nat.eqb_spec (List.length l0) n); [|discriminate]. injection H as <-. auto.
Qed.

Lemma list_min_spec l v : list_min l = Some v -> In v l /\ forall x, In x l -> v <= x.
Proof.
  destruct l as [|a t]; [discriminate|]. cbn [list_min]. intros H. injection H as <-.
  assert (G : forall t a, (fold_left Z.min t a = a \/ In (fold_left Z.min t a) t) /\ fold_left Z.min t a <= a /\ forall x, In x t -> fold_left Z.min t a <= x).
  { clear. induction t as [|b t IH]; intros a; cbn [fold_left].
    - split; [auto|]. split; [lia|]. intros x [].
    - destruct (IH (Z.min a b)) as (I1 & I2 & I3). split; [|split].
      + destruct I1 as [I1|I1]; [|right; right; auto]. rewrite I1. destruct (Z.min_spec a b) as [[_ ->]|[_ ->]]; auto. right; left; auto.
      + lia.
      + intros x [<-|Hx]; [lia|auto]. }
  destruct (G t a) as (G1 & G2 & G3). split; [destruct G1 as [->|]; [left|right]; auto|]. intros x [<-|Hx]; auto.
Qed.
Lemma list_max_spec l v : list_max l = Some v -> In v l /\ forall x, In x l -> x <= v.
Proof.
  destruct l as [|a t]; [discriminate|]. cbn [list_max]. intros H. injection H as <-.
  assert (G : forall t a, (fold_left Z.max t a = a \/ In (fold_left Z.max t a) t) /\ a <= fold_left Z.max t a /\ forall x, In x t -> x <= fold_left Z.max t a).
  { clear. induction t as [|b t IH]; intros a; cbn [fold_left].
    - split; [auto|]. split; [lia|]. intros x [].
    - destruct (IH (Z.max a b)) as (I1 & I2 & I3). split; [|split].
      + destruct I1 as [I1|I1]; [|right; right; auto]. rewrite I1. destruct (Z.max_spec a b) as [[_ ->]|[_ ->]]; auto. right; left; auto.
      + lia.
      + intros x [<-|Hx]; [lia|auto]. }
  destruct (G t a) as (G1 & G2 & G3). split; [destruct G1 as [->|]; [left|right]; auto|]. intros x [<-|Hx]; auto.
Qed.

(** ** dwtn_max_level. [L] lists the axes with the filter lengths. *)
Lemma py_sizes sh axes (L : list (nat * Z)) : norm_axes (zlen sh) axes = map (fun p => Z.of_nat (fst p)) L ->
  (forall p, In p L -> (fst p < List.length sh)%nat) -> axes_sizes sh axes = Ok (map (fun p => nthz (fst p) sh) L).
Proof.
  intros E H. pose (f := fun p : nat * Z => (fst p, (mkWavelet (C := Zring) [] [] [] [], ZEROPAD)) : MultidimProofs.step Zring).
  rewrite (axes_sizes_ok Zring sh axes (map f L)).
  - rewrite map_map. reflexivity.
  - rewrite map_map. exact E.
  - intros s Hs. apply in_map_iff in Hs. destruct Hs as (p & <- & Hp). apply (H p Hp).
Qed.

Theorem dwtn_max_level_spec sh lens axes (L : list (nat * Z)) : 1 <= zlen sh -> L <> [] ->
  norm_axes (zlen sh) (default_axes (zlen sh) axes) = map (fun p => Z.of_nat (fst p)) L ->
  objs_per_axis lens (List.length L) = Ok (map snd L) -> NoDup (map fst L) ->
  (forall p, In p L -> (fst p < List.length sh)%nat) ->
  exists l, dwtn_max_level sh lens axes = Ok l /\
    (exists ax F, In (ax, F) L /\ l = dwt_max_level_c (nthz ax sh) F) /\
    (forall ax F, In (ax, F) L -> l <= dwt_max_level_c (nthz ax sh) F).
Proof.
  intros Hn Hne E Ho Hd Ha. unfold dwtn_max_level, prep_axes. replace (zlen sh <? 1) with false by lia.
  fold (default_axes (zlen sh) axes).
  assert (Nd : NoDup (default_axes (zlen sh) axes)).
  { apply (NoDup_map_inv (fun a => if a <? 0 then a + zlen sh else a)). unfold norm_axes in E. rewrite E.
    rewrite <- (map_map fst Z.of_nat). apply FinFun.Injective_map_NoDup; auto. intros x y; lia. }
  rewrite (distinct_NoDup _ Nd), Nat.eqb_refl. cbn [negb]. rewrite (py_sizes sh _ L) by auto. cbn [bind].
  assert (El : List.length (default_axes (zlen sh) axes) = List.length L).
  { apply (f_equal (@List.length Z)) in E. unfold norm_axes in E. rewrite !map_length in E. auto. }
  rewrite El, Ho. cbn [bind].
  assert (Ec : map (fun '(n, f) => dwt_max_level_c n f) (combine (map (fun p => nthz (fst p) sh) L) (map snd L))
    = map (fun p => dwt_max_level_c (nthz (fst p) sh) (snd p)) L).
  { clear. induction L as [|p L IH]; cbn [map combine]; auto. f_equal. exact IH. }
  rewrite Ec. destruct (list_min _) as [l|] eqn:El'.
  - apply list_min_spec in El'. destruct El' as (I1 & I2). exists l. split; auto. split.
    + apply in_map_iff in I1. destruct I1 as ([ax F] & <- & Hi). exists ax, F. auto.
    + intros ax F Hi. apply I2. apply in_map_iff. exists (ax, F). auto.
  - destruct L; [congruence|discriminate].
Qed.

(** ** Default level of wavedecn *)
Definition lens_of {C : CRing} (w : per_axis (wavelet C)) : per_axis Z :=
  match w with One a => One (dec_len a) | Seq l => Seq (map dec_len l) end.
Lemma map_rep {A B} (f : A -> B) a n : map f (repeat a n) = repeat (f a) n.
Proof. induction n; cbn; congruence. Qed.
Lemma objs_lens {C : CRing} (w : per_axis (wavelet C)) n :
  objs_per_axis (lens_of w) n = (l <- objs_per_axis w n ;; Ok (map dec_len l)).
Proof.
  destruct w as [a|[|a [|b t]]]; cbn [lens_of objs_per_axis map].
  - cbn [bind]. rewrite map_rep. reflexivity.
  - cbn [List.length]. destruct (Nat.eqb 0 n); reflexivity.
  - cbn [bind]. rewrite map_rep. reflexivity.
  - cbn [List.length]. rewrite map_length. destruct (negb _); reflexivity.
Qed.

Section MNF.
Variable C : CRing.
Variable fuel : nat.
Variable junk : Z -> C.

Theorem wavedecn_default_level (data : sarr C) w m axes l :
  dwtn_max_level (sshape data) (lens_of w) axes = Ok l -> 0 <= l ->
  wavedecn fuel junk data w m None axes = wavedecn fuel junk data w m (Some l) axes.
Proof.
  unfold dwtn_max_level, wavedecn. intros H Hl. destruct (prep_axes _ _) as [[ax sizes]| | |]; auto. cbn [bind] in *.
  rewrite objs_lens in H. destruct (objs_per_axis w _) as [ws| | |]; auto. cbn [bind] in *.
  unfold check_level. destruct (list_min _) as [v|]; [|discriminate]. injection H as ->. replace (l <? 0) with false by lia. reflexivity.
Qed.

(** ** wavedec2 is wavedecn *)
Lemma dwt_axis_ndim (data : sarr C) w m ax cA cD : dwt_axis fuel junk data w m ax = Ok (cA, cD) ->
  ndim cA = ndim data /\ ndim cD = ndim data /\ sshape cA = sshape cD.
Proof.
  unfold dwt_axis. destruct (_ <=? _)%nat; [discriminate|]. destruct (_ && _); [discriminate|].
  destruct (dwt_coeff_len _ _ _) as [len| | |]; try discriminate. cbn [bind]. unfold np_empty. destruct (_ <? _); [|discriminate]. cbn [bind].
  destruct (as_runtime _) as [ma| | |]; try discriminate. cbn [bind]. destruct (as_runtime _) as [md| | |]; try discriminate. cbn [bind].
  intros E. injection E as <- <-. unfold ndim, zlen. cbn [with_mem sshape]. rewrite setn_length. auto.
Qed.

Definition ren (d : dict (sarr C)) : res (triple (C := C)) :=
  da <- dgetE d "da"%string ;; ad <- dgetE d "ad"%string ;; dd <- dgetE d "dd"%string ;; Ok (da, ad, dd).

Lemma dwtn_two (data : sarr C) w m ax1 ax2 D : dwtn fuel junk data w m (Some [ax1; ax2]) = Ok D ->
  exists aa ad da dd, D = [("aa", aa); ("ad", ad); ("da", da); ("dd", dd)]%string /\ ndim aa = ndim data.
Proof.
  unfold dwtn. destruct (ndim data <? 1); [discriminate|]. cbn [norm_axes map List.length].
  destruct (objs_per_axis m 2) as [ms| | |] eqn:Em; try discriminate. cbn [bind].
  destruct (objs_per_axis w 2) as [ws| | |] eqn:Ew; try discriminate. cbn [bind].
  apply objs_length in Em, Ew. destruct ms as [|m1 [|m2 [|]]]; try discriminate. destruct ws as [|w1 [|w2 [|]]]; try discriminate.
  cbn [combine foldM dwtn_step mapM]. destruct (to_axis _) as [a1| | |]; try discriminate. cbn [bind].
  destruct (dwt_axis fuel junk data w1 m1 a1) as [[cA cD]| | |] eqn:E1; try discriminate. cbn [bind concat app mapM foldM dwtn_step].
  destruct (to_axis _) as [a2| | |]; try discriminate. cbn [bind].
  destruct (dwt_axis fuel junk cA w2 m2 a2) as [[aa ad]| | |] eqn:E2; try discriminate. cbn [bind].
  destruct (dwt_axis fuel junk cD w2 m2 a2) as [[da dd]| | |] eqn:E3; try discriminate. cbn [bind concat app append].
  intros E. injection E as <-. exists aa, ad, da, dd. split; auto.
  apply dwt_axis_ndim in E1, E2. lia.
Qed.

Lemma mapM_app {A B} (f : A -> res B) l1 l2 : mapM f (l1 ++ l2) = (r1 <- mapM f l1 ;; r2 <- mapM f l2 ;; Ok (r1 ++ r2)).
Proof.
  induction l1 as [|a l1 IH]; cbn [app mapM bind].
  - destruct (mapM f l2); reflexivity.
  - destruct (f a); cbn [bind]; auto. rewrite IH. destruct (mapM f l1); cbn [bind]; auto. destruct (mapM f l2); reflexivity.
Qed.
Lemma mapM_rev {A B} (f : A -> res B) l r : mapM f l = Ok r -> mapM f (rev l) = Ok (rev r).
Proof.
  revert r. induction l as [|a l IH]; cbn [mapM rev]; intros r H; [injection H as <-; auto|].
  destruct (f a) as [b| | |] eqn:Ef; try discriminate. cbn [bind] in H. destruct (mapM f l) as [t| | |] eqn:El; try discriminate. injection H as <-.
  rewrite mapM_app, (IH t) by auto. cbn [mapM bind rev]. rewrite Ef. reflexivity.
Qed.

Lemma wavedec2_loop_n w m ax1 ax2 : ax1 <> ax2 -> forall n (a : sarr C) acc acc2, 2 <= ndim a -> mapM ren acc = Ok acc2 ->
  wavedec2_loop fuel junk a w m [ax1; ax2] n acc2
  = ('(r, ds) <- wavedecn_loop fuel junk a w m [ax1; ax2] n acc ;; ts <- mapM ren ds ;; Ok (r, ts)).
Proof.
  intros Hne. induction n as [|n IH]; intros a acc acc2 Hn Ha; cbn [wavedec2_loop wavedecn_loop].
  - cbn [bind]. rewrite (mapM_rev _ _ _ Ha). reflexivity.
  - unfold dwt2. cbn [List.length Nat.eqb negb].
    assert (D2 : distinct [ax1; ax2] = 2%nat) by (cbn; destruct (Z.eq_dec ax2 ax1); [congruence|reflexivity]).
    rewrite D2. replace (ndim a <? Z.of_nat 2) with false by lia.
    destruct (dwtn fuel junk a w m (Some [ax1; ax2])) as [D| | |] eqn:E; auto.
    destruct (dwtn_two _ _ _ _ _ _ E) as (aa & ad & da & dd & -> & Hd). cbn [bind]. unfold dgetE.
    cbn [dget all_a dremove String.eqb Ascii.eqb Bool.eqb bind]. apply IH; [lia|].
    rewrite mapM_app, Ha. reflexivity.
Qed.

Theorem wavedec2_wavedecn (data : sarr C) w m level ax1 ax2 : 2 <= ndim data ->
  wavedec2 fuel junk data w m level [ax1; ax2]
  = ('(a, ds) <- wavedecn fuel junk data w m level (Some [ax1; ax2]) ;;
     ts <- mapM ren ds ;; Ok (a, ts)).
Proof.
  intros Hn. unfold wavedec2, wavedecn, prep_axes. unfold ndim in Hn. replace (zlen (sshape data) <? 1) with false by lia.
  unfold ndim. replace (zlen (sshape data) <? 2) with false by lia. cbn [List.length Nat.eqb negb].
  destruct (Z.eq_dec ax1 ax2) as [->|Hne].
  { assert (D2 : distinct [ax2; ax2] = 1%nat) by (cbn; destruct (Z.eq_dec ax2 ax2); [reflexivity|congruence]).
    rewrite D2. reflexivity. }
  assert (D2 : distinct [ax1; ax2] = 2%nat) by (cbn; destruct (Z.eq_dec ax2 ax1); [congruence|reflexivity]).
  rewrite D2. cbn [Nat.eqb negb]. destruct (axes_sizes _ _) as [sz| | |]; auto. cbn [bind List.length].
  destruct (objs_per_axis w 2) as [ws| | |]; auto. cbn [bind]. destruct (check_level _ _) as [l| | |]; auto. cbn [bind].
  apply wavedec2_loop_n; auto.
Qed.

(** ** waverec2 is waverecn *)
Lemma idwt_axis_ndim (a d : option (sarr C)) x w m ax : match a with Some y => Some y | None => d end = Some x ->
  (exists r, idwt_axis fuel junk a d w m ax = Ok (Some r) /\ ndim r = ndim x) \/
  (forall v, idwt_axis fuel junk a d w m ax <> Ok v).
Proof.
  intros H. unfold idwt_axis. rewrite H. destruct (_ <=? _)%nat; [right; discriminate|].
  unfold np_empty. destruct (_ <? _); [|right; discriminate]. cbn [bind].
  destruct (as_runtime _) as [mo| | |]; [|right; discriminate..]. cbn [bind]. left. eexists. split; [reflexivity|].
  unfold ndim, zlen. cbn [with_mem sshape]. rewrite setn_length. auto.
Qed.

Lemma idwtn_two (aa ad da dd : sarr C) w m ax1 ax2 :
  sshape ad = sshape aa -> sshape da = sshape aa -> sshape dd = sshape aa ->
  idwtn fuel junk [("aa", Some aa); ("da", Some da); ("ad", Some ad); ("dd", Some dd)]%string w m (Some [ax1; ax2])
  = idwtn fuel junk [("ad", Some ad); ("da", Some da); ("dd", Some dd); ("aa", Some aa)]%string w m (Some [ax1; ax2]) /\
  forall v, idwtn fuel junk [("ad", Some ad); ("da", Some da); ("dd", Some dd); ("aa", Some aa)]%string w m (Some [ax1; ax2]) = Ok v ->
   exists r, v = Some r /\ ndim r = ndim aa.
Proof.
  intros E1 E2 E3. unfold idwtn. cbn [filter]. unfold fix_coeffs.
  cbn [existsb all_ad Ascii.eqb Bool.eqb andb orb negb map String.length hd forallb Nat.eqb flat_map app bind].
  rewrite E1, E2, E3. unfold shape_eqb. destruct (list_eq_dec _ _ _) as [_|Hc]; [|congruence]. cbn [negb orb].
  cbn [norm_axes map List.length].
  destruct (objs_per_axis m 2) as [ms| | |] eqn:Em; try (split; [auto|discriminate]). cbn [bind].
  destruct (objs_per_axis w 2) as [ws| | |] eqn:Ew; try (split; [auto|discriminate]). cbn [bind].
  apply objs_length in Em, Ew. destruct ms as [|m1 [|m2 [|]]]; try discriminate. destruct ws as [|w1 [|w2 [|]]]; try discriminate.
  cbn [combine List.length seq rev app foldM].
  split.
  - rewrite (idwtn_step_ext C fuel junk _ [("aa", Some aa); ("da", Some da); ("ad", Some ad); ("dd", Some dd)]%string
     [("ad", Some ad); ("da", Some da); ("dd", Some dd); ("aa", Some aa)]%string); [reflexivity|].
    intros k. cbn [dget].
    destruct (String.eqb_spec "aa" k) as [<-|]; auto. destruct (String.eqb_spec "ad" k) as [<-|]; auto.
  - intros v. unfold idwtn_step. destruct (_ || _); [discriminate|]. cbn [ad_keys map app mapM]. 
    cbn [dget String.eqb Ascii.eqb Bool.eqb append].
    destruct (idwt_axis_ndim (Some aa) (Some ad) aa w2 m2 (Z.to_nat (if ax2 <? 0 then ax2 + zlen (sshape aa) else ax2)) eq_refl) as [(r1 & -> & N1)|Hb].
    2: { destruct (idwt_axis _ _ _ _ _ _) as [v1| | |]; try discriminate. exfalso. apply (Hb v1). auto. }
    cbn [bind].
    destruct (idwt_axis_ndim (Some da) (Some dd) da w2 m2 (Z.to_nat (if ax2 <? 0 then ax2 + zlen (sshape aa) else ax2)) eq_refl) as [(r2 & -> & N2)|Hb].
    2: { destruct (idwt_axis _ _ _ _ _ _) as [v1| | |]; try discriminate. exfalso. apply (Hb v1). auto. }
    cbn [bind foldM]. destruct (_ || _); [discriminate|]. cbn [ad_keys mapM dget String.eqb Ascii.eqb Bool.eqb append].
    destruct (idwt_axis_ndim (Some r1) (Some r2) r1 w1 m1 (Z.to_nat (if ax1 <? 0 then ax1 + zlen (sshape aa) else ax1)) eq_refl) as [(r & -> & N)|Hb].
    2: { destruct (idwt_axis _ _ _ _ _ _) as [v1| | |]; try discriminate. exfalso. apply (Hb v1). auto. }
    cbn [bind dget String.eqb foldM]. intros E. injection E as <-. exists r. split; auto. lia.
Qed.

Definition some3 (t : triple (C := C)) : otriple (C := C) := let '(h, v, d) := t in (Some h, Some v, Some d).
Definition dict3 (t : triple (C := C)) : dict (sarr C) := let '(h, v, d) := t in [("ad", v); ("da", h); ("dd", d)]%string.
Definition same3 (n : Z) (t : triple (C := C)) : Prop :=
  let '(h, v, d) := t in sshape v = sshape h /\ sshape d = sshape h /\ ndim h = n.

Lemma crop_ok s t : List.length s = List.length t ->
  existsb (fun '(s, t) => (s - t <? 0) || (1 <? s - t)) (combine s t) = false ->
  map (fun '(x, y) => if x =? y + 1 then x - 1 else x) (combine s t) = t.
Proof.
  revert t. induction s as [|a s IH]; intros [|b t] Hl H; cbn [combine map existsb List.length] in *; try lia; auto.
  apply Bool.orb_false_iff in H. destruct H as (H1 & H2). rewrite IH by (auto; lia). f_equal.
  destruct (a =? b + 1) eqn:E; lia.
Qed.
Lemma crop_bad s t : List.length s = List.length t ->
  existsb (fun '(s, t) => (s - t <? 0) || (1 <? s - t)) (combine s t) = true ->
  map (fun '(x, y) => if x =? y + 1 then x - 1 else x) (combine s t) <> t.
Proof.
  revert t. induction s as [|a s IH]; intros [|b t] Hl H; cbn [combine map existsb List.length] in *; try lia; try discriminate.
  apply Bool.orb_true_iff in H. intros E. injection E as E1 E2. destruct H as [H|H].
  - destruct (a =? b + 1) eqn:E; lia.
  - apply (IH t); auto.
Qed.

Lemma shape_eqb_refl s : shape_eqb s s = true.
Proof. unfold shape_eqb. destruct (list_eq_dec _ _ _); congruence. Qed.

Lemma waverec2_loop_n w m ax1 ax2 : forall ts (a : sarr C) (first : bool), Forall (same3 (ndim a)) ts ->
  (first = true -> match ts with [] => True | (h, _, _) :: _ => sshape a = sshape h end) ->
  waverec2_loop fuel junk (Some a) (map some3 ts) w m [ax1; ax2]
  = waverecn_loop fuel junk (Some a) (map dict3 ts) first w m [ax1; ax2].
Proof.
  induction ts as [|[[h v] d] ts IH]; intros a first Hs Hf; cbn [map waverec2_loop waverecn_loop some3]; auto.
  inversion Hs as [|? ? Hq Hs']; subst. destruct Hq as (S1 & S2 & S3).
  cbn [flat_map app]. cbn [existsb]. rewrite S1, S2, shape_eqb_refl. cbn [negb orb bind].
  assert (Ll : List.length (sshape a) = List.length (sshape h)) by (unfold ndim, zlen in S3; lia).
  assert (Lc : forall f : Z * Z -> Z, List.length (map f (combine (sshape a) (sshape h))) = List.length (sshape a)).
  { intros f. rewrite map_length, combine_length. rewrite Ll. apply Nat.min_id. }
  set (crop := map _ (combine (sshape a) (sshape h))).
  assert (Hsk : crop ++ skipn (List.length crop) (sshape a) = crop).
  { unfold crop. rewrite Lc. rewrite skipn_all, app_nil_r. reflexivity. }
  rewrite Hsk.
  assert (Ea : (if first then Ok (Some a) else match_coeff_dims (Some a) (dict3 (h, v, d)))
     = if existsb (fun '(s, t) => (s - t <? 0) || (1 <? s - t)) (combine (sshape a) (sshape h)) then Err ValueError
       else Ok (Some (view a (sshape h)))).
  { destruct first; [|cbn [dict3 match_coeff_dims]; rewrite S1; reflexivity]. rewrite <- (Hf eq_refl).
    assert (Hx : existsb (fun '(s, t) => (s - t <? 0) || (1 <? s - t)) (combine (sshape a) (sshape a)) = false).
    { clear. generalize (sshape a). intros q. induction q as [|x t IHt]; cbn [combine existsb]; auto. rewrite IHt. replace ((x - x <? 0) || (1 <? x - x)) with false by lia. auto. }
    rewrite Hx. unfold view. destruct a; reflexivity. }
  cbn [dict3]. cbn [dict3] in Ea. rewrite Ea. clear Ea.
  destruct (existsb _ _) eqn:Ex.
  - (* different shapes: both report an error *)
    cbn [bind]. pose proof (crop_bad _ _ Ll Ex) as Hb. fold crop in Hb. unfold idwt2. cbn [List.length Nat.eqb negb].
    unfold idwtn. cbn [filter]. unfold fix_coeffs.
    cbn [existsb all_ad Ascii.eqb Bool.eqb andb orb negb map String.length hd forallb Nat.eqb flat_map app bind view sshape].
    unfold shape_eqb. destruct (list_eq_dec Z.eq_dec (sshape h) crop) as [E|_]; [congruence|]. reflexivity.
  - cbn [bind]. pose proof (crop_ok _ _ Ll Ex) as Hc. fold crop in Hc. rewrite Hc.
    unfold idwt2. cbn [List.length Nat.eqb negb all_a dset map String.eqb Ascii.eqb Bool.eqb].
    destruct (idwtn_two (view a (sshape h)) v h d w m ax1 ax2) as (E1 & E2); auto.
    rewrite E1. destruct (idwtn fuel junk [("ad", Some v); ("da", Some h); ("dd", Some d); ("aa", Some (view a (sshape h)))]%string w m (Some [ax1; ax2])) as [r| | |]; auto.
    destruct (E2 r eq_refl) as (r' & -> & Hr). cbn [bind]. apply IH; [|discriminate].
    assert (Hr' : ndim r' = ndim a) by (rewrite Hr, <- S3; reflexivity). rewrite Hr'. auto.
Qed.

Theorem waverec2_waverecn (a : sarr C) (ts : list (triple (C := C))) w m ax1 ax2 :
  Forall (same3 (ndim a)) ts -> match ts with [] => True | (h, _, _) :: _ => sshape a = sshape h end ->
  (ts = [] -> ax1 <> ax2) ->
  waverec2 fuel junk (Some a) (map some3 ts) w m [ax1; ax2]
  = waverecn fuel junk (Some a) (map (fun t => map (fun '(k, v) => (k, Some v)) (dict3 t)) ts) w m (Some [ax1; ax2]).
Proof.
  intros Hs Hf He. unfold waverec2, waverecn.
  assert (Hfix : mapM fix_coeffs (map (fun t => map (fun '(k, v) => (k, Some v)) (dict3 t)) ts) = Ok (map dict3 ts)).
  { clear. induction ts as [|[[h v] d] ts IH]; cbn [map mapM dict3]; auto.
    unfold fix_coeffs at 1. cbn [existsb all_ad Ascii.eqb Bool.eqb andb orb negb map String.length hd forallb Nat.eqb flat_map app bind].
    rewrite IH. reflexivity. }
  rewrite Hfix. cbn [bind]. destruct ts as [|t0 ts].
  { cbn [map]. replace (distinct [ax1; ax2]) with 2%nat; [reflexivity|]. cbn. destruct (Z.eq_dec ax2 ax1); [exfalso; apply He; auto|reflexivity]. }
  cbn [app]. set (T := t0 :: ts) in *. 
  assert (Hx : existsb (fun x => negb (ndim x =? ndim a)) (flat_map (map snd) (map dict3 T)) = false).
  { assert (Hall : forall x, In x (flat_map (map snd) (map dict3 T)) -> ndim x = ndim a).
    { clear -Hs. induction T as [|[[h v] d] T IH]; intros x Hx; [destruct Hx|]. inversion Hs as [|? ? Hq Hs']; subst. destruct Hq as (S1 & S2 & S3).
      cbn [map dict3 flat_map app snd] in Hx. destruct Hx as [<-|[<-|[<-|Hx]]]; auto; unfold ndim in *; rewrite ?S1, ?S2; auto. }
    induction (flat_map (map snd) (map dict3 T)) as [|x l IH]; cbn [existsb]; auto. rewrite (Hall x) by (left; auto).
    rewrite Z.eqb_refl. cbn. apply IH. intros; apply Hall; right; auto. }
  change (map dict3 T) with (dict3 t0 :: map dict3 ts) at 1. cbn iota.
  rewrite Hx. destruct (negb _); auto.
  change (map some3 T) with (some3 t0 :: map some3 ts) at 1. cbn iota.
  apply waverec2_loop_n; auto.
Qed.

(** ** wavedecn_shapes *)
Lemma lev_step_shapes (plan : list (MultidimProofs.step C)) axes sh :
  norm_axes (zlen sh) axes = map (fun s => Z.of_nat (st_ax C s)) plan -> NoDup (map (st_ax C) plan) ->
  (forall s, In s plan -> (st_ax C s < List.length sh)%nat /\ 1 <= nthz (st_ax C s) sh /\ 1 <= dec_len (st_w C s)) ->
  shapes_step axes (map (st_m C) plan) (map dec_len (map (st_w C) plan)) sh = Ok (lev_step C plan sh).
Proof.
  intros E Hd Hp. unfold shapes_step, lev_step.
  assert (G : forall new, List.length new = List.length sh -> (forall s, In s plan -> nthz (st_ax C s) new = nthz (st_ax C s) sh) ->
    foldM (fun new '(axis, (len, m)) => n <- py_index sh axis ;; s <- dwt_coeff_len n len m ;;
       Ok (setn (Z.to_nat (if axis <? 0 then axis + zlen sh else axis)) s new)) new
      (combine axes (combine (map dec_len (map (st_w C) plan)) (map (st_m C) plan)))
    = Ok (fold_left (fun sh s => step_shape C s sh) plan new)); [|apply G; auto].
  revert axes E Hd Hp. induction plan as [|s p IH]; intros [|a axes] E Hd Hp new Hl Hn; cbn [norm_axes map] in E; try discriminate; auto.
  injection E as E1 E2. inversion Hd as [|? ? Hni Hd']; subst. destruct (Hp s (or_introl eq_refl)) as (P1 & P2 & P3).
  cbn [map combine foldM]. rewrite (py_index_ok sh a (st_ax C s)) by auto. cbn [bind].
  unfold dwt_coeff_len. replace (nthz (st_ax C s) sh <? 1) with false by lia. replace (dec_len (st_w C s) <? 1) with false by lia. cbn [bind].
  rewrite coeff_len_buffer by lia. rewrite E1, Nat2Z.id. cbn [fold_left].
  assert (Es : setn (st_ax C s) (coeff_len (st_m C s) (nthz (st_ax C s) sh) (dec_len (st_w C s))) new = step_shape C s new).
  { unfold step_shape. rewrite (Hn s) by (left; auto). reflexivity. }
  rewrite Es. apply IH; auto.
  - intros; apply Hp; right; auto.
  - unfold step_shape. rewrite setn_length. auto.
  - intros t Ht. unfold step_shape. rewrite nthz_setn_ne; [apply Hn; right; auto|]. intros Eq. apply Hni. rewrite <- Eq. apply in_map; auto.
Qed.

Definition shape_dict (d : dict (sarr C)) : dict (list Z) := map (fun '(k, v) => (k, sshape v)) d.

Lemma det_shapes (plan : list (MultidimProofs.step C)) (y : nd C) : plan_ok C fuel plan (nshape y) ->
  shape_dict (det C plan y) = map (fun k => (k, lev_step C plan (nshape y))) (tl (ad_keys (List.length plan))).
Proof.
  intros Hp. unfold shape_dict, det. rewrite map_map. apply map_ext_in. intros k Hk. cbn [of_nd sshape].
  rewrite (band_shape C fuel); auto. apply ad_keys_length. rewrite ad_keys_head. right; auto.
Qed.

Lemma shapes_loop_spec (plan : list (MultidimProofs.step C)) axes B : forall n sh acc, 
  norm_axes (zlen sh) axes = map (fun s => Z.of_nat (st_ax C s)) plan -> levels_good C fuel B sh plan n ->
  shapes_loop axes (map (st_m C) plan) (map dec_len (map (st_w C) plan)) sh n acc
  = Ok (lev_shape C plan n sh, rev (acc ++ map (fun j => map (fun k => (k, lev_step C plan (lev_shape C plan j sh))) (tl (ad_keys (List.length plan)))) (seq 0 n))).
Proof.
  induction n as [|n IH]; intros sh acc E Hg; cbn [shapes_loop].
  - cbn [seq map lev_shape]. rewrite app_nil_r. reflexivity.
  - pose proof (Hg O ltac:(lia)) as G. cbn [lev_shape] in G. pose proof G as (_ & _ & _ & _ & Hd & H6).
    rewrite lev_step_shapes; auto.
    2: { intros s Hs. destruct (H6 s Hs) as (Hok & _). destruct (step_len _ _ _ _ Hok) as (N1 & _).
         destruct Hok as (Ha & (_ & _ & _ & _ & HF) & _). auto with zarith. }
    cbn [bind]. 
    assert (El : List.length axes = List.length plan).
    { apply (f_equal (@List.length Z)) in E. unfold norm_axes in E. rewrite !map_length in E. auto. }
    rewrite El, ad_keys_head. cbn [map dremove]. rewrite String.eqb_refl.
    rewrite IH.
    + rewrite <- lev_shape_S. do 3 f_equal. rewrite <- app_assoc. f_equal. cbn [seq map app lev_shape]. f_equal.
      rewrite <- seq_shift, map_map. apply map_ext. intros j. rewrite <- lev_shape_S. reflexivity.
    + unfold zlen in *. rewrite lev_step_length. auto.
    + intros j Hj. rewrite <- lev_shape_S. apply Hg. lia.
Qed.

Theorem wavedecn_shapes_spec (data : sarr C) w m level axes plan B :
  sarr_ok C data -> 1 <= ndim data <= 64 -> plan <> [] ->
  resolves C (ndim data) w m (default_axes (ndim data) axes) plan ->
  plan_good C fuel B (sshape data) plan -> 0 <= level ->
  (forall s, In s plan -> levels_ok (st_m C s) (dec_len (st_w C s)) (Z.to_nat level) (nthz (st_ax C s) (sshape data))) ->
  exists a ds, wavedecn fuel junk data w m (Some level) axes = Ok (a, ds) /\
    wavedecn_shapes (sshape data) (lens_of w) m (Some level) axes = Ok (sshape a, map shape_dict ds).
Proof.
  intros Hok Hn Hne HR Hg Hl Hlev.
  assert (Hc : forall sh, check_level (level_pairs C sh plan) (Some level) = Ok level).
  { intros sh. unfold check_level, level_pairs. destruct plan as [|s p]; [congruence|]. cbn [map list_min].
    replace (level <? 0) with false by lia. reflexivity. }
  destruct (wavedecn_spec C fuel junk data w m (Some level) axes plan B level Hok Hn Hne HR Hg (Hc _) Hlev) as (a & Ea & Oa & Va).
  eexists _, _. split; [exact Ea|]. pose proof HR as (R1 & R2 & R3). pose proof Hg as (_ & _ & _ & _ & Hd & H6).
  assert (HG : levels_good C fuel B (sshape data) plan (Z.to_nat level)) by (apply levels_good_intro; auto).
  assert (W : nd_wf (val C data)) by (apply val_wf; auto).
  unfold wavedecn_shapes. rewrite (prep_axes_ok C (sshape data) axes plan); auto; [|unfold ndim in Hn; lia|intros s Hs; apply (H6 s Hs)].
  cbn [bind]. change (zlen (sshape data)) with (ndim data). rewrite (resolves_len _ _ _ _ _ _ HR), objs_lens, R2. cbn [bind]. rewrite R3. cbn [bind].
  assert (Em : exists x y, list_min (map (fun s => nthz (st_ax C s) (sshape data)) plan) = Some x /\ list_max (map dec_len (map (st_w C) plan)) = Some y).
  { destruct plan; [congruence|]. cbn. eauto. }
  destruct Em as (x & y & -> & ->). unfold check_level. cbn [map list_min fold_left]. replace (level <? 0) with false by lia. cbn [bind].
  rewrite (shapes_loop_spec plan _ B); auto. rewrite app_nil_l, <- map_rev.
  destruct (appr_wf C fuel plan B (Z.to_nat level) (val C data) W) as (_ & Sz); [rewrite nshape_val; auto|].
  rewrite nshape_val in Sz. rewrite <- Sz, <- Va, nshape_val. do 2 f_equal. rewrite map_map. apply map_ext_in. intros j Hj.
  apply in_rev in Hj. apply in_seq in Hj.
  destruct (appr_wf C fuel plan B j (val C data) W) as (_ & Sj); [rewrite nshape_val; intros i Hi; apply HG; lia|]. rewrite nshape_val in Sj.
  rewrite det_shapes; rewrite Sj; auto. apply (plan_good_ok _ _ _ _ _ (HG j ltac:(lia))).
Qed.

End MNF.

Fixpoint sum_list (l : list Z) : Z := match l with [] => 0 | x :: t => x + sum_list t end.
Lemma wavedecn_size_spec a ds : wavedecn_size a ds = prodZ a + sum_list (map (fun kv => prodZ (snd kv)) (concat ds)).
Proof.
  unfold wavedecn_size. generalize (prodZ a). induction ds as [|d ds IH]; intros n; cbn [fold_left concat map sum_list]; [lia|].
  rewrite IH. rewrite map_app.
  assert (G : forall d n, fold_left (fun n '(_, s) => n + prodZ s) d n = n + sum_list (map (fun kv : string * list Z => prodZ (snd kv)) d)).
  { clear. induction d as [|[k s] d IH]; intros n; cbn [fold_left map sum_list snd]; [lia|]. rewrite IH. lia. }
  rewrite G. assert (Ha : forall l l', sum_list (l ++ l') = sum_list l + sum_list l') by (clear; induction l; intros; cbn [app sum_list]; [lia|rewrite IHl; lia]).
  rewrite Ha. lia.
Qed.


(** With one filter length for all axes the default levels agree. *)
Lemma default_level_same sizes lens F : sizes <> [] -> 2 <= F -> lens = repeat F (List.length sizes) ->
  exists s, list_min sizes = Some s /\ list_max lens = Some F /\
   check_level [(s, F)] None = check_level (combine sizes lens) None.
Proof.
  intros Hne HF ->. destruct (list_min sizes) as [s|] eqn:Es; [|destruct sizes; [congruence|discriminate]].
  destruct (list_min_spec _ _ Es) as (I1 & I2). exists s. split; auto. split.
  - destruct (list_max (repeat F (List.length sizes))) as [v|] eqn:Ev; [|destruct sizes; [congruence|discriminate]].
    apply list_max_spec in Ev. destruct Ev as (Ev & _). apply repeat_spec in Ev. congruence.
  - unfold check_level. cbn [map list_min fold_left].
    assert (Em : map (fun '(s0, d) => dwt_max_level_c s0 d) (combine sizes (repeat F (List.length sizes))) = map (fun s0 => dwt_max_level_c s0 F) sizes).
    { clear. induction sizes as [|x t IH]; cbn [List.length repeat combine map]; auto. f_equal. exact IH. }
    rewrite Em. destruct (list_min (map _ sizes)) as [v|] eqn:Ev; [|destruct sizes; [congruence|discriminate]].
    apply list_min_spec in Ev. destruct Ev as (E1 & E2). f_equal.
    apply in_map_iff in E1. destruct E1 as (q & <- & Hq).
    assert (dwt_max_level_c s F <= dwt_max_level_c q F) by (apply dwt_max_level_mono; [lia|apply I2; auto]).
    assert (dwt_max_level_c q F <= dwt_max_level_c s F) by (apply E2; apply in_map_iff; eauto). lia.
Qed.

Theorem shapes_default_level sh F axes ax sizes m modes : 2 <= F -> prep_axes sh axes = Ok (ax, sizes) -> sizes <> [] ->
  objs_per_axis m (List.length ax) = Ok modes ->
  exists l, dwtn_max_level sh (One F) axes = Ok l /\ 0 <= l /\
  wavedecn_shapes sh (One F) m None axes = wavedecn_shapes sh (One F) m (Some l) axes.
Proof.
  intros HF Hp Hne Hm.
  assert (Hl : List.length ax = List.length sizes).
  { unfold prep_axes in Hp. destruct (zlen sh <? 1); [discriminate|]. destruct (negb _); [discriminate|]. unfold axes_sizes in Hp.
    destruct (mapM _ _) as [l| | |] eqn:E; try discriminate. cbn [bind] in Hp. injection Hp as <- <-. clear -E. revert l E.
    induction (match axes with Some l => l | None => tab (zlen sh) (fun i => i) end) as [|a t IH]; intros l E; cbn [mapM] in E; [injection E as <-; auto|].
    destruct (py_index sh a); try discriminate. cbn [bind] in E. destruct (mapM _ t) as [r| | |]; try discriminate. injection E as <-. cbn. f_equal. auto. }
  destruct (default_level_same sizes (repeat F (List.length ax)) F Hne HF) as (s & E1 & E2 & E3); [rewrite Hl; auto|].
  unfold dwtn_max_level, wavedecn_shapes. rewrite Hp. cbn [bind objs_per_axis]. rewrite Hm. cbn [bind]. rewrite E1, E2, E3.
  unfold check_level in E3 |- *. cbn [map list_min fold_left] in E3 |- *. destruct (list_min (map _ (combine sizes _))) as [l|] eqn:El; [|discriminate].
  exists l. split; auto. injection E3 as E3. assert (0 <= l) by (rewrite <- E3; apply dwt_max_level_nonneg).
  split; auto. replace (l <? 0) with false by lia. reflexivity.
Qed.

Theorem wavedecn_repeated (C : CRing) fuel junk (data : sarr C) w m level axes :
  1 <= ndim data -> ~ NoDup axes -> wavedecn fuel junk data w m level (Some axes) = Err ValueError.
Proof.
  intros Hn Hd. unfold wavedecn, prep_axes. unfold ndim in Hn. replace (zlen (sshape data) <? 1) with false by lia.
  destruct (Nat.eqb_spec (List.length axes) (distinct axes)) as [E|E]; [|reflexivity].
  exfalso. apply Hd. apply distinct_NoDup_inv. auto.
Qed.
