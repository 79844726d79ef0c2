(** coeffs_to_array / array_to_coeffs. *)
From Coq Require Import Ascii String Permutation.
From Verif Require Import Base BaseLemmas Dwt Nd Swt AxisProofs Multidim MultidimProofs MultidimFacts MultilevelNd MultilevelNdProofs SwtNd PackSpec Packing PackRavel PackRavelFacts PackBox PackArray.
Open Scope Z_scope.

(** ** The shape of the array *)
Lemma mapM_index dim (l : list Z) axes axs : List.length l = dim ->
  Forall2 (fun ax k => (k < dim)%nat /\ (ax = Z.of_nat k \/ ax = Z.of_nat k - Z.of_nat dim)) axes axs ->
  mapM (py_index l) axes = Ok (map (fun k => nthz k l) axs).
Proof.
  intros El H. induction H as [|ax k axes axs (Hk & Ha) _ IH]; [reflexivity|]. cbn [mapM map].
  destruct (ax_ok dim ax k l Hk Ha El) as (-> & _). cbn [bind]. rewrite IH. reflexivity.
Qed.

Lemma setn_axes dim n (v : nat -> Z) axes axs : n = Z.of_nat dim -> NoDup axs ->
  Forall2 (fun ax k => (k < dim)%nat /\ (ax = Z.of_nat k \/ ax = Z.of_nat k - Z.of_nat dim)) axes axs ->
  forall r, List.length r = dim ->
  let r' := fold_left (fun r '(ax, v) => setn (py_ax n ax) v r) (combine axes (map v axs)) r in
  List.length r' = dim /\ (forall k, In k axs -> nthz k r' = v k) /\ (forall k, ~ In k axs -> nthz k r' = nthz k r).
Proof.
  intros En Hn H. induction H as [|ax k axes axs (Hk & Ha) _ IH]; intros r Er; cbn [combine map fold_left].
  - cbn. split; auto. split; [tauto|auto].
  - apply NoDup_cons_iff in Hn. destruct Hn as (N1 & N2).
    assert (Ep : py_ax n ax = k) by (unfold py_ax; rewrite En; destruct (Z.ltb_spec ax 0); lia). rewrite Ep.
    destruct (IH N2 (setn k (v k) r) ltac:(rewrite setn_length; auto)) as (I1 & I2 & I3). split; [exact I1|]. split.
    + intros j [<-|Hj]; [|apply I2; auto]. rewrite I3 by auto. apply nthz_setn. lia.
    + intros j Hj. rewrite I3 by (intros X; apply Hj; right; auto). apply nthz_setn_ne. intros ->. apply Hj. left. auto.
Qed.

Lemma add_axes_spec dim axes axs arr s : axes_are dim axes axs -> List.length arr = dim -> List.length s = dim ->
  exists r, add_axes arr s axes = Ok r /\ List.length r = dim /\
    (forall k, In k axs -> nthz k r = nthz k arr + nthz k s) /\ (forall k, ~ In k axs -> nthz k r = nthz k arr).
Proof.
  intros (Hn & Hf) Ea Es. unfold add_axes. rewrite (mapM_index dim arr axes axs), (mapM_index dim s axes axs) by auto. cbn [bind].
  assert (E : map (fun '(x, y) => x + y) (combine (map (fun k => nthz k arr) axs) (map (fun k => nthz k s) axs)) = map (fun k => nthz k arr + nthz k s) axs).
  { clear. induction axs; cbn; congruence. }
  rewrite E. destruct (setn_axes dim (zlen arr) (fun k => nthz k arr + nthz k s) axes axs ltac:(unfold zlen; lia) Hn Hf arr Ea) as (R1 & R2 & R3).
  eexists. split; [reflexivity|]. auto.
Qed.

Lemma nonneg_shape (l : list Z) : (forall k, 0 <= nthz k l) -> shape_ok l.
Proof. unfold nthz. induction l as [|x l IH]; intros H; constructor; [apply (H O)|]. apply IH. intros k. apply (H (S k)). Qed.

Section F.
Variable C : CRing.
Local Notation nd := (nd C).

Lemma total_app ws vs : total C (ws ++ vs) = total C ws + total C vs.
Proof.
  induction ws as [|w ws IH]; [reflexivity|]. change (prodZ (nshape (snd w)) + total C (ws ++ vs) = prodZ (nshape (snd w)) + total C ws + total C vs).
  rewrite IH. apply Z.add_assoc.
Qed.

Lemma array_shape_spec dim axes axs A : axes_are dim axes axs -> forall ls P arr n,
  List.length P = dim -> List.length arr = dim -> levels_are C dim axs A P ls ->
  exists S, array_shape C arr n (dicts C (map snd ls)) axes = Ok (S, prodZ S =? n + total C (entries C axs P ls)) /\
    List.length S = dim /\ (forall k, In k axs -> nthz k S - nthz k arr = nthz k (final C P ls) - nthz k P) /\
    (forall k, ~ In k axs -> nthz k S = nthz k arr).
Proof.
  intros Hax. induction ls as [|(s, d) ls IH]; intros P arr n HP Harr H.
  - exists arr. split; [cbn; rewrite Z.add_0_r; reflexivity|]. split; auto. split; intros k _; [|reflexivity].
    change (final C P []) with P. rewrite !Z.sub_diag. reflexivity.
  - destruct H as ((E1 & E2 & E3 & E4 & E5 & E6 & E7) & H). cbn [fst] in H.
    cbn [map snd dicts array_shape as_dict bind].
    destruct (top_get C dim axs axes Hax d s E6 (fun k x H => proj2 (proj2 (proj2 (E7 k x H))))) as (top & Et & Es). rewrite Et. cbn [bind as_arr].
    destruct (add_axes_spec dim axes axs arr s Hax Harr E1) as (r & R0 & R1 & R2 & R3). rewrite Es, R0. cbn [bind].
    assert (Em : mapM (fun '(_, v) => a <- as_arr C v;; Ok (prodZ (nshape a))) (bands d) = Ok (map (fun kx => prodZ (nshape (snd kx))) d)).
    { clear. unfold bands. induction d as [|(k, x) d IH]; [reflexivity|]. cbn [map mapM as_arr bind]. rewrite IH. reflexivity. }
    rewrite Em. cbn [bind]. fold (dicts C (map snd ls)).
    destruct (IH (zadd P s) r (n + fold_right Z.add 0 (map (fun kx => prodZ (nshape (snd kx))) d))) as (S & S0 & S1 & S2 & S3); auto.
    { rewrite zadd_length by congruence. auto. }
    exists S. split; [|split; [auto|split]].
    + rewrite S0. do 3 f_equal. cbn [entries]. rewrite total_app, <- Z.add_assoc. do 2 f_equal. clear. induction d as [|(k, x) d IH]; cbn; [reflexivity|]. rewrite IH. reflexivity.
    + intros k Hk. specialize (S2 k Hk). specialize (R2 k Hk). change (final C P ((s, d) :: ls)) with (final C (zadd P s) ls).
      rewrite nth_zadd in S2 by congruence. lia.
    + intros k Hk. rewrite S3, R3; auto.
Qed.

(** The keys of a dictionary for [n] axes are words over "a" and "d" other than
    "aa...a"; the arrays of a level have one shape, equal to the approximation
    outside of the transformed axes and at most the size reached before. *)
Definition details_ok (axes : option (list Z)) (a : nd) (axs : list nat) (ls : list (list Z * dict nd)) : Prop :=
  axes_are (List.length (nshape a)) (the_axes C axes a) axs /\
  levels_are C (List.length (nshape a)) axs (nshape a) (nshape a) ls.

Definition all_slices (s : list sl * list (dict (list sl))) : list (list sl) := fst s :: flat_map (map snd) (snd s).

Lemma axes_len dim axes axs : axes_are dim axes axs -> List.length axes = List.length axs.
Proof. intros (_ & F). induction F; cbn; auto. Qed.

Lemma details_keys axes a axs ls : details_ok axes a axs ls -> keys_fit C axes a (map snd ls).
Proof.
  intros (Hax & H). destruct ls as [|(s, d) ls]; cbn; auto. destruct H as ((_ & _ & _ & _ & _ & E6 & E7) & _).
  destruct d as [|(k, x) d]; [destruct E6|]. exists k, x, d. split; auto.
  destruct (E7 k x (or_introl eq_refl)) as (_ & El & _). apply axes_len in Hax. unfold the_axes in Hax. unfold axes_fit. destruct axes as [l|]; [congruence|].
  rewrite map_length, seq_length in Hax. congruence.
Qed.

Lemma fst_entries axs ls : forall P, map fst (entries C axs P ls) = flat_map (map snd) (sdicts C axs P ls).
Proof.
  induction ls as [|(s, d) ls IH]; intros P; cbn; [reflexivity|]. rewrite map_app, IH. f_equal. rewrite !map_map. reflexivity.
Qed.

Lemma approx_fits (S : list Z) (a : nd) : nd_wf a -> List.length S = List.length (nshape a) -> (forall k, nthz k (nshape a) <= nthz k S) ->
  fits C S (map (SRange 0) (nshape a), a) /\ forall idx, selects (map (SRange 0) (nshape a)) S idx -> forall k, (k < List.length S)%nat -> nthz k idx < nthz k (nshape a).
Proof.
  intros Ha El Hle. destruct Ha as (Hs & Hd). split; [split; [|split; [split; auto|]]|]; cbn [fst snd].
  - clear Hd. revert Hs S El Hle. generalize (nshape a). intros A0 Hs. induction Hs as [|n sh Hn Hs IH]; intros [|m S] El Hle; cbn in *; try discriminate; auto.
    split; [lia|]. split; [apply (Hle O)|]. apply IH; [lia|]. intros k. apply (Hle (Datatypes.S k)).
  - unfold extent. clear Hd Hle. revert S El. induction (nshape a) as [|n sh IH]; intros [|m S] El; cbn in *; try discriminate; auto.
    apply Forall_cons_iff in Hs. f_equal; [lia|]. apply IH; [tauto|lia].
  - intros idx Hi k Hk. apply (selects_nth _ _ _ k 0 (nthz k (nshape a))) in Hi; auto; [lia|].
    unfold nthz. rewrite <- (map_nth (SRange 0)). apply nth_indep. rewrite map_length. lia.
Qed.

Lemma packed axes a axs ls : nd_wf a -> details_ok axes a axs ls -> ls <> [] ->
  exists S, let ws := (map (SRange 0) (nshape a), a) :: entries C axs (nshape a) ls in
    shape_ok S /\ Forall (fits C S) ws /\ ForallOrdPairs (apart C S) ws /\
    (List.length S = List.length (nshape a) /\ (forall k, In k axs -> nthz k S = nthz k (final C (nshape a) ls)) /\ (forall k, ~ In k axs -> nthz k S = nthz k (nshape a))) /\
    let sls := (map (SRange 0) (nshape a), sdicts C axs (nshape a) ls) in
    map fst ws = all_slices sls /\
    forall junk padding, coeffs_to_array C junk (IArr a :: dicts C (map snd ls)) padding axes =
      match padding with
      | None => if prodZ S =? total C ws then Ok (writes C (ndtab S junk) ws, sls) else Err ValueError
      | Some p => Ok (writes C (ndtab S (fun _ => p)) ws, sls)
      end.
Proof.
  intros Ha Hd Hne. pose proof (details_keys axes a axs ls Hd) as Hk. destruct Hd as (Hax & Hl).
  set (A := nshape a) in *. set (dim := List.length A) in *.
  destruct (array_shape_spec dim (the_axes C axes a) axs A Hax ls A A (prodZ A) eq_refl eq_refl Hl) as (S & S0 & S1 & S2 & S3).
  exists S. cbv zeta. set (ws := (map (SRange 0) A, a) :: entries C axs A ls).
  assert (HA0 : forall k, 0 <= nthz k A) by (intros k; apply shape_ok_nth; apply Ha).
  assert (Hge : forall k, nthz k A <= nthz k S).
  { intros k. destruct (in_dec Nat.eq_dec k axs) as [Hi|Hi]; [|rewrite S3 by auto; lia].
    specialize (S2 k Hi). pose proof (final_mono C dim axs A eq_refl ls A k eq_refl Hl). lia. }
  assert (HSp : shape_ok S). { apply nonneg_shape. intros k. specialize (Hge k). specialize (HA0 k). lia. }
  assert (Hfin : forall k, In k axs -> nthz k (final C A ls) <= nthz k S) by (intros k Hi; specialize (S2 k Hi); lia).
  destruct (approx_fits S a Ha S1 Hge) as (F1 & F2). fold A in F1, F2.
  assert (HF : Forall (fits C S) ws).
  { constructor; auto. apply (entries_fit C dim axs A eq_refl S S1 S3 HSp ls A eq_refl HA0 Hl Hfin). }
  assert (HP : ForallOrdPairs (apart C S) ws).
  { constructor; [|apply (entries_apart C dim axs _ Hax A eq_refl S S1 S3 ls A eq_refl Hl)].
    apply Forall_forall. intros w Hw idx Hi Hj. destruct (entries_reach C dim axs _ Hax A eq_refl S S1 S3 ls A w idx eq_refl Hl Hw Hj) as (k & Hk2 & Hr).
    cbn [fst] in Hi. specialize (F2 idx Hi k). rewrite S1 in F2. specialize (F2 (axs_lt dim axs _ Hax k Hk2)). lia. }
  split; [auto|]. split; [auto|]. split; [auto|]. split; [split; [auto|split; [intros k Hi; specialize (S2 k Hi); lia|auto]]|]. split; [unfold ws, all_slices; cbn [map fst snd]; f_equal; apply fst_entries|].
  intros junk padding. unfold coeffs_to_array. rewrite prepare_dicts by auto. cbn [bind].
  replace (match map snd ls with [] => None | _ => Some (the_axes C axes a) end) with (Some (the_axes C axes a)) by (destruct ls; [congruence|reflexivity]).
  cbn [bind]. fold A. rewrite S0. cbn [bind]. change (prodZ A + total C (entries C axs A ls)) with (total C ws).
  assert (G : forall f, (arr1 <- nd_set C (ndtab S f) (map (SRange 0) A) a;; ' (arr2, sds) <- put_loop C arr1 A (the_axes C axes a) (dicts C (map snd ls)) [];; Ok (arr2, (map (SRange 0) A, sds)))
    = Ok (writes C (ndtab S f) ws, (map (SRange 0) A, sdicts C axs A ls))).
  { intros f. pose proof (nd_set_put C (ndtab S f) (map (SRange 0) A, a) HSp F1) as E. cbn [fst snd] in E. rewrite E. cbn [bind].
    rewrite (put_loop_spec C dim axs _ Hax A eq_refl S S1 S3 HSp ls A); auto. }
  destruct padding as [p|].
  - cbn [bind]. apply G.
  - destruct (prodZ S =? total C ws); cbn [negb]; [|reflexivity]. cbn [bind]. apply G.
Qed.

Lemma FOP_nth {X} (R : X -> X -> Prop) l : ForallOrdPairs R l -> forall i j x y, (i < j)%nat -> nth_error l i = Some x -> nth_error l j = Some y -> R x y.
Proof.
  induction 1 as [|x0 l H1 H2 IH]; intros i j x y Hij Hi Hj; [destruct i; discriminate|].
  destruct j as [|j]; [lia|]. destruct i as [|i]; cbn in *.
  - rewrite Forall_forall in H1. injection Hi as <-. apply H1. eapply nth_error_In; eauto.
  - apply (IH i j x y); auto. apply Nat.succ_lt_mono. exact Hij.
Qed.

Lemma slice_all (a : nd) : nd_wf a -> nd_slice C a (repeat SAll (List.length (nshape a))) = Ok a.
Proof.
  intros (Hs & Hd). unfold nd_slice.
  assert (W : within (repeat SAll (List.length (nshape a))) (nshape a)) by (clear Hd; induction Hs; cbn; auto).
  rewrite region_within by auto. cbn [bind]. f_equal. pose proof (extent_ok _ _ W) as He.
  assert (Ee : extent (repeat SAll (List.length (nshape a))) (nshape a) = nshape a) by (clear; unfold extent; induction (nshape a); cbn; congruence).
  apply nd_ext; [apply ndtab_wf; auto|split; auto|exact Ee|].
  intros idx V. cbn [nshape ndtab] in V. rewrite ndget_ndtab by auto. f_equal.
  fold (extent (repeat SAll (List.length (nshape a))) (nshape a)) in V. rewrite Ee in V.
  clear - V. revert idx V. induction (nshape a) as [|n sh IH]; intros [|i idx] V; cbn in *; try tauto. rewrite IH by tauto. f_equal. lia.
Qed.
Lemma selects_all sh : forall idx, valid sh idx -> selects (repeat SAll (List.length sh)) sh idx.
Proof. induction sh as [|n sh IH]; intros [|i idx] V; cbn in *; try tauto. split; [tauto|apply IH; tauto]. Qed.

(** Reading one level back. *)
Lemma level_back (arr : nd) ls (out : dict nd -> item C) f : forall P axs,
  (forall w, In w (entries C axs P ls) -> nd_slice C arr (fst w) = Ok (snd w)) ->
  (forall P s d, In (s, d) ls -> (forall k x, In (k, x) d -> nd_slice C arr (kslices k axs P s) = Ok x) ->
     get_level_item C arr f (map (fun kx => (fst kx, kslices (fst kx) axs P s)) d) = Ok (out d)) ->
  mapM (get_level_item C arr f) (sdicts C axs P ls) = Ok (map out (map snd ls)).
Proof.
  induction ls as [|(s, d) ls IH]; intros P axs Hw Ho; [reflexivity|]. cbn [sdicts map snd mapM].
  rewrite (Ho P s d (or_introl eq_refl)).
  - cbn [bind]. rewrite IH; [reflexivity| |]; [intros w Hi; apply Hw; cbn; apply in_or_app; auto|]. intros P' s' d' Hi. apply Ho. right. auto.
  - intros k x Hi. apply (Hw (entry C axs P s (k, x))). cbn. apply in_or_app. left. apply in_map. auto.
Qed.

Definition level_format (f : fmt) (out : dict nd -> item C) (ls : list (list Z * dict nd)) : Prop :=
  forall arr axs P s d, In (s, d) ls -> (forall k x, In (k, x) d -> nd_slice C arr (kslices k axs P s) = Ok x) ->
    get_level_item C arr f (map (fun kx => (fst kx, kslices (fst kx) axs P s)) d) = Ok (out d).

(** Everything about the returned array and slices. *)
Definition packing_ok (a : nd) (back : list (item C)) (f : fmt) (padding : option C) (arr : nd) (sls : list sl * list (dict (list sl))) : Prop :=
  nd_wf arr /\ array_to_coeffs C arr sls f = Ok back /\
  (forall i j s t idx, nth_error (all_slices sls) i = Some s -> nth_error (all_slices sls) j = Some t ->
     selects s (nshape arr) idx -> selects t (nshape arr) idx -> i = j) /\
  match padding with
  | None => forall idx, valid (nshape arr) idx -> exists s, In s (all_slices sls) /\ selects s (nshape arr) idx
  | Some p => forall idx, valid (nshape arr) idx -> (forall s, In s (all_slices sls) -> ~ selects s (nshape arr) idx) -> ndget arr idx = p
  end.

Theorem pack_round f out axes a axs ls junk padding arr sls : nd_wf a -> details_ok axes a axs ls -> level_format f out ls ->
  coeffs_to_array C junk (IArr a :: dicts C (map snd ls)) padding axes = Ok (arr, sls) ->
  packing_ok a (IArr a :: map out (map snd ls)) f padding arr sls /\
  forall junk', coeffs_to_array C junk' (IArr a :: dicts C (map snd ls)) padding axes = Ok (arr, sls).
Proof.
  intros Ha Hd Hout H. destruct ls as [|l ls'].
  - cbn in H. injection H as <- <-. split; [|reflexivity]. split; [auto|]. split; [|split].
    + unfold array_to_coeffs. cbn [fst snd]. rewrite slice_all by auto. reflexivity.
    + intros [|i] [|j] s t idx Hi Hj; auto; exfalso; [destruct j; discriminate|destruct i; discriminate|destruct i; discriminate].
    + assert (E : forall idx, valid (nshape a) idx -> exists s, In s (all_slices (repeat SAll (List.length (nshape a)), [])) /\ selects s (nshape a) idx).
      { intros idx V. exists (repeat SAll (List.length (nshape a))). split; [cbn; auto|apply selects_all; auto]. }
      destruct padding; auto. intros idx V Hn. exfalso. destruct (E idx V) as (s & Hs & Hi). exact (Hn s Hs Hi).
  - set (ls := l :: ls') in *.
    destruct (packed axes a axs ls Ha Hd ltac:(discriminate)) as (S & HSp & HF & HP & _ & Hfst & Heq). cbv zeta in *.
    set (ws := (map (SRange 0) (nshape a), a) :: entries C axs (nshape a) ls) in *.
    set (sl0 := (map (SRange 0) (nshape a), sdicts C axs (nshape a) ls)) in *.
    assert (G : forall g, let r := writes C (ndtab S g) ws in nshape r = S /\ nd_wf r /\ array_to_coeffs C r sl0 f = Ok (IArr a :: map out (map snd ls)) /\
       (forall idx, valid S idx -> (forall s, In s (all_slices sl0) -> ~ selects s S idx) -> ndget r idx = g idx)).
    { intros g r. assert (Es : nshape r = S) by (unfold r; rewrite writes_shape; reflexivity). split; auto.
      assert (B : forall w, In w ws -> nd_slice C r (fst w) = Ok (snd w)).
      { intros w Hw. apply slice_writes; auto. }
      split; [apply writes_wf; apply ndtab_wf; auto|]. split.
      - unfold array_to_coeffs. pose proof (B _ (or_introl eq_refl)) as B0. cbn [fst snd] in B0. unfold sl0. cbn [fst snd]. rewrite B0. cbn [bind].
        rewrite (level_back r ls out f); [reflexivity| |].
        + intros w Hw. apply B. right. auto.
        + intros P s d Hi Hk. apply Hout; auto.
      - intros idx V Hn. unfold r. rewrite writes_outside; auto; [apply ndget_ndtab; auto|].
        intros w Hw. apply Hn. rewrite <- Hfst. apply in_map. auto. }
    assert (D : forall i j s t idx, nth_error (all_slices sl0) i = Some s -> nth_error (all_slices sl0) j = Some t -> selects s S idx -> selects t S idx -> i = j).
    { rewrite <- Hfst. intros i j s t idx Hi Hj Si Sj. rewrite nth_error_map in Hi, Hj.
      destruct (nth_error ws i) as [w|] eqn:Ei; [|discriminate]. destruct (nth_error ws j) as [v|] eqn:Ej; [|discriminate].
      injection Hi as <-. injection Hj as <-. destruct (Nat.lt_trichotomy i j) as [L|[L|L]]; auto; exfalso.
      - exact (FOP_nth _ _ HP i j w v L Ei Ej idx Si Sj).
      - exact (FOP_nth _ _ HP j i v w L Ej Ei idx Sj Si). }
    rewrite Heq in H. destruct padding as [p|].
    + assert (arr = writes C (ndtab S (fun _ => p)) ws) by congruence. assert (sls = sl0) by congruence. clear H. subst arr sls. destruct (G (fun _ => p)) as (G1 & G2 & G3 & G4). split; [|intros; apply Heq].
      unfold packing_ok. rewrite G1. split; [auto|]. split; [auto|]. split; [exact D|exact G4].
    + destruct (Z.eqb_spec (prodZ S) (total C ws)) as [Ht|]; [|discriminate].
      assert (arr = writes C (ndtab S junk) ws) by congruence. assert (sls = sl0) by congruence. clear H. subst arr sls.
      destruct (G junk) as (G1 & G2 & G3 & G4).
      assert (Cov : forall idx, valid S idx -> exists w, In w ws /\ selects (fst w) S idx) by (apply covered; auto).
      split.
      * unfold packing_ok. rewrite G1. split; [auto|]. split; [auto|]. split; [exact D|]. intros idx V. destruct (Cov idx V) as (w & Hw & Hi).
        exists (fst w). split; auto. rewrite <- Hfst. apply in_map. auto.
      * intros junk'. rewrite Heq.
        do 2 f_equal. destruct (G junk') as (G1' & G2' & _). apply nd_ext; auto; [congruence|].
        rewrite G1'. intros idx V. destruct (Cov idx V) as (w & Hw & Hi).
        rewrite (writes_inside C ws (ndtab S junk') HSp HF HP w idx Hw Hi), (writes_inside C ws (ndtab S junk) HSp HF HP w idx Hw Hi). reflexivity.
Qed.

(** Success. *)
Theorem pack_padded junk axes a axs ls p : nd_wf a -> details_ok axes a axs ls ->
  exists arr sls, coeffs_to_array C junk (IArr a :: dicts C (map snd ls)) (Some p) axes = Ok (arr, sls).
Proof.
  intros Ha Hd. destruct ls as [|l ls]; [cbn; eauto|].
  destruct (packed axes a axs (l :: ls) Ha Hd ltac:(discriminate)) as (S & _ & _ & _ & _ & _ & E). cbv zeta in E. rewrite E. eauto.
Qed.
(** Without padding: exactly if the array has as many entries as there are coefficients. *)
Theorem pack_tight junk axes a axs ls p arr sls : nd_wf a -> details_ok axes a axs ls ->
  coeffs_to_array C junk (IArr a :: dicts C (map snd ls)) (Some p) axes = Ok (arr, sls) ->
  if prodZ (nshape arr) =? zlen (ndata a) + zlen (flat_map (fun d => elements (map snd d)) (map snd ls))
  then exists arr', coeffs_to_array C junk (IArr a :: dicts C (map snd ls)) None axes = Ok (arr', sls) /\ nshape arr' = nshape arr
  else coeffs_to_array C junk (IArr a :: dicts C (map snd ls)) None axes = Err ValueError.
Proof.
  intros Ha Hd H. destruct ls as [|l ls'].
  - cbn in H. injection H as <- <-. cbn [map flat_map]. replace (prodZ (nshape a) =? zlen (ndata a) + zlen (@nil C)) with true; [cbn; eauto|].
    rewrite (proj2 Ha). change (zlen (@nil C)) with 0. rewrite Z.add_0_r. symmetry. apply Z.eqb_refl.
  - set (ls := l :: ls') in *. destruct (packed axes a axs ls Ha Hd ltac:(discriminate)) as (S & HSp & HF & _ & _ & _ & E). cbv zeta in E.
    rewrite E in H. set (ws := (map (SRange 0) (nshape a), a) :: entries C axs (nshape a) ls) in *.
    assert (arr = writes C (ndtab S (fun _ => p)) ws) by congruence. assert (sls = (map (SRange 0) (nshape a), sdicts C axs (nshape a) ls)) by congruence. clear H. subst arr sls. rewrite writes_shape. cbn [nshape ndtab].
    assert (Et : total C ws = zlen (ndata a) + zlen (flat_map (fun d => elements (map snd d)) (map snd ls))).
    { change (total C ws) with (prodZ (nshape a) + total C (entries C axs (nshape a) ls)). rewrite (proj2 Ha). f_equal. apply Forall_cons_iff in HF. destruct HF as (_ & HF). clear - HF. revert HF.
      generalize (nshape a). induction ls as [|(s, d) ls IH]; intros P HF; [reflexivity|]. cbn [entries map snd flat_map] in *. apply Forall_app in HF. destruct HF as (F1 & F2).
      rewrite total_app, zlen_app. rewrite IH by auto. f_equal. clear - F1. unfold elements.
      induction d as [|(k, x) d IH]; [reflexivity|]. cbn [map] in F1. apply Forall_cons_iff in F1. destruct F1 as ((_ & (_ & W) & _) & F1). cbn [map snd flat_map total fold_right entry].
      rewrite zlen_app. cbn [snd entry] in W. rewrite W. f_equal. apply IH. auto. }
    rewrite (E junk None), Et.
    match goal with |- if ?b then _ else _ => destruct b end; [|reflexivity].
    exists (writes C (ndtab S junk) ws). split; [reflexivity|]. apply writes_shape.
Qed.

(** The shape: the sizes add up along the transformed axes. *)
Theorem pack_shape junk axes a axs ls padding arr sls : nd_wf a -> details_ok axes a axs ls ->
  coeffs_to_array C junk (IArr a :: dicts C (map snd ls)) padding axes = Ok (arr, sls) ->
  List.length (nshape arr) = List.length (nshape a) /\
  (forall k, In k axs -> nthz k (nshape arr) = nthz k (nshape a) + fold_right Z.add 0 (map (fun l => nthz k (fst l)) ls)) /\
  (forall k, ~ In k axs -> nthz k (nshape arr) = nthz k (nshape a)).
Proof.
  intros Ha Hd H. destruct ls as [|l ls'].
  - cbn in H. injection H as <- <-. split; auto. split; auto. intros k _. cbn. lia.
  - set (ls := l :: ls') in *. destruct (packed axes a axs ls Ha Hd ltac:(discriminate)) as (S & HSp & HF & _ & (S1 & S2 & S3) & _ & E). cbv zeta in E.
    assert (En : nshape arr = S).
    { rewrite E in H. set (ws := (map (SRange 0) (nshape a), a) :: entries C axs (nshape a) ls) in *. destruct padding as [p|].
      - assert (arr = writes C (ndtab S (fun _ => p)) ws) by congruence. subst arr. rewrite writes_shape. reflexivity.
      - destruct (prodZ S =? total C ws); [|discriminate]. assert (arr = writes C (ndtab S junk) ws) by congruence. subst arr. rewrite writes_shape. reflexivity. }
    rewrite En. split; [auto|]. split; [|auto]. intros k Hk. rewrite S2 by auto. destruct Hd as (_ & Hl). clearbody ls. clear - Hl.
    assert (G : forall P, List.length P = List.length (nshape a) -> levels_are C (List.length (nshape a)) axs (nshape a) P ls ->
      nthz k (final C P ls) = nthz k P + fold_right Z.add 0 (map (fun l => nthz k (fst l)) ls)); [|apply G; auto].
    clear Hl. induction ls as [|(s, d) ls IH]; intros P HP H; [cbn; rewrite Z.add_0_r; reflexivity|]. destruct H as ((H1 & _) & H).
    change (nthz k (final C (zadd P s) ls) = nthz k P + (nthz k s + fold_right Z.add 0 (map (fun l => nthz k (fst l)) ls))).
    cbn [fst] in H. rewrite IH; auto; [rewrite nth_zadd by congruence; lia|rewrite zadd_length by congruence; auto].
Qed.

(** The formats. *)
Lemma format_wavedecn ls : level_format FWavedecn (fun d => IDict (bands d)) ls.
Proof.
  intros arr axs P s d _ H. cbn [get_level_item].
  assert (E : mapM (fun '(k, ss) => a <- nd_slice C arr ss;; Ok (k, Some a)) (map (fun kx : string * nd => (fst kx, kslices (fst kx) axs P s)) d) = Ok (bands d)).
  { unfold bands. induction d as [|(k, x) d IH]; [reflexivity|]. cbn [map fst mapM]. rewrite (H k x) by (cbn; auto). cbn [bind]. rewrite IH; [reflexivity|]. intros; apply H; cbn; auto. }
  rewrite E. reflexivity.
Qed.
Definition one (x : nd) : dict nd := [("d"%string, x)].
Definition three (t : nd * nd * nd) : dict nd := let '(da, ad, dd) := t in [("ad"%string, ad); ("da"%string, da); ("dd"%string, dd)].

Lemma format_wavedec (ls : list (list Z * nd)) : level_format FWavedec (fun d => match d with (_, x) :: _ => IArr x | [] => INone end) (map (fun l => (fst l, one (snd l))) ls).
Proof.
  intros arr axs P s d Hi H. apply in_map_iff in Hi. destruct Hi as (l & E & _). injection E as <- <-.
  cbn -[kslices nd_slice]. unfold get_slice. cbn -[kslices nd_slice]. rewrite (H "d"%string (snd l)) by (cbn; auto). reflexivity.
Qed.
Lemma format_wavedec2 (ls : list (list Z * (nd * nd * nd))) :
  level_format FWavedec2 (fun d => match d with [(_, ad); (_, da); (_, dd)] => ITup [Some da; Some ad; Some dd] | _ => INone end) (map (fun l => (fst l, three (snd l))) ls).
Proof.
  intros arr axs P s d Hi H. apply in_map_iff in Hi. destruct Hi as ((s', ((da, ad), dd)) & E & _). cbn [three fst snd] in E. injection E as <- <-.
  cbn -[kslices nd_slice]. unfold get_slice. cbn -[kslices nd_slice].
  rewrite (H "da"%string da), (H "ad"%string ad), (H "dd"%string dd) by (cbn; auto). reflexivity.
Qed.

(** wavedecn format. *)
Theorem pack_wavedecn_format axes a axs ls junk padding arr sls : nd_wf a -> details_ok axes a axs ls ->
  coeffs_to_array C junk (IArr a :: dicts C (map snd ls)) padding axes = Ok (arr, sls) ->
  packing_ok a (IArr a :: dicts C (map snd ls)) FWavedecn padding arr sls /\
  forall junk', coeffs_to_array C junk' (IArr a :: dicts C (map snd ls)) padding axes = Ok (arr, sls).
Proof. intros Ha Hd H. apply (pack_round FWavedecn (fun d => IDict (bands d)) axes a axs ls junk); auto. apply format_wavedecn. Qed.

(** wavedec2 format. *)
Theorem pack_wavedec2_format axes a axs (ls : list (list Z * (nd * nd * nd))) junk padding arr sls : nd_wf a ->
  details_ok axes a axs (map (fun l => (fst l, three (snd l))) ls) ->
  coeffs_to_array C junk (IArr a :: triples C (map snd ls)) padding axes = Ok (arr, sls) ->
  packing_ok a (IArr a :: triples C (map snd ls)) FWavedec2 padding arr sls /\
  forall junk', coeffs_to_array C junk' (IArr a :: triples C (map snd ls)) padding axes = Ok (arr, sls).
Proof.
  intros Ha Hd. 
  assert (E : forall j, coeffs_to_array C j (IArr a :: triples C (map snd ls)) padding axes
     = coeffs_to_array C j (IArr a :: dicts C (map snd (map (fun l => (fst l, three (snd l))) ls))) padding axes).
  { intros j. unfold coeffs_to_array. rewrite conv_2d. rewrite map_map. cbn [snd]. rewrite map_map. reflexivity. }
  rewrite E. intros H.
  destruct (pack_round FWavedec2 _ axes a axs _ junk padding arr sls Ha Hd (format_wavedec2 ls) H) as (R1 & R2). split.
  - replace (IArr a :: triples C (map snd ls)) with
     (IArr a :: map (fun d : dict nd => match d with [(_, ad); (_, da); (_, dd)] => ITup [Some da; Some ad; Some dd] | _ => INone end) (map snd (map (fun l => (fst l, three (snd l))) ls))); auto.
    f_equal. unfold triples. rewrite !map_map. apply map_ext. intros (s & ((da & ad) & dd)). reflexivity.
  - intros j. rewrite E. apply R2.
Qed.

(** wavedec format: 1-D arrays. *)
Fixpoint fit1 (n : Z) (ds : list nd) : Prop :=
  match ds with
  | [] => True
  | x :: ds' => nd_wf x /\ exists m, nshape x = [m] /\ m <= n /\ fit1 (n + m) ds'
  end.
Lemma fit1_levels A : forall ds n, fit1 n ds ->
  levels_are C 1 [0%nat] [A] [n] (map (fun l => (fst l, one (snd l))) (map (fun x => (nshape x, x)) ds)).
Proof.
  induction ds as [|x ds IH]; intros n H; cbn [map fst snd levels_are]; auto. destruct H as (Hx & m & Em & Hm & H).
  rewrite Em. assert (Ho : shape_ok [m]) by (rewrite <- Em; apply Hx). split; [|apply IH; auto].
  split; [reflexivity|]. split; [auto|]. split; [|split; [|split; [|split]]].
  - intros [|ax] Hax; [exfalso; apply Hax; cbn; auto|]. destruct ax; reflexivity.
  - intros ax [<-|[]]. cbn. auto.
  - split; [repeat constructor; cbn; auto|]. intros k y [E|[]]. congruence.
  - cbn. auto.
  - intros k y [E|[]]. injection E as <- <-. repeat split; auto; cbn; auto. discriminate.
Qed.

Theorem pack_wavedec_format junk padding axes a n0 ds : nd_wf a -> nshape a = [n0] -> axes = None \/ axes = Some [0] \/ axes = Some [-1] -> fit1 n0 ds ->
  exists arr sls, coeffs_to_array C junk (IArr a :: map (@IArr C) ds) padding axes = Ok (arr, sls) /\
  nshape arr = [n0 + zlen (elements ds)] /\
  packing_ok a (IArr a :: map (@IArr C) ds) FWavedec padding arr sls /\
  (forall idx, valid (nshape arr) idx -> exists s, In s (all_slices sls) /\ selects s (nshape arr) idx).
Proof.
  intros Ha En Hax Hf. set (ls := map (fun l => (fst l, one (snd l))) (map (fun x => (nshape x, x)) ds)).
  assert (Hd : details_ok axes a [0%nat] ls).
  { split; [|unfold ls; rewrite En; apply fit1_levels; auto]. rewrite En. split; [repeat constructor; cbn; auto|].
    unfold the_axes. rewrite En. destruct Hax as [->|[->| ->]]; repeat constructor; cbn; lia. }
  assert (H1 : Forall (fun x : nd => zlen (nshape x) = 1) ds).
  { clear - Hf. revert n0 Hf. induction ds as [|x ds IH]; intros n H; constructor; destruct H as (_ & m & E & _ & H); eauto. rewrite E. reflexivity. }
  assert (E : forall j p, coeffs_to_array C j (IArr a :: map (@IArr C) ds) p axes = coeffs_to_array C j (IArr a :: dicts C (map snd ls)) p axes).
  { intros j p. unfold coeffs_to_array, ls. rewrite conv_1d by auto. rewrite !map_map. reflexivity. }
  assert (Ee : flat_map (fun d => elements (map snd d)) (map snd ls) = elements ds).
  { unfold ls, elements. rewrite !map_map. clear. induction ds as [|x ds IH]; [reflexivity|]. cbn [map flat_map fst snd one] in *. rewrite app_nil_r, IH. reflexivity. }
  destruct (pack_padded junk axes a [0%nat] ls (@r0 C) Ha Hd) as (arr0 & sls0 & E0).
  pose proof (pack_tight junk axes a [0%nat] ls (@r0 C) arr0 sls0 Ha Hd E0) as Ht.
  assert (Hs : forall p arr sls, coeffs_to_array C junk (IArr a :: dicts C (map snd ls)) p axes = Ok (arr, sls) -> nshape arr = [n0 + zlen (elements ds)]).
  { intros p arr sls H. destruct (pack_shape junk axes a [0%nat] ls p arr sls Ha Hd H) as (L1 & L2 & _). rewrite En in L1, L2.
    specialize (L2 0%nat (or_introl eq_refl)). destruct (nshape arr) as [|m [|? ?]]; try discriminate. unfold nthz in L2. cbn [nth] in L2. rewrite L2. do 2 f_equal.
    unfold ls. rewrite !map_map. cbn [fst]. clear - Hf. revert n0 Hf. induction ds as [|x ds IH]; intros n H; [reflexivity|].
    destruct H as (W & m & E & _ & H). cbn [map fold_right]. unfold elements. cbn [flat_map]. rewrite zlen_app. fold (elements ds). rewrite (IH (n + m)) by auto.
    f_equal. destruct W as (_ & W). rewrite W, E. cbn. lia. }
  rewrite (Hs _ _ _ E0), Ee in Ht. destruct Ha as (Ha1 & Ha2). rewrite Ha2, En in Ht. 
  replace (prodZ [n0 + zlen (elements ds)] =? prodZ [n0] + zlen (elements ds)) with true in Ht by (cbn [prodZ]; lia).
  destruct Ht as (arr1 & E1 & _).
  assert (Ha : nd_wf a) by (split; auto).
  assert (Cov : forall idx, valid [n0 + zlen (elements ds)] idx -> exists s, In s (all_slices sls0) /\ selects s [n0 + zlen (elements ds)] idx).
  { destruct (pack_wavedecn_format axes a [0%nat] ls junk None arr1 sls0 Ha Hd E1) as ((_ & _ & _ & Hc) & _). rewrite (Hs _ _ _ E1) in Hc. exact Hc. }
  assert (G : exists arr, coeffs_to_array C junk (IArr a :: dicts C (map snd ls)) padding axes = Ok (arr, sls0)).
  { destruct padding as [p|]; [|eauto]. destruct ls as [|l ls'].
    - cbn in E0 |- *. exists arr0. exact E0.
    - destruct (packed axes a [0%nat] (l :: ls') Ha Hd ltac:(discriminate)) as (S & _ & _ & _ & _ & _ & P). cbv zeta in P.
      rewrite P in E0. rewrite P. pose proof (f_equal (fun r => match r with Ok (_, s) => s | _ => sls0 end) E0) as E2.
      cbv beta iota in E2. rewrite E2. eauto. }
  destruct G as (arr & G). exists arr, sls0. rewrite E. split; [auto|]. split; [eauto|]. split.
  - destruct (pack_round FWavedec _ axes a [0%nat] ls junk padding arr sls0 Ha Hd (format_wavedec _) G) as (R1 & _).
    replace (map (@IArr C) ds) with (map (fun d : dict nd => match d with (_, x) :: _ => IArr x | [] => INone end) (map snd ls)); auto.
    unfold ls. rewrite !map_map. reflexivity.
  - rewrite (Hs _ _ _ G). exact Cov.
Qed.
End F.
