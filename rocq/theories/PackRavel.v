(** ravel_coeffs and unravel_coeffs. *)
From Coq Require Import Ascii String Permutation Sorted.
From Verif Require Import Base BaseLemmas Dwt Nd Swt AxisProofs Multidim MultidimProofs MultidimFacts MultilevelNd MultilevelNdProofs SwtNd PackSpec Packing.
Open Scope Z_scope.

Definition key_le {A} (p q : string * A) : Prop := String.leb (fst p) (fst q) = true.

Lemma leb_flip s t : String.leb s t = false -> String.leb t s = true.
Proof. intros H. destruct (String.leb_total s t); congruence. Qed.
Lemma sinsert_perm {A} k (v : A) d : Permutation (sinsert k v d) ((k, v) :: d).
Proof. induction d as [|(k', v') d IH]; cbn; auto. destruct (String.leb k k'); auto. rewrite IH. apply perm_swap. Qed.
Lemma ssort_perm {A} (d : dict A) : Permutation (ssort d) d.
Proof. induction d as [|(k, v) d IH]; cbn; auto. rewrite sinsert_perm, IH. auto. Qed.
Lemma sinsert_sorted {A} k (v : A) d : Sorted key_le d -> Sorted key_le (sinsert k v d).
Proof.
  induction d as [|(k', v') d IH]; intros H; cbn; auto. destruct (String.leb k k') eqn:E.
  - constructor; auto.
  - apply Sorted_inv in H. destruct H as (H1 & H2). constructor; auto. apply leb_flip in E.
    destruct d as [|(k2, v2) d]; cbn; [constructor; exact E|]. destruct (String.leb k k2); constructor; [exact E|]. inversion H2; auto.
Qed.
Lemma ssort_sorted {A} (d : dict A) : Sorted key_le (ssort d).
Proof. induction d as [|(k, v) d IH]; cbn; auto using sinsert_sorted. Qed.

Lemma skipn_skipn2 {A} a b (l : list A) : skipn a (skipn b l) = skipn (b + a) l.
Proof. revert l. induction b as [|b IH]; intros l; cbn; auto. destruct l; cbn; auto. destruct a; reflexivity. Qed.

Section Ravel.
Variable C : CRing.

Lemma zlen_data (a : nd C) : nd_wf a -> zlen (ndata a) = prodZ (nshape a).
Proof. intros (_ & H). exact H. Qed.

Lemma put1_app (pre suf d : list C) : zlen d <= zlen suf -> put1 C (pre ++ suf) (zlen pre) d = pre ++ d ++ skipn (List.length d) suf.
Proof.
  intros H. unfold put1. pose proof (zlen_nonneg pre). pose proof (zlen_nonneg d). pose proof (zlen_nonneg suf).
  assert (El : zlen (skipn (List.length d) suf) = zlen suf - zlen d) by (unfold zlen in *; rewrite skipn_length; lia).
  apply list_ext.
  - rewrite zlen_tab by apply zlen_nonneg. rewrite !zlen_app, El. lia.
  - intros i Hi. rewrite zlen_tab_max in Hi. rewrite gz_tab by lia. rewrite !gz_app.
    destruct (Z.leb_spec (zlen pre) i); cbn [andb].
    + replace (i <? zlen pre) with false by lia. destruct (Z.ltb_spec i (zlen pre + zlen d)).
      * replace (i - zlen pre <? zlen d) with true by lia. reflexivity.
      * replace (i - zlen pre <? zlen d) with false by lia. rewrite gz_skipn by lia. f_equal. unfold zlen. lia.
    + replace (i <? zlen pre) with true by lia. reflexivity.
Qed.

(** What ravel_dict computes. *)
Fixpoint offs (o : Z) (d : dict (nd C)) : dict (Z * Z) :=
  match d with [] => [] | (k, a) :: d' => (k, (o, o + prodZ (nshape a))) :: offs (o + prodZ (nshape a)) d' end.
Definition shps (d : dict (nd C)) : dict (list Z) := map (fun '(k, a) => (k, nshape a)) d.
Definition flat (d : dict (nd C)) : list C := elements (map snd d).

Lemma offs_keys d : forall o, map fst (offs o d) = map fst d.
Proof. induction d as [|(k, a) d IH]; intros o; cbn; auto. rewrite IH. reflexivity. Qed.

Lemma ravel_dict_spec : forall d pre suf acc sh,
  (forall k a, In (k, a) d -> nd_wf a) -> NoDup (map fst acc ++ map fst d) -> NoDup (map fst sh ++ map fst d) ->
  zlen (flat d) <= zlen suf ->
  ravel_dict C (pre ++ suf) (zlen pre) (bands d) acc sh =
  Ok (pre ++ flat d ++ skipn (List.length (flat d)) suf, zlen pre + zlen (flat d), acc ++ offs (zlen pre) d, sh ++ shps d).
Proof.
  induction d as [|(k, a) d IH]; intros pre suf acc sh Hw H1 H2 Hs.
  - cbn. rewrite !app_nil_r. rewrite Z.add_0_r. reflexivity.
  - assert (Ha : nd_wf a) by (apply (Hw k); cbn; auto). assert (E : zlen (ndata a) = prodZ (nshape a)) by apply Ha.
    unfold flat, elements in Hs. cbn in Hs. fold (elements (map snd d)) in Hs. fold (flat d) in Hs. rewrite zlen_app in Hs.
    pose proof (zlen_nonneg (ndata a)). pose proof (zlen_nonneg (flat d)).
    cbn [bands map ravel_dict as_arr bind]. rewrite put1_app by lia.
    cbn in H1, H2. assert (K1 : ~ In k (map fst acc)).
    { intros Hi. apply NoDup_remove_2 in H1. apply H1. apply in_or_app. auto. }
    assert (K2 : ~ In k (map fst sh)).
    { intros Hi. apply NoDup_remove_2 in H2. apply H2. apply in_or_app. auto. }
    rewrite !dset_not_in by auto. rewrite <- E. rewrite app_assoc. replace (zlen pre + zlen (ndata a)) with (zlen (pre ++ ndata a)) by apply zlen_app.
    rewrite IH.
    + rewrite !zlen_app. cbn [offs shps map flat elements flat_map snd]. rewrite !app_length, <- E. rewrite <- !app_assoc. cbn [app].
      rewrite skipn_skipn2. rewrite ?zlen_app, ?Z.add_assoc. reflexivity.
    + intros; apply (Hw k0); cbn; auto.
    + rewrite map_app. cbn. rewrite <- app_assoc. exact H1.
    + rewrite map_app. cbn. rewrite <- app_assoc. exact H2.
    + unfold zlen in *. rewrite skipn_length. lia.
Qed.

(** The whole list. *)
Fixpoint loffs (o : Z) (es : list (dict (nd C))) : list (dict (Z * Z)) :=
  match es with [] => [] | e :: es' => offs o e :: loffs (o + zlen (flat e)) es' end.
Definition lflat (es : list (dict (nd C))) : list C := flat_map flat es.

Lemma ssort_bands d : ssort (bands d) = bands (ssort d) :> dict (option (nd C)).
Proof.
  induction d as [|(k, a) d IH]; [reflexivity|]. change (sinsert k (Some a) (ssort (bands d)) = bands (sinsert k a (ssort d))).
  rewrite IH. generalize (ssort d). intros e. induction e as [|(k', v') e IHe]; [reflexivity|]. cbn. destruct (String.leb k k'); cbn; auto. f_equal. exact IHe.
Qed.
Lemma no_missing d : existsb (fun '(_, v) => match v with None => true | Some _ => false end) (bands d : dict (option (nd C))) = false.
Proof. induction d as [|(k, a) d IH]; cbn; auto. Qed.
Lemma dict_wf_perm (d e : dict (nd C)) : Permutation e d -> dict_wf d -> dict_wf e.
Proof.
  intros H (H1 & H2). split.
  - eapply Permutation_NoDup; [|exact H1]. apply Permutation_map. symmetry. exact H.
  - intros k a Hi. apply (H2 k). eapply Permutation_in; eauto.
Qed.

Lemma ravel_loop_spec : forall ds pre suf acc sh,
  Forall dict_wf ds -> zlen suf = zlen (lflat (map ssort ds)) ->
  ravel_loop C (pre ++ suf) (zlen pre) (map (fun d => IDict (bands d)) ds) acc sh =
  Ok (pre ++ lflat (map ssort ds), rev acc ++ loffs (zlen pre) (map ssort ds), rev sh ++ map shps (map ssort ds)).
Proof.
  induction ds as [|d ds IH]; intros pre suf acc sh Hw Hs.
  - cbn in *. apply zlen_nil_inv in Hs. subst suf. rewrite !app_nil_r. reflexivity.
  - apply Forall_cons_iff in Hw. destruct Hw as (Hd & Hw). pose proof (dict_wf_perm d (ssort d) (ssort_perm d) Hd) as (N1 & N2).
    cbn [map lflat flat_map] in Hs. rewrite zlen_app in Hs. fold (lflat (map ssort ds)) in Hs. pose proof (zlen_nonneg (lflat (map ssort ds))).
    cbn [map ravel_loop as_dict bind]. rewrite no_missing. rewrite ssort_bands.
    rewrite (ravel_dict_spec (ssort d) pre suf [] []); auto; [|lia]. cbn [bind app].
    rewrite <- zlen_app. rewrite app_assoc. rewrite IH; auto.
    + rewrite zlen_app. cbn [rev lflat flat_map loffs map]. rewrite <- !app_assoc. reflexivity.
    + unfold zlen in *. rewrite skipn_length. lia.
Qed.

Lemma foldM_size (d : dict (nd C)) : (forall k a, In (k, a) d -> nd_wf a) -> forall n,
  foldM (fun n '(_, v) => match v with None => Err ValueError | Some a => Ok (n + prodZ (nshape a)) end) n (bands d : dict (option (nd C))) = Ok (n + zlen (flat d)).
Proof.
  induction d as [|(k, a) d IH]; intros Hw n; cbn.
  - rewrite Z.add_0_r. reflexivity.
  - rewrite IH by (intros; apply (Hw k0); cbn; auto). rewrite zlen_app. rewrite (zlen_data a) by (apply (Hw k); cbn; auto). f_equal.
    unfold flat, elements. lia.
Qed.
Lemma flat_perm (d e : dict (nd C)) : Permutation d e -> zlen (flat d) = zlen (flat e).
Proof. intros H. unfold zlen. f_equal. apply Permutation_length. unfold flat, elements. apply Permutation_flat_map. apply Permutation_map. exact H. Qed.
Lemma coeffs_size_spec ds : Forall dict_wf ds -> forall n,
  coeffs_size C n (map (fun d => IDict (bands d)) ds) = Ok (n + zlen (lflat (map ssort ds))).
Proof.
  induction 1 as [|d ds (Hd1 & Hd2) _ IH]; intros n; cbn [map coeffs_size as_dict bind].
  - cbn. rewrite Z.add_0_r. reflexivity.
  - rewrite foldM_size by auto. cbn [bind]. rewrite IH. cbn [lflat flat_map]. rewrite zlen_app. fold (lflat (map ssort ds)).
    rewrite (flat_perm (ssort d) d) by apply ssort_perm. f_equal. lia.
Qed.

(** The other direction. *)
Lemma take1_spec (pre post : list C) (a : nd C) : nd_wf a ->
  take1 C (pre ++ ndata a ++ post) (zlen pre, zlen pre + prodZ (nshape a)) (nshape a) = Ok a.
Proof.
  intros Ha. pose proof (zlen_data a Ha) as E. pose proof (zlen_nonneg pre). pose proof (zlen_nonneg (ndata a)). pose proof (zlen_nonneg post).
  unfold take1. cbn [fst snd sl_res]. rewrite !zlen_app. rewrite !Z.min_l by lia.
  replace (Z.max 0 (zlen pre + prodZ (nshape a) - zlen pre)) with (prodZ (nshape a)) by lia. rewrite Z.eqb_refl. cbn [negb].
  f_equal. destruct a as [sa da]. cbn [nshape ndata] in *. f_equal. rewrite <- E. etransitivity; [|apply tab_gz].
  apply tab_ext. intros i Hi. rewrite !gz_app. replace (zlen pre + i <? zlen pre) with false by lia.
  replace (zlen pre + i - zlen pre) with i by lia. replace (i <? zlen da) with true by lia. reflexivity.
Qed.

Lemma in_offs d : (forall k a, In (k, a) d -> nd_wf a) -> forall pre post k a, In (k, a) d -> NoDup (map fst d) ->
  exists p q, pre ++ flat d ++ post = p ++ ndata a ++ q /\ dget (offs (zlen pre) d) k = Some (zlen p, zlen p + prodZ (nshape a)).
Proof.
  induction d as [|(k', a') d IH]; intros Hw pre post k a Hi Hn; [destruct Hi|].
  cbn [map fst] in Hn. apply NoDup_cons_iff in Hn. destruct Hn as (Hn1 & Hn2). cbn [flat map elements flat_map snd offs dget].
  destruct Hi as [E|Hi].
  - injection E as -> ->. rewrite String.eqb_refl. exists pre, (flat d ++ post). split; [|reflexivity]. rewrite <- !app_assoc. reflexivity.
  - destruct (String.eqb_spec k' k) as [->|Hne].
    + exfalso. apply Hn1. apply in_map_iff. exists (k, a). auto.
    + destruct (IH (fun k a H => Hw k a (or_intror H)) (pre ++ ndata a') post k a Hi Hn2) as (p & q & E1 & E2).
      exists p, q. split.
      * rewrite <- E1. rewrite <- !app_assoc. reflexivity.
      * rewrite zlen_app, (zlen_data a') in E2 by (apply (Hw k'); cbn; auto). exact E2.
Qed.

Lemma dget_shps d k a : NoDup (map fst d) -> In (k, a) d -> dget (shps d) k = Some (nshape a).
Proof.
  intros Hn Hi. apply dget_in.
  - unfold shps. rewrite map_map. erewrite map_ext; [exact Hn|]. intros (x, y). reflexivity.
  - apply in_map_iff. exists (k, a). auto.
Qed.

Lemma take_key_spec d pre post k a : dict_wf d -> In (k, a) d ->
  take_key C (pre ++ flat d ++ post) (offs (zlen pre) d) (shps d) k = Ok a.
Proof.
  intros (Hn & Hw) Hi. destruct (in_offs d Hw pre post k a Hi Hn) as (p & q & E1 & E2). unfold take_key, dgetE.
  rewrite E2, (dget_shps d k a Hn Hi). cbn [bind]. rewrite E1. apply take1_spec. apply (Hw k); auto.
Qed.

Lemma unravel_wavedecn d pre post : dict_wf d ->
  unravel_level C (pre ++ flat d ++ post) FWavedecn (offs (zlen pre) d) (shps d) = Ok (IDict (bands d)).
Proof.
  intros Hd. unfold unravel_level.
  assert (G : forall e o, (forall k s, In (k, s) (offs o e) -> dget (offs (zlen pre) d) k = Some s) -> incl e d ->
    mapM (fun '(k, s) => t <- dgetE (shps d) k;; a <- take1 C (pre ++ flat d ++ post) s t;; Ok (k, Some a)) (offs o e) = Ok (bands e)).
  { induction e as [|(k, a) e IH]; intros o Ho Hi; [reflexivity|]. cbn [offs mapM bands map].
    assert (Hin : In (k, a) d) by (apply Hi; cbn; auto). pose proof (take_key_spec d pre post k a Hd Hin) as E.
    pose proof (Ho k (o, o + prodZ (nshape a)) (or_introl eq_refl)) as E2.
    unfold take_key, dgetE in *. rewrite E2 in E. cbn [bind] in E. rewrite (dget_shps d k a (proj1 Hd) Hin) in *. cbn [bind] in *.
    rewrite E. cbn [bind]. fold (bands e). rewrite IH; [reflexivity| |].
    - intros k' s' H'. apply Ho. right. exact H'.
    - intros x Hx. apply Hi. right. exact Hx. }
  rewrite G; [reflexivity| |].
  - intros k s H. apply dget_in; auto. rewrite offs_keys. apply Hd.
  - apply incl_refl.
Qed.

Lemma unravel_levels f (out : dict (nd C) -> item C) : 
  forall es, (forall d pre post, In d es -> dict_wf d -> unravel_level C (pre ++ flat d ++ post) f (offs (zlen pre) d) (shps d) = Ok (out d)) ->
  forall pre, Forall dict_wf es ->
  mapM (fun '(s, t) => unravel_level C (pre ++ lflat es) f s t) (combine (loffs (zlen pre) es) (map shps es)) = Ok (map out es).
Proof.
  induction es as [|e es IH]; intros H pre Hw; [reflexivity|]. apply Forall_cons_iff in Hw. destruct Hw as (He & Hw).
  cbn [loffs map combine mapM lflat flat_map]. fold (lflat es). rewrite H by (cbn; auto). cbn [bind]. rewrite app_assoc, <- zlen_app. rewrite IH; auto. intros; apply H; cbn; auto.
Qed.
End Ravel.
