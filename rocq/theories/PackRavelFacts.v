(** Round trip of ravel_coeffs / unravel_coeffs. *)
From Coq Require Import Ascii String Permutation Sorted.
From Verif Require Import Base BaseLemmas Dwt Nd Swt AxisProofs Multidim MultidimProofs MultidimFacts MultilevelNd MultilevelNdProofs SwtNd PackSpec Packing PackRavel.
Open Scope Z_scope.

Section F.
Variable C : CRing.
Local Notation item := (item C).

(** The length of the keys fits the axes argument. *)
Definition keys_fit (axes : option (list Z)) (a : nd C) (ds : list (dict (nd C))) : Prop :=
  match ds with
  | [] => True
  | d :: _ => exists k x t, d = (k, x) :: t /\ axes_fit axes (String.length k) (List.length (nshape a))
  end.
Definition dicts (ds : list (dict (nd C))) : list item := map (fun d => IDict (bands d)) ds.
Definition triples (ds : list (nd C * nd C * nd C)) : list item := map (fun '(da, ad, dd) => ITup [Some da; Some ad; Some dd]) ds.
Definition the_axes (axes : option (list Z)) (a : nd C) : list Z :=
  match axes with Some l => l | None => map Z.of_nat (seq 0 (List.length (nshape a))) end.

Lemma prepare_dicts axes a ds : keys_fit axes a ds ->
  prepare C (IArr a :: dicts ds) axes = Ok (a, dicts ds, match ds with [] => None | _ => Some (the_axes axes a) end).
Proof.
  destruct ds as [|d ds]; [reflexivity|]. intros (k & x & t & -> & Hf). cbn [dicts map prepare bind bands].
  unfold axes_fit, the_axes in *. destruct axes as [l|]; cbn [bind].
  - rewrite Hf, Nat.eqb_refl. reflexivity.
  - rewrite Hf. replace (Z.of_nat (List.length (nshape a)) <? zlen (nshape a)) with false by (unfold zlen; lia).
    cbn [bind]. rewrite map_length, seq_length, Nat.eqb_refl. reflexivity.
Qed.

Lemma conv_1d axes a ds : Forall (fun x : nd C => zlen (nshape x) = 1) ds ->
  prepare C (IArr a :: map (@IArr C) ds) axes = prepare C (IArr a :: dicts (map (fun x => [("d"%string, x)]) ds)) axes.
Proof.
  intros H. assert (E : mapM (conv1 C) (map (@IArr C) ds) = Ok (dicts (map (fun x => [("d"%string, x)]) ds))).
  { induction H as [|x ds Hx _ IH]; [reflexivity|]. cbn [map mapM conv1]. rewrite Hx. cbn [Z.eqb Pos.eqb negb bind]. rewrite IH. reflexivity. }
  destruct ds as [|x ds]; [reflexivity|]. unfold prepare. cbn [map dicts] in *. rewrite E. reflexivity.
Qed.
Lemma conv_2d axes a ds :
  prepare C (IArr a :: triples ds) axes = prepare C (IArr a :: dicts (map (fun '(da, ad, dd) => [("ad"%string, ad); ("da"%string, da); ("dd"%string, dd)]) ds)) axes.
Proof.
  assert (E : mapM (conv2 C) (triples ds) = Ok (dicts (map (fun '(da, ad, dd) => [("ad"%string, ad); ("da"%string, da); ("dd"%string, dd)]) ds))).
  { induction ds as [|((da, ad), dd) ds IH]; [reflexivity|]. cbn [map triples mapM conv2 bind]. fold (triples ds). rewrite IH. reflexivity. }
  destruct ds as [|((da, ad), dd) ds]; [reflexivity|]. unfold prepare. cbn [map dicts triples] in *. rewrite E. reflexivity.
Qed.

Lemma ravel_dicts_spec junk axes a ds : nd_wf a -> Forall dict_wf ds -> keys_fit axes a ds ->
  let es := map ssort ds in
  ravel_coeffs C junk (IArr a :: dicts ds) axes =
    Ok (ndata a ++ lflat C es, ((0, prodZ (nshape a)), loffs C (zlen (ndata a)) es), (nshape a, map (shps C) es)).
Proof.
  intros Ha Hd Hk es. unfold ravel_coeffs. rewrite prepare_dicts by auto. cbn [bind].
  destruct ds as [|d ds]; [cbn; rewrite app_nil_r; reflexivity|].
  unfold dicts. rewrite coeffs_size_spec by auto. cbn [bind]. set (D := d :: ds) in *.
  pose proof (zlen_data C a Ha) as E. pose proof (zlen_nonneg (ndata a)). pose proof (zlen_nonneg (lflat C (map ssort D))).
  assert (E1 : put1 C (tab (prodZ (nshape a) + zlen (lflat C (map ssort D))) junk) 0 (ndata a) =
    ndata a ++ skipn (List.length (ndata a)) (tab (prodZ (nshape a) + zlen (lflat C (map ssort D))) junk)).
  { apply (put1_app C [] (tab (prodZ (nshape a) + zlen (lflat C (map ssort D))) junk)). rewrite zlen_tab_max. lia. }
  rewrite E1. rewrite <- E at 2. rewrite ravel_loop_spec; auto.
  unfold zlen. rewrite skipn_length. change (Z.of_nat (List.length (lflat C (map ssort D)))) with (zlen (lflat C (map ssort D))).
  pose proof (zlen_tab (prodZ (nshape a) + zlen (lflat C (map ssort D))) junk ltac:(lia)) as E2. unfold zlen in *. lia.
Qed.

Lemma unravel_spec f out a es : nd_wf a -> Forall dict_wf es ->
  (forall d pre post, In d es -> dict_wf d -> unravel_level C (pre ++ flat C d ++ post) f (offs C (zlen pre) d) (shps C d) = Ok (out d)) ->
  unravel_coeffs C (ndata a ++ lflat C es) ((0, prodZ (nshape a)), loffs C (zlen (ndata a)) es) (nshape a, map (shps C) es) f = Ok (IArr a :: map out es).
Proof.
  intros Ha He H. unfold unravel_coeffs. cbn [fst snd].
  assert (El : forall o, List.length (loffs C o es) = List.length es) by (clear; induction es; intros; cbn; auto).
  rewrite El, map_length, Nat.eqb_refl. cbn [negb]. pose proof (take1_spec C [] (lflat C es) a Ha) as E. cbn [app] in E. rewrite zlen_nil, Z.add_0_l in E.
  rewrite E. cbn [bind]. rewrite (unravel_levels C f out es H (ndata a) He). reflexivity.
Qed.

(** Dictionaries (wavedecn, swtn): the levels come back with their keys in
    sorted order. *)
Theorem ravel_dicts_round junk axes a ds : nd_wf a -> Forall dict_wf ds -> keys_fit axes a ds ->
  exists es arr sls shs, Forall2 same_items es ds /\ Forall (fun e => Sorted key_le e) es /\
    ravel_coeffs C junk (IArr a :: dicts ds) axes = Ok (arr, sls, shs) /\
    arr = ndata a ++ flat_map (fun e => elements (map snd e)) es /\
    unravel_coeffs C arr sls shs FWavedecn = Ok (IArr a :: dicts es).
Proof.
  intros Ha Hd Hk. exists (map ssort ds). do 3 eexists. split; [|split; [|split; [apply ravel_dicts_spec; auto|split; [reflexivity|]]]].
  - clear. induction ds; cbn; constructor; auto. apply ssort_perm.
  - clear. induction ds; cbn; constructor; auto. apply ssort_sorted.
  - apply (unravel_spec FWavedecn (fun d => IDict (bands d))); auto.
    + clear - Hd. induction Hd; cbn; constructor; auto. exact (dict_wf_perm C x (ssort x) (ssort_perm x) H).
    + intros. apply unravel_wavedecn. auto.
Qed.

(** Arrays (wavedec, swt). *)
Theorem ravel_1d_round junk axes a ds : nd_wf a -> Forall (fun x => nd_wf x /\ zlen (nshape x) = 1) ds ->
  (ds <> [] -> axes_fit axes 1 (List.length (nshape a))) ->
  exists sls shs, ravel_coeffs C junk (IArr a :: map (@IArr C) ds) axes = Ok (ndata a ++ elements ds, sls, shs) /\
    unravel_coeffs C (ndata a ++ elements ds) sls shs FWavedec = Ok (IArr a :: map (@IArr C) ds).
Proof.
  intros Ha Hd Hk. set (E := map (fun x : nd C => [("d"%string, x)]) ds).
  assert (Hw : Forall dict_wf E).
  { unfold E. clear - Hd. induction Hd as [|x ds (H1 & _) _ IH]; cbn; constructor; auto. split; [repeat constructor; cbn; auto|].
    intros k y [H|[]]. congruence. }
  assert (Hf : keys_fit axes a E).
  { unfold E. destruct ds as [|x ds]; cbn; auto. exists "d"%string, x, []. split; auto. apply Hk. discriminate. }
  assert (Es : map ssort E = E) by (unfold E; rewrite map_map; apply map_ext; reflexivity).
  assert (Ef : lflat C E = elements ds).
  { unfold E, lflat, elements. rewrite flat_map_concat_map, map_map, <- flat_map_concat_map. apply flat_map_ext. intros x. unfold flat, elements. cbn. apply app_nil_r. }
  pose proof (ravel_dicts_spec junk axes a E Ha Hw Hf) as R. cbv zeta in R. rewrite Es, Ef in R.
  do 2 eexists. split.
  - unfold ravel_coeffs in *. rewrite conv_1d; [exact R|]. clear - Hd. induction Hd as [|x l (_ & H)]; constructor; auto.
  - rewrite <- Ef. replace (map (@IArr C) ds) with (map (fun d : dict (nd C) => match d with (_, x) :: _ => IArr x | [] => INone end) E)
      by (unfold E; rewrite map_map; reflexivity).
    apply unravel_spec; auto. intros d pre post Hi Hdw. unfold E in Hi. apply in_map_iff in Hi. destruct Hi as (x & <- & _).
    unfold unravel_level. rewrite (take_key_spec C _ pre post "d"%string x Hdw) by (cbn; auto). reflexivity.
Qed.

(** Triples (wavedec2, swt2). *)
Theorem ravel_2d_round junk axes a ds : nd_wf a -> Forall (fun '(da, ad, dd) => nd_wf da /\ nd_wf ad /\ nd_wf dd) ds ->
  (ds <> [] -> axes_fit axes 2 (List.length (nshape a))) ->
  exists sls shs, let arr := ndata a ++ flat_map (fun '(da, ad, dd) => ndata ad ++ ndata da ++ ndata dd) ds in
    ravel_coeffs C junk (IArr a :: triples ds) axes = Ok (arr, sls, shs) /\
    unravel_coeffs C arr sls shs FWavedec2 = Ok (IArr a :: triples ds).
Proof.
  intros Ha Hd Hk. set (E := map (fun '(da, ad, dd) => [("ad"%string, ad); ("da"%string, da); ("dd"%string, dd)]) ds).
  assert (Hw : Forall dict_wf E).
  { unfold E. clear - Hd. induction Hd as [|((da, ad), dd) ds (H1 & H2 & H3) _ IH]; cbn; constructor; auto.
    split; [repeat constructor; cbn; intuition discriminate|].
    intros k y [H|[H|[H|[]]]]; congruence. }
  assert (Hf : keys_fit axes a E).
  { unfold E. destruct ds as [|((da, ad), dd) ds]; cbn; auto. exists "ad"%string, ad. eexists. split; [reflexivity|]. apply Hk. discriminate. }
  assert (Es : map ssort E = E) by (unfold E; rewrite map_map; apply map_ext; intros ((x, y), z); reflexivity).
  assert (Ef : lflat C E = flat_map (fun '(da, ad, dd) => ndata ad ++ ndata da ++ ndata dd) ds).
  { unfold E, lflat. rewrite flat_map_concat_map, map_map, <- flat_map_concat_map. apply flat_map_ext. intros ((x, y), z). unfold flat, elements. cbn. rewrite app_nil_r. reflexivity. }
  pose proof (ravel_dicts_spec junk axes a E Ha Hw Hf) as R. cbv zeta in R. rewrite Es, Ef in R.
  do 2 eexists. cbv zeta. split.
  - unfold ravel_coeffs in *. rewrite conv_2d. exact R.
  - rewrite <- Ef. replace (triples ds) with (map (fun d : dict (nd C) => match d with [(_, ad); (_, da); (_, dd)] => ITup [Some da; Some ad; Some dd] | _ => INone end) E)
      by (unfold E, triples; rewrite map_map; apply map_ext; intros ((x, y), z); reflexivity).
    apply unravel_spec; auto. intros d pre post Hi Hdw. unfold E in Hi. apply in_map_iff in Hi. destruct Hi as (((da, ad), dd) & <- & _).
    unfold unravel_level. rewrite (take_key_spec C _ pre post "da"%string da Hdw) by (cbn; auto). cbn [bind].
    rewrite (take_key_spec C _ pre post "ad"%string ad Hdw) by (cbn; auto). cbn [bind].
    rewrite (take_key_spec C _ pre post "dd"%string dd Hdw) by (cbn; auto). reflexivity.
Qed.
End F.
