(** The value of idwtn on any full dictionary, and its inverse property on even
    sizes as an equation between arrays. *)
From Coq Require Import Ascii String Permutation.
From Verif Require Import Base BaseLemmas CConv Spec ExtLemmas Lengths LengthsProofs Dwt DwtProofs PR Linear Swt SwtSpec SwtProofs Nd NdSpec NdLinear Axis AxisProofs AxisProofs2 Multidim MultidimProofs MultidimFacts SwtNd AxisOps.

Section SY.
Variable C : CRing.
Add Ring Cring_ring_sy : (rth C).
Notation step := (step C).

Definition syn (s : step) (a d : nd C) : nd C :=
  ndadd (sax (st_ax C s) (st_m C s) (rec_lo (st_w C s)) a) (sax (st_ax C s) (st_m C s) (rec_hi (st_w C s)) d).
Fixpoint synth (plan : list step) (Y : string -> nd C) : nd C :=
  match plan with
  | [] => Y EmptyString
  | s :: p => syn s (synth p (fun k => Y (String "a"%char k))) (synth p (fun k => Y (String "d"%char k)))
  end.
Lemma synth_snoc p : forall s Y, synth (p ++ [s]) Y = synth p (fun k => syn s (Y (append k "a"%string)) (Y (append k "d"%string))).
Proof. induction p as [|t p IH]; intros s Y; cbn [app synth append]; auto. rewrite !IH. reflexivity. Qed.
Lemma synth_ext p : forall Y Y', (forall k, In k (ad_keys (List.length p)) -> Y k = Y' k) -> synth p Y = synth p Y'.
Proof.
  induction p as [|t p IH]; intros Y Y' H; cbn [synth]; [apply H; left; auto|].
  f_equal; apply IH; intros k Hk; apply H; cbn [List.length ad_keys]; apply in_or_app; [left|right]; apply in_map; auto.
Qed.

Definition ssh (s : step) (sh : list Z) : list Z := setn (st_ax C s) (rec_len (st_m C s) (nthz (st_ax C s) sh) (dec_len (st_w C s))) sh.
Definition syn_good (fuel : nat) (B sh : list Z) (plan : list step) : Prop :=
  prodZ B < max_alloc /\ List.length B = List.length sh /\ shape_ok sh /\ (forall k, nthz k sh <= nthz k B) /\
  NoDup (map (st_ax C) plan) /\
  forall s, In s plan -> (st_ax C s < List.length sh)%nat /\ idwt_pre C fuel (st_w C s) (st_m C s) (nthz (st_ax C s) sh) /\
    rec_len (st_m C s) (nthz (st_ax C s) sh) (dec_len (st_w C s)) <= nthz (st_ax C s) B.

Lemma syn_good_perm fuel B sh p q : Permutation p q -> syn_good fuel B sh p -> syn_good fuel B sh q.
Proof.
  intros HP (H1 & H2 & H3 & H4 & H5 & H6). refine (conj H1 (conj H2 (conj H3 (conj H4 (conj _ _))))).
  - apply (Permutation_NoDup (l := map (st_ax C) p)); auto. apply Permutation_map. auto.
  - intros s Hs. apply H6; apply Permutation_in with q; auto; apply Permutation_sym; auto.
Qed.
Lemma syn_good_step fuel B sh s p : syn_good fuel B sh (s :: p) -> syn_good fuel B (ssh s sh) p.
Proof.
  intros (H1 & H2 & H3 & H4 & H5 & H6). destruct (H6 s (or_introl eq_refl)) as (A1 & (W & R & N & L) & A3). cbn [map] in H5. inversion H5; subst.
  unfold ssh. refine (conj H1 (conj _ (conj _ (conj _ (conj _ _))))); auto.
  - rewrite setn_length. auto.
  - apply shape_ok_setn; auto.
  - intros k. destruct (Nat.eq_dec k (st_ax C s)) as [->|E]; [rewrite nthz_setn by auto; auto|rewrite nthz_setn_ne by auto; auto].
  - intros t Ht. assert (E : st_ax C t <> st_ax C s) by (intros E; match goal with H : ~ In _ _ |- _ => apply H end; rewrite <- E; apply in_map; auto).
    rewrite setn_length, !nthz_setn_ne by auto. apply H6. right; auto.
Qed.

Lemma wf_flens (w : wavelet C) : wf_bank w -> zlen (rec_lo w) = dec_len w /\ zlen (rec_hi w) = dec_len w.
Proof. intros (H1 & H2 & H3 & H4 & H5). unfold dec_len in *. lia. Qed.
Lemma syn_shape s a d : wf_bank (st_w C s) -> nshape (syn s a d) = ssh s (nshape a).
Proof. intros W. unfold syn, ndadd, sax, ssh. destruct (wf_flens _ W) as (E & _). cbn [nshape ndtab along]. rewrite E. reflexivity. Qed.
Lemma syn_wf s a d : nd_wf a -> wf_bank (st_w C s) -> 0 <= rec_len (st_m C s) (nthz (st_ax C s) (nshape a)) (dec_len (st_w C s)) ->
  nd_wf (syn s a d).
Proof.
  intros Ha W L. unfold syn, ndadd. apply ndtab_wf. unfold sax. rewrite along_shape. destruct (wf_flens _ W) as (-> & _).
  apply shape_ok_setn; auto. apply Ha.
Qed.
Lemma synth_shape p : forall Y sh, (forall k, In k (ad_keys (List.length p)) -> nshape (Y k) = sh) ->
  (forall s, In s p -> wf_bank (st_w C s)) -> nshape (synth p Y) = fold_left (fun sh s => ssh s sh) (rev p) sh.
Proof.
  induction p as [|s p IH] using rev_ind; intros Y sh HY HW.
  - apply HY. left; auto.
  - rewrite synth_snoc, rev_app_distr. cbn [rev app fold_left]. apply IH.
    + intros k Hk. rewrite syn_shape by (apply HW; apply in_or_app; right; left; auto). f_equal. apply HY.
      rewrite app_length. cbn [List.length]. rewrite Nat.add_1_r. apply ad_keys_snoc. auto.
    + intros t Ht. apply HW. apply in_or_app; auto.
Qed.

Theorem idwtn_loop_synth fuel junk plan : forall (Y : string -> nd C) (D : dict (option (sarr C))) B sh,
  syn_good fuel B sh plan ->
  (forall k, In k (ad_keys (List.length plan)) -> holds C D k (Y k) /\ nshape (Y k) = sh) ->
  exists r, foldM (idwtn_step fuel junk (zlen sh)) D (rev (combine (seq 0 (List.length (map (to_z C) plan))) (map (to_z C) plan))) = Ok r /\
    holds C r EmptyString (synth plan Y).
Proof.
  induction plan as [|s p IH] using rev_ind; intros Y D B sh Hg HD.
  - exists D. split; [reflexivity|]. apply (HD EmptyString). left; reflexivity.
  - rewrite map_app. cbn [map]. rewrite combine_seq_app, rev_app_distr. cbn [List.length seq combine rev app foldM].
    assert (Hg' : syn_good fuel B sh (s :: p)).
    { apply (syn_good_perm fuel B sh (p ++ [s])); auto. apply Permutation_sym, Permutation_cons_append. }
    pose proof (syn_good_step _ _ _ _ _ Hg') as Hg1.
    destruct Hg' as (G1 & G2 & G3 & G4 & G5 & G6). destruct (G6 s (or_introl eq_refl)) as (A1 & A2 & A3).
    assert (EL : List.length (p ++ [s]) = S (List.length p)) by (rewrite app_length; cbn; lia).
    set (Y' := fun k => syn s (Y (append k "a"%string)) (Y (append k "d"%string))).
    assert (E : idwtn_step fuel junk (zlen sh) D (List.length (map (to_z C) p), to_z C s)
      = Ok (map (fun k => (k, Some (of_nd (Y' k)))) (ad_keys (List.length p)))).
    { unfold idwtn_step, to_z. unfold Y', syn. destruct s as [ax [w m]]. cbn [st_ax st_w st_m fst snd] in *.
      replace ((Z.of_nat ax <? 0) || (zlen sh <=? Z.of_nat ax)) with false by (unfold zlen; lia).
      rewrite map_length. apply mapM_ok. intros k Hk.
      destruct (ad_keys_snoc _ _ Hk) as (Ka & Kd).
      destruct (HD (append k "a")%string) as ((sa & Ga & Oa & Va) & Sa); [rewrite EL; assumption|].
      destruct (HD (append k "d")%string) as ((sd & Gd & Od & Vd) & Sd); [rewrite EL; assumption|].
      rewrite Ga, Gd. rewrite Nat2Z.id.
      rewrite (idwt_axis_spec C fuel junk (Some sa) (Some sd) w m ax sh).
      - cbn [bind option_map sax2]. rewrite Va, Vd. reflexivity.
      - cbn [opt_list app]. intros x [<-|[<-|[]]]; split; auto; rewrite <- (nshape_val C); congruence.
      - auto.
      - auto.
      - eapply box_bound; eauto. pose proof A2 as (_ & _ & _ & ?). lia. }
    rewrite E. cbn [bind].
    assert (Wk : forall k, In k (ad_keys (List.length p)) -> nd_wf (Y' k)).
    { intros k Hk. destruct (ad_keys_snoc _ _ Hk) as (Ka & _). destruct (HD (append k "a")%string) as ((sa & Ga & Oa & Va) & Sa); [rewrite EL; assumption|].
      destruct A2 as (W & _ & _ & L). apply syn_wf; auto.
      - rewrite <- Va. apply val_wf. auto.
      - rewrite Sa. auto. }
    destruct (IH Y' (map (fun k => (k, Some (of_nd (Y' k)))) (ad_keys (List.length p))) B (ssh s sh)) as (r & Er & Hr); auto.
    + intros k Hk. split.
      * exists (of_nd (Y' k)). split; [apply (dget_map (fun k => Some (of_nd (Y' k)))); auto|]. split; [apply of_nd_ok; auto|apply val_of_nd; auto].
      * unfold Y'. rewrite syn_shape by apply A2. f_equal. apply HD. rewrite EL. apply ad_keys_snoc. auto.
    + exists r. unfold ssh, zlen in Er. rewrite setn_length in Er. split; [exact Er|]. rewrite synth_snoc. exact Hr.
Qed.

(** idwtn on a full dictionary of arrays of one shape. *)
Theorem idwtn_synth fuel junk (D : dict (sarr C)) (Y : string -> nd C) w m axes plan B sh :
  syn_good fuel B sh plan -> resolves C (zlen sh) w m (default_axes (zlen sh) axes) plan ->
  (forall k v, In (k, v) D -> In k (ad_keys (List.length plan)) /\ sarr_ok C v /\ sshape v = sh /\ val C v = Y k) ->
  (forall k, In k (ad_keys (List.length plan)) -> exists v, dget D k = Some v) ->
  exists r, idwtn fuel junk (map (fun '(k, v) => (k, Some v)) D) w m axes = Ok (Some r) /\ sarr_ok C r /\ val C r = synth plan Y.
Proof.
  intros Hg (R1 & R2 & R3) HD Hfull.
  assert (Hne : D <> []).
  { destruct (ad_keys_cons (List.length plan)) as (k0 & t & E). destruct (Hfull k0) as (v & Hv); [rewrite E; left; auto|].
    intros ->. discriminate. }
  assert (HN : match axes with None => Z.of_nat (List.length plan) | Some _ => zlen sh end = zlen sh).
  { destruct axes; [auto|].
    assert (El : List.length (norm_axes (zlen sh) (default_axes (zlen sh) None)) = List.length plan)
      by (rewrite R1, map_length; auto).
    unfold norm_axes, default_axes in El. rewrite map_length in El.
    assert (zlen (tab (zlen sh) (fun i => i)) = zlen sh) by (apply zlen_tab; unfold zlen; lia).
    unfold zlen in *. lia. }
  destruct (idwtn_loop_synth fuel junk plan Y (map (fun '(k, v) => (k, Some v)) D) B sh) as (r & Er & (o & Ho & Oo & Vo)); auto.
  { intros k Hk. destruct (Hfull k Hk) as (v & Hv). destruct (HD k v) as (K1 & K2 & K3 & K4); [apply dget_In; auto|].
    split; [|rewrite <- K4, nshape_val; auto]. exists v. rewrite dget_some, Hv. auto. }
  exists o. split; auto.
  rewrite (idwtn_full C fuel junk D (List.length plan) sh).
  - cbv zeta. rewrite HN.
    assert (El : List.length (norm_axes (zlen sh) (default_axes (zlen sh) axes)) = List.length plan)
      by (rewrite R1, map_length; auto).
    rewrite El, R3. cbn [bind]. rewrite R2. cbn [bind]. rewrite R1, combine_plan. rewrite Er. cbn [bind]. rewrite Ho. reflexivity.
  - auto.
  - intros k v Hi. destruct (HD k v Hi) as (Hk & Ov & Sv & Vv). split; [apply ad_keys_length; auto|].
    split; [apply (ad_keys_ad _ _ Hk)|auto].
Qed.

(** ** Additivity *)
Lemma along_ndadd ax n N (T : list C -> list C) (x y : nd C) : nd_wf x -> nd_wf y -> nshape y = nshape x -> 0 <= n ->
  (ax < List.length (nshape x))%nat -> nthz ax (nshape x) = N -> linop C N n T ->
  along ax n T (ndadd x y) = ndadd (along ax n T x) (along ax n T y).
Proof.
  intros Hx Hy Hs Hn Hax HN HT. unfold ndadd at 2. rewrite along_shape. unfold along at 1. cbn [nshape ndadd ndtab].
  apply ndtab_ext; [apply shape_ok_setn; auto; apply Hx|]. intros idx V.
  assert (Lx : zlen (line x ax idx) = N) by (rewrite zlen_line; auto).
  assert (Ly : zlen (line y ax idx) = N) by (rewrite zlen_line by auto; rewrite Hs; auto).
  rewrite !ndget_along by (rewrite ?Hs; auto).
  assert (E : line (ndadd x y) ax idx = vlin r1 (line x ax idx) r1 (line y ax idx)).
  { unfold line at 1. cbn [nshape ndadd ndtab]. apply list_ext; [rewrite zlen_tab by (apply shape_ok_nth; apply Hx); rewrite zlen_vlin by congruence; congruence|]. rewrite zlen_tab by (apply shape_ok_nth; apply Hx). intros i Hi. rewrite gz_tab by auto. rewrite gz_vlin by congruence. rewrite HN in Hi.
    assert (Vi : valid (nshape x) (setn ax i idx)).
    { rewrite <- (setn_nthz ax (nshape x)). rewrite <- (setn_setn ax _ n). apply valid_setn; auto. lia. }
    unfold ndadd. rewrite ndget_ndtab by auto. unfold line. rewrite Hs, HN, !gz_tab by auto. ring. }
  assert (Hv : 0 <= nthz ax idx < n).
  { pose proof (valid_nth _ _ ax V) as Q. rewrite setn_length, nthz_setn in Q by auto. apply Q. auto. }
  destruct HT as (HT1 & HT2). rewrite E, HT2 by auto. rewrite gz_vlin by (rewrite !HT1 by auto; reflexivity). ring.
Qed.

End SY.
