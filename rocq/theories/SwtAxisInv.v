(** swt and iswt along an axis of an array of any dimension. *)
From Coq Require Import Ascii String.
From Verif Require Import Base BaseLemmas CConv Spec Lengths Dwt DwtProofs PR Swt SwtSpec SwtProofs Nd NdSpec NdLinear Axis AxisProofs AxisProofs2 Multidim MultidimProofs MultidimFacts MultilevelNd MultilevelNdProofs SwtNd SwtNdArgs AxisOps NdSynth NdSwtSpec SwtNdBand SwtNdSlices SwtNdLevel SwtNdLevel2 SwtNdFwd SwtNdInv.

Section A1.
Variable C : CRing.
Variable fuel : nat.

Definition vec (l : list C) : nd C := mkNd [zlen l] l.
Lemma vec_wf l : nd_wf (vec l).
Proof. split; cbn; [repeat constructor; apply zlen_nonneg|lia]. Qed.
Lemma ndget_vec l i : ndget (vec l) [i] = gz l i.
Proof. unfold ndget. cbn. f_equal. lia. Qed.
Lemma nd_vec (x : nd C) N : nd_wf x -> nshape x = [N] -> x = vec (ndata x) /\ zlen (ndata x) = N.
Proof. intros (H1 & H2) E. rewrite E in H2. cbn in H2. assert (zlen (ndata x) = N) by lia. split; auto. destruct x. cbn in *. subst. reflexivity. Qed.

Lemma wax_vec l h (x : list C) : wax 0 l h (vec x) = vec (swt_step l h x).
Proof.
  assert (Z1 : zlen (swt_step l h x) = zlen x) by (unfold swt_step; apply zlen_tab, zlen_nonneg).
  apply nd_ext.
  - apply wax_wf, vec_wf.
  - apply vec_wf.
  - rewrite wax_shape. cbn. rewrite Z1. reflexivity.
  - rewrite wax_shape. cbn [nshape vec]. intros idx V. destruct idx as [|i [|j t]]; cbn in V; try tauto. rewrite ndget_vec.
    unfold wax. rewrite ndget_along by (cbn; auto). unfold line. cbn [nshape vec setn]. change (nthz 0 [zlen x]) with (zlen x). change (nthz 0 [i]) with i.
    f_equal. f_equal. etransitivity; [|apply tab_gz]. apply tab_ext. intros t Ht'. apply ndget_vec.
Qed.

Lemma approx_vec h0 s (x : list C) : forall n, ndswt_approx C 0 h0 s n (vec x) = vec (swt_approx h0 s n x).
Proof. induction n as [|n IH]; cbn [ndswt_approx swt_approx]; auto. rewrite IH, wax_vec. reflexivity. Qed.
Lemma detail_vec h0 h1 s (x : list C) n : ndswt_detail C 0 h0 h1 s n (vec x) = vec (swt_detail h0 h1 s n x).
Proof. unfold ndswt_detail, swt_detail. rewrite approx_vec, wax_vec. reflexivity. Qed.

Definition wrap (l : list C) : sarr C := of_nd (vec l).
Definition wrap_item (it : swt_item (list C)) : swt_item (sarr C) :=
  match it with SPair a d => SPair (wrap a) (wrap d) | SArr d => SArr (wrap d) end.
Lemma out_vec trim h0 h1 s n (x : list C) : ndswt_out C trim 0 h0 h1 s n (vec x) = map wrap_item (swt_out trim h0 h1 s n x).
Proof.
  unfold ndswt_out, swt_out. destruct trim; unfold swt_trim, swt_full; cbn [app map].
  - rewrite approx_vec. f_equal. rewrite map_map. apply map_ext. intros j. unfold ndswt_item. rewrite detail_vec. reflexivity.
  - rewrite map_map. apply map_ext. intros j. unfold ndswt_item. rewrite detail_vec, approx_vec. reflexivity.
Qed.

Definition norm_ax (n axis : Z) : Z := if axis <? 0 then axis + n else axis.

Theorem py_swt_spec junk (data : sarr C) w level s axis (ax : nat) trim norm :
  let N := nthz ax (sshape data) in let w' := norm_w norm w in
  sarr_ok C data -> 1 <= ndim data <= 64 -> norm_ax (ndim data) axis = Z.of_nat ax -> (ax < List.length (sshape data))%nat ->
  wf_bank w -> 1 <= N -> 0 <= s -> 1 <= level ->
  (2 ^ (s + level) | N) -> swt_resources fuel N (dec_len w) (s + level) -> prodZ (sshape data) < max_alloc ->
  py_swt fuel junk data w (Some level) s axis trim norm
  = Ok (ndswt_out C trim ax (dec_lo w') (dec_hi w') s (Z.to_nat level) (val C data)).
Proof.
  intros N w' Hok Hn Hax Hlt Hw HN Hs HL Hd Hr Hp. unfold py_swt.
  assert (Hx : nd_wf (val C data)) by (apply val_wf; auto). assert (Sx : nshape (val C data) = sshape data) by apply nshape_val.
  assert (En : ndim (of_nd (val C data)) = ndim data) by (unfold ndim; cbn [of_nd sshape]; rewrite Sx; auto).
  rewrite En. change (if axis <? 0 then axis + ndim data else axis) with (norm_ax (ndim data) axis). rewrite Hax.
  replace ((0 <=? Z.of_nat ax) && (Z.of_nat ax <? ndim data)) with true by (unfold ndim, zlen; lia). cbn [negb bind].
  fold w'. assert (Hw' : wf_bank w') by (apply norm_w_wf; auto). assert (Hr' : swt_resources fuel N (dec_len w') (s + level)) by (unfold w'; rewrite norm_w_len; auto).
  destruct (Z.eqb_spec (ndim data) 1) as [E1|E1].
  - assert (E2 : exists M, sshape data = [M]) by (unfold ndim, zlen in E1; destruct (sshape data) as [|M [|? ?]]; cbn [List.length] in E1; try lia; eauto).
    destruct E2 as (M & EM). assert (ax = 0%nat) by (rewrite EM in Hlt; cbn in Hlt; lia). subst ax. unfold N in *. rewrite EM in *. change (nthz 0 [M]) with M in *.
    destruct (nd_vec (val C data) M Hx Sx) as (Ev & Lv). cbn [of_nd smem].
    rewrite swt_single_spec; rewrite ?Lv; auto. cbn [bind]. f_equal. etransitivity; [symmetry; apply out_vec|]. rewrite <- Ev. reflexivity.
  - rewrite to_axis_ok by (unfold ndim, zlen in Hn; lia). cbn [bind].
    rewrite swt_axis_spec; cbn [of_nd sshape]; rewrite ?Sx; auto; [|apply of_nd_ok; auto].
    rewrite (val_of_nd C (val C data)) by auto. reflexivity.
Qed.

Lemma approx_plan ax (w : wavelet C) s x : forall n, swtn_approx [(ax, w)] s n x = ndswt_approx C ax (dec_lo w) s n x.
Proof. induction n as [|n IH]; cbn [swtn_approx ndswt_approx low_band]; auto. rewrite IH. reflexivity. Qed.

Definition as_item (trim : bool) (it : swt_item (sarr C)) : swtn_item C :=
  match it with SPair a d => NDict [("a", a); ("d", d)]%string | SArr d => NDict [("d", d)]%string end.
Lemma items_as trim ax (w : wavelet C) x j : (1 <= j)%nat ->
  as_item trim (ndswt_item C trim ax (dec_lo w) (dec_hi w) 0 x j) = swtn_level trim [(ax, w)] 0 x j.
Proof.
  intros Hj. unfold swtn_level, ndswt_item. rewrite approx_plan. destruct j as [|j]; [lia|].
  replace (S j - 1)%nat with j by lia. destruct trim; cbn [as_item List.length ad_keys map app tl swt_band]; unfold ndswt_detail; replace (S j - 1)%nat with j by lia; reflexivity.
Qed.

Theorem py_iswt_spec junk half (x : nd C) w w' axis (ax : nat) trim norm norm' n :
  let wf := norm_w norm w in let wi := norm_w norm' w' in
  half [+] half = r1 -> nd_wf x -> (1 <= n)%nat -> norm_ax (zlen (nshape x)) axis = Z.of_nat ax -> (ax < List.length (nshape x))%nat ->
  pr_pair C wf wi -> wf_bank wf -> 1 <= nthz ax (nshape x) -> (2 ^ Z.of_nat n | nthz ax (nshape x)) -> resources fuel (nthz ax (nshape x)) (dec_len w') ->
  prodZ (nshape x) < max_alloc ->
  py_iswt fuel junk half (ndswt_out C trim ax (dec_lo wf) (dec_hi wf) 0 n x) w' norm' axis = Ok (of_nd x).
Proof.
  intros wf wi Hh Hx Hn Hax Hlt HPP Hwf HN Hd Hr Hp.
  assert (Nz : exists m, n = S m) by (destruct n; [lia|eauto]). destruct Nz as (m & Em).
  assert (HT : exists c0 rest, ndswt_out C trim ax (dec_lo wf) (dec_hi wf) 0 n x = c0 :: rest /\
     match c0 with SPair a _ => a | SArr a => a end = of_nd (ndswt_approx C ax (dec_lo wf) 0 n x) /\
     match c0 with SPair _ _ => trim = false | SArr _ => trim = true /\ rest = map (ndswt_item C trim ax (dec_lo wf) (dec_hi wf) 0 x) (rev (seq 1 n)) end).
  { unfold ndswt_out. destruct trim; cbn [app].
    - eexists _, _. split; [reflexivity|]. auto.
    - rewrite Em, seq_S, rev_app_distr. cbn [rev app map]. eexists _, _. split; [reflexivity|]. split; reflexivity. }
  destruct HT as (c0 & rest & EO & EA & ET). unfold py_iswt. rewrite EO. cbv zeta. rewrite EA.
  assert (En : ndim (of_nd (ndswt_approx C ax (dec_lo wf) 0 n x)) = zlen (nshape x)) by (unfold ndim; cbn [of_nd sshape]; rewrite ndswt_shape; auto).
  rewrite En. destruct (Z.ltb_spec 1 (zlen (nshape x))) as [H1|H1].
  - assert (EM : (match c0 with
        | SPair _ _ => mapM (fun it => match it with SPair a d => Ok (NDict [("a"%string, a); ("d"%string, d)]) | _ => Err ValueError end) (c0 :: rest)
        | SArr a => ds <- mapM (fun it => match it with SArr d => Ok (NDict [("d"%string, d)]) | _ => Err ValueError end) rest ;; Ok (NArr a :: ds)
        end) = Ok (swtn_result trim [(ax, wf)] 0 n x)).
    { unfold swtn_result. rewrite approx_plan.
      assert (EL : map (swtn_level trim [(ax, wf)] 0 x) (rev (seq 1 n)) = map (as_item trim) (map (ndswt_item C trim ax (dec_lo wf) (dec_hi wf) 0 x) (rev (seq 1 n)))).
      { rewrite map_map. apply map_ext_in. intros j Hj. apply in_rev, in_seq in Hj. symmetry. apply items_as. lia. }
      rewrite EL. destruct c0 as [a d|a].
      - subst trim. cbn [app]. unfold ndswt_out in EO. cbn [app] in EO. rewrite <- EO. apply mapM_ok. intros it Hi. apply in_map_iff in Hi. destruct Hi as (j & <- & _). reflexivity.
      - destruct ET as (-> & ->). rewrite (mapM_ok _ (as_item true)).
        + cbn [bind app]. rewrite EA. reflexivity.
        + intros it Hi. apply in_map_iff in Hi. destruct Hi as (j & <- & _). reflexivity. }
    rewrite EM. cbn [bind].
    apply (iswtn_swtn_plan C fuel junk half (One w') (Some [axis]) trim norm norm' [(ax, w)] [(ax, w')] x n); auto.
    + split; [|reflexivity]. cbn [default_axes norm_axes map fst]. f_equal. exact Hax.
    + discriminate.
    + split; [apply Hx|]. split; auto. split; [repeat constructor; cbn; tauto|]. intros p [<-|[]]. cbn [fst snd]. fold wi.
      split; auto. split; auto. split; auto. split; [apply HPP|]. unfold wi. rewrite norm_w_len. auto.
    + constructor; [|constructor]. cbn [fst snd]. split; auto.
    + intros p [<-|[]]. cbn [snd]. auto.
  - assert (E2 : exists M, nshape x = [M]).
    { unfold zlen in H1. destruct (nshape x) as [|M [|? ?]]; cbn [List.length] in H1, Hlt; try lia; eauto. }
    destruct E2 as (M & E2). rewrite E2 in *. assert (ax = 0%nat) by (cbn in Hlt; lia). subst ax. change (nthz 0 [M]) with M in *.
    change (zlen [M]) with 1 in *. cbn [Z.eqb Pos.eqb negb].
    replace (negb (axis =? 0) && negb (axis =? -1)) with false by (unfold norm_ax in Hax; destruct (Z.ltb_spec axis 0); lia).
    destruct (nd_vec x M Hx E2) as (Ev & Lv). rewrite <- EO.
    assert (EI : map (fun it => match it with SPair a d => SPair (smem (of_nd (val C a))) (smem (of_nd (val C d))) | SArr d => SArr (smem (of_nd (val C d))) end)
       (ndswt_out C trim 0 (dec_lo wf) (dec_hi wf) 0 n x) = swt_out trim (dec_lo wf) (dec_hi wf) 0 n (ndata x)).
    { rewrite Ev at 1. rewrite out_vec, map_map. etransitivity; [|apply map_id]. apply map_ext. intros it.
      assert (V : forall l, smem (of_nd (val C (wrap l))) = l) by (intros l; unfold wrap; rewrite val_of_nd by apply vec_wf; reflexivity).
      destruct it; cbn [wrap_item]; rewrite ?V; reflexivity. }
    rewrite EI.
    assert (EW : iswt fuel half (swt_out trim (dec_lo wf) (dec_hi wf) 0 n (ndata x)) w' norm' = iswt fuel half (swt_out trim (dec_lo wf) (dec_hi wf) 0 n (ndata x)) wi None).
    { unfold wi. destruct norm'; reflexivity. }
    rewrite EW, iswt_out; rewrite ?Lv; auto; [|unfold wi; rewrite norm_w_len; auto].
    cbn [bind]. do 2 f_equal. symmetry. exact Ev.
Qed.

Theorem py_iswt_swt junk half (data : sarr C) w level axis (ax : nat) trim norm :
  let N := nthz ax (sshape data) in
  half [+] half = r1 -> match norm with Some (sq2, isq2) => sq2 [*] isq2 = r1 | None => True end ->
  sarr_ok C data -> 1 <= ndim data <= 64 -> norm_ax (ndim data) axis = Z.of_nat ax -> (ax < List.length (sshape data))%nat ->
  pr_wavelet w -> 1 <= N -> 1 <= level -> (2 ^ level | N) -> swt_resources fuel N (dec_len w) level -> prodZ (sshape data) < max_alloc ->
  exists cs, py_swt fuel junk data w (Some level) 0 axis trim (option_map snd norm) = Ok cs /\
    py_iswt fuel junk half cs w (option_map fst norm) axis = Ok (of_nd (val C data)).
Proof.
  intros N Hh Hn Hok Hnd Hax Hlt Hpr HN HL Hd Hr Hp. eexists. split.
  - apply (py_swt_spec junk data w level 0 axis ax trim (option_map snd norm)); auto using pr_wf; lia.
  - assert (PP : plan_pair C (norm_plan (option_map snd norm) [(ax, w)]) (norm_plan (option_map fst norm) [(ax, w)])).
    { apply plan_pair_norm; auto. intros p [<-|[]]. auto. }
    inversion PP as [|? ? ? ? (_ & PP1) _]; subst. cbn [snd] in PP1.
    apply py_iswt_spec with (w' := w); rewrite ?nshape_val; auto using val_wf, norm_w_wf, pr_wf; try lia.
    + rewrite Z2Nat.id by lia. auto.
    + apply Hr.
Qed.

End A1.
