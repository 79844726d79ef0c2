(** Generic facts about strided assignments and about rolls, and the exact
    inverse of the periodized decomposition of even sizes. *)
From Coq Require Import Ascii String Permutation.
From Verif Require Import Base BaseLemmas CConv Spec ExtLemmas Lengths LengthsProofs Dwt DwtProofs PR Linear Swt SwtSpec SwtProofs Nd NdSpec NdLinear Axis AxisProofs AxisProofs2 Multidim MultidimProofs MultidimFacts MultilevelNd SwtNd AxisOps NdSynth NdSwtSpec SwtNdBand.
From Verif Require FswAxis CwtNd.

Definition hits (sh idx : list Z) (sl : list slice) : bool :=
  forallb (fun '(n, (i, s)) => slice_hit n i s) (combine sh (combine idx sl)).
Definition posl (idx : list Z) (sl : list slice) : list Z := map (fun '(i, s) => slice_pos i s) (combine idx sl).

Lemma hit_pos1 n s i : sl_ok n s -> 0 <= i < n -> slice_hit n i s = true ->
  0 <= slice_pos i s < slice_len n s /\ slice_start s + slice_step s * slice_pos i s = i.
Proof.
  destruct s as [|a b st]; unfold slice_pos; cbn [sl_ok slice_hit slice_len slice_start slice_step]; intros H Hi Hh.
  - rewrite Z.div_1_r. lia.
  - destruct H as (H1 & H2 & H3). apply andb_prop in Hh. destruct Hh as (Hh & Hm). apply andb_prop in Hh. destruct Hh as (Ha & Hb).
    apply Z.leb_le in Ha. apply Z.ltb_lt in Hb. apply Z.eqb_eq in Hm.
    assert (E : i - a = st * ((i - a) / st)) by (apply Z_div_exact_full_2; lia).
    split; [|lia]. split; [apply Z.div_pos; lia|]. rewrite Z.min_l by lia.
    assert ((i - a) / st + 1 <= (b - a + st - 1) / st).
    { replace ((i - a) / st + 1) with ((i - a + 1 * st) / st) by (rewrite Z.div_add by lia; lia). apply Z.div_le_mono; lia. }
    lia.
Qed.
Lemma hit_pos sh : forall sl idx, Forall2 sl_ok sh sl -> valid sh idx -> hits sh idx sl = true ->
  valid (sel_shape sh sl) (posl idx sl) /\ sl_off sl (posl idx sl) = idx.
Proof.
  unfold hits, posl, sel_shape. induction sh as [|n sh IH]; intros sl idx H V Hh; inversion H; subst; destruct idx as [|i idx]; cbn in V; try tauto.
  - cbn [combine forallb map] in *. destruct V as (V1 & V2). apply andb_prop in Hh. destruct Hh as (Hh1 & Hh2).
    destruct (hit_pos1 n y i) as (P1 & P2); auto. destruct (IH l' idx) as (I1 & I2); auto.
    split; [split; auto|]. cbn [sl_off]. f_equal; auto.
Qed.

Lemma nthz_sl_off sl : forall idx k, (k < List.length sl)%nat -> List.length idx = List.length sl ->
  nthz k (sl_off sl idx) = slice_start (nth k sl SAll) + slice_step (nth k sl SAll) * nthz k idx.
Proof.
  induction sl as [|s sl IH]; intros [|i idx] [|k] Hk Hl; cbn [List.length] in Hk, Hl; try lia; [reflexivity|].
  cbn [sl_off]. change (nthz (S k) (?a :: ?b)) with (nthz k b). apply IH; lia.
Qed.
Lemma sls_ok sh L : (forall p, In p L -> sl_ok (nthz (fst p) sh) (snd p)) -> Forall2 sl_ok sh (sls_of (List.length sh) L).
Proof.
  unfold sls_of. assert (G : Forall2 sl_ok sh (repeat SAll (List.length sh))) by (induction sh; cbn; constructor; cbn; auto).
  revert G. generalize (repeat SAll (List.length sh)). induction L as [|[k v] L IH]; intros sl G H; cbn [fold_left]; auto.
  apply IH; [|intros p Hp; apply H; right; auto]. specialize (H (k, v) (or_introl eq_refl)). cbn [fst snd] in H. clear IH.
  revert k H. induction G; intros [|k] HH; cbn [set_slice]; constructor; auto.
Qed.
Lemma nth_sls_in n L : forall p, NoDup (map fst L) -> In p L -> (fst p < n)%nat -> nth (fst p) (sls_of n L) SAll = snd p.
Proof.
  unfold sls_of. assert (G : forall sl p, NoDup (map fst L) -> In p L -> (fst p < List.length sl)%nat ->
    nth (fst p) (fold_left (fun sl '(k, v) => set_slice k v sl) L sl) SAll = snd p).
  { assert (N : forall L sl k, ~ In k (map fst L) -> nth k (fold_left (fun sl '(k, v) => set_slice k v sl) L sl) SAll = nth k sl SAll).
    { induction L0 as [|[k0 v0] L0 IH]; intros sl k H; cbn [fold_left]; auto. cbn [map fst In] in H. rewrite IH by tauto.
      rewrite nth_set_slice. destruct (Nat.eqb_spec k k0); [subst; tauto|reflexivity]. }
    induction L as [|[k v] L IH]; intros sl p Hd Hi Hl; cbn [In] in Hi; [tauto|]. cbn [map fst] in Hd. inversion Hd; subst. cbn [fold_left].
    destruct Hi as [<- | Hi].
    - cbn [fst snd] in *. rewrite N by auto. rewrite nth_set_slice, Nat.eqb_refl. destruct (Nat.ltb_spec k (List.length sl)); [reflexivity|lia].
    - apply IH; auto. rewrite set_slice_length. auto. }
  intros p Hd Hi Hl. apply G; auto. rewrite repeat_length. auto.
Qed.
Lemma nth_sls_ne n L k : ~ In k (map fst L) -> nth k (sls_of n L) SAll = SAll.
Proof.
  unfold sls_of. intros H. transitivity (nth k (repeat SAll n) SAll); [|apply nth_repeat].
  revert H. generalize (repeat SAll n). induction L as [|[k0 v0] L IH]; intros sl H; cbn [fold_left]; auto.
  cbn [map fst In] in H. rewrite IH by tauto. rewrite nth_set_slice. destruct (Nat.eqb_spec k k0); [subst; tauto|reflexivity].
Qed.
Lemma hits_iff sh : forall idx sl, List.length idx = List.length sh -> List.length sl = List.length sh ->
  (hits sh idx sl = true <-> forall k, (k < List.length sh)%nat -> slice_hit (nthz k sh) (nthz k idx) (nth k sl SAll) = true).
Proof.
  unfold hits. induction sh as [|n sh IH]; intros [|i idx] [|s sl] H1 H2; cbn [List.length] in H1, H2; try lia.
  - cbn. split; auto. intros _ k Hk. lia.
  - cbn [combine forallb]. rewrite andb_true_iff, IH by lia. split.
    + intros (Ha & Hb) [|k] Hk; [exact Ha|]. apply Hb. cbn in Hk. lia.
    + intros H. split; [apply (H O); cbn; lia|]. intros k Hk. apply (H (S k)). cbn. lia.
Qed.

Section SL.
Variable C : CRing.
Add Ring Cring_ring_snl : (rth C).

(** ** Rolls *)
Lemma ndroll1_along ax (x : nd C) : nd_wf x -> (ax < List.length (nshape x))%nat -> ndroll1 ax x = along ax (nthz ax (nshape x)) (roll 1) x.
Proof.
  intros Hx Hax. unfold ndroll1, along. rewrite setn_nthz. apply ndtab_ext; [apply Hx|]. intros idx V.
  pose proof (valid_nth _ _ ax V Hax) as Hb. unfold roll. rewrite zlen_line by auto. rewrite gz_tab by auto.
  unfold line. rewrite gz_tab by (apply Z.mod_pos_bound; lia). reflexivity.
Qed.
Lemma rolls_aps (l : Z) (x0 : nd C) (L : list (nat * wavelet C * (Z * Z))) (n : Z) : forall y, nd_wf y ->
  NoDup (map (q_ax C) L) ->
  (forall q, In q L -> (q_ax C q < List.length (nshape y))%nat /\ 1 <= nthz (q_ax C q) (nshape y) /\
     nthz (q_ax C q) (nshape y) = nthz (q_ax C q) (nshape x0) / 2 ^ (l - 1)) ->
  fold_left (fun x '(o, ax) => if o =? 0 then x else ndroll1 (Z.to_nat (if ax <? 0 then ax + n else ax)) x)
    (combine (map (q_o C) L) (map (fun q => Z.of_nat (q_ax C q)) L)) y = aps C (map (rpop C l x0) L) y.
Proof.
  rewrite combine_map. induction L as [|q L IH]; intros y Hy Hd H; cbn [map fold_left aps]; auto.
  cbn [map] in Hd. inversion Hd as [|? ? Hn Hd']; subst. destruct (H q (or_introl eq_refl)) as (A1 & A2 & A3).
  assert (E : (if q_o C q =? 0 then y else ndroll1 (Z.to_nat (if Z.of_nat (q_ax C q) <? 0 then Z.of_nat (q_ax C q) + n else Z.of_nat (q_ax C q))) y)
    = ap C (rpop C l x0 q) y).
  { unfold ap, rpop. cbn [ao_ax ao_n ao_T fst snd]. rewrite <- A3. destruct (Z.ltb_spec (Z.of_nat (q_ax C q)) 0); [lia|]. rewrite Nat2Z.id.
    unfold rollp. destruct (q_o C q =? 0); [symmetry; apply FswAxis.along_id; auto|apply ndroll1_along; auto]. }
  rewrite E. assert (Sh : nshape (ap C (rpop C l x0 q) y) = nshape y).
  { unfold ap, rpop. rewrite along_shape. cbn [ao_ax ao_n fst snd]. rewrite <- A3. apply setn_nthz. }
  apply IH; auto.
  - unfold ap. apply along_wf; auto. cbn [rpop ao_n fst snd]. rewrite <- A3. lia.
  - rewrite Sh. intros p Hp. apply H. right; auto.
Qed.

(** ** Inverse of the periodized decomposition *)
Lemma pax_even ax (y : nd C) : nd_wf y -> (ax < List.length (nshape y))%nat -> 1 <= nthz ax (nshape y) -> nthz ax (nshape y) mod 2 = 0 ->
  pax C ax PERIODIZATION y = y.
Proof.
  intros Hy Hax H1 H2. unfold pax. rewrite H2, Z.add_0_r. etransitivity; [|apply (FswAxis.along_id C ax y); auto].
  apply FswAxis.along_ext; auto; [lia|]. intros v Hv. unfold pad1. apply tab_ext_even; rewrite Hv; auto.
Qed.
Definition plan_pair (plan plan' : list (nat * wavelet C)) : Prop :=
  Forall2 (fun p p' => fst p = fst p' /\ pr_pair C (snd p) (snd p')) plan plan'.
Lemma synth_band plan plan' : plan_pair plan plan' -> forall y : nd C, nd_wf y -> NoDup (map fst plan) ->
  (forall p, In p plan -> (fst p < List.length (nshape y))%nat /\ 1 <= nthz (fst p) (nshape y) /\ nthz (fst p) (nshape y) mod 2 = 0) ->
  synth C (map (pst C) plan') (fun k => band C k (map (pst C) plan) y) = y.
Proof.
  induction 1 as [|[ax w] [ax' w'] p p' (E & PR) HP IH]; intros y Hy Hd H; [reflexivity|].
  cbn [fst snd] in *. subst ax'. cbn [map synth band pst st_ax st_w st_m fst snd pick Ascii.eqb Bool.eqb].
  cbn [map fst] in Hd. inversion Hd as [|? ? Hn Hd']; subst. destruct (H (ax, w) (or_introl eq_refl)) as (A1 & A2 & A3). cbn [fst] in *.
  assert (G : forall h, 1 <= zlen h -> synth C (map (pst C) p') (fun k => band C k (map (pst C) p) (dax ax PERIODIZATION h y)) = dax ax PERIODIZATION h y).
  { intros h Hh. apply IH; auto.
    - apply dax_wf; auto. cbn [coeff_len]. lia.
    - intros q Hq. unfold dax. rewrite along_shape, setn_length, nthz_setn_ne; [apply H; right; auto|].
      intros Eq. apply Hn. rewrite <- Eq. apply in_map. auto. }
  destruct PR as (PR & W').
  pose proof PR as (L1 & L2 & L3 & L4 & L5 & _).
  rewrite !G by lia. unfold syn. cbn [st_ax st_w st_m fst snd].
  etransitivity; [|apply (pax_even ax y); auto].
  apply (pr_ax C ax PERIODIZATION (mkWavelet (dec_lo w) (dec_hi w) (rec_lo w') (rec_hi w')) y); auto.
Qed.
End SL.
