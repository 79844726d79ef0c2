(** swtn computes the undecimated sub-bands of every level. *)
From Coq Require Import Ascii String.
From Verif Require Import Base BaseLemmas CConv Spec Lengths Dwt DwtProofs PR Swt SwtSpec SwtProofs Nd NdSpec NdLinear Axis AxisProofs AxisProofs2 Multidim MultidimProofs MultidimFacts MultilevelNd MultilevelNdProofs SwtNd SwtNdArgs NdSwtSpec SwtNdLevel.

(** The list swtn returns: coarsest level first; every level a dictionary of all
    sub-bands, or (trim_approx) the last approximation followed by dictionaries
    without it. *)
Definition swtn_level {C : CRing} (trim : bool) (plan : list (nat * wavelet C)) (s : Z) (x : nd C) (j : nat) : swtn_item C :=
  NDict (map (fun k => (k, of_nd (swt_band (s + Z.of_nat j) k plan (swtn_approx plan s (j - 1) x))))
    (if trim then tl (ad_keys (List.length plan)) else ad_keys (List.length plan))).
Definition swtn_result {C : CRing} (trim : bool) (plan : list (nat * wavelet C)) (s : Z) (n : nat) (x : nd C) : list (swtn_item C) :=
  (if trim then [NArr (of_nd (swtn_approx plan s n x))] else []) ++ map (swtn_level trim plan s x) (rev (seq 1 n)).

(** The arguments of swtn and iswtn denote a plan: axes normalised, one wavelet
    per axis. *)
Definition swt_resolves {C : CRing} (n : Z) (w : per_axis (wavelet C)) (axes : list Z) (plan : list (nat * wavelet C)) : Prop :=
  norm_axes n axes = map (fun p => Z.of_nat (fst p)) plan /\ objs_per_axis w (List.length plan) = Ok (map snd plan).
Definition norm_plan {C : CRing} (norm : option C) (plan : list (nat * wavelet C)) : list (nat * wavelet C) :=
  map (fun p => (fst p, norm_w norm (snd p))) plan.
Definition swt_plan_ok {C : CRing} (fuel : nat) (L : Z) (sh : list Z) (plan : list (nat * wavelet C)) : Prop :=
  plan <> [] /\ prodZ sh < max_alloc /\ NoDup (map fst plan) /\
  forall p, In p plan -> (fst p < List.length sh)%nat /\ 1 <= nthz (fst p) sh /\ (2 ^ L | nthz (fst p) sh) /\ wf_bank (snd p) /\
    swt_resources fuel (nthz (fst p) sh) (dec_len (snd p)) L.

Lemma ad_keys_hd n : ad_keys n = all_a n :: tl (ad_keys n).
Proof. induction n as [|n IH]; cbn [ad_keys all_a]; auto. rewrite IH. reflexivity. Qed.

Section F.
Variable C : CRing.
Variable fuel : nat.
Notation plan_t := (list (nat * wavelet C)).

Lemma wax_wf ax l (h : list C) (x : nd C) : nd_wf x -> nd_wf (wax ax l h x).
Proof. intros H. unfold wax. apply along_wf; [apply H|]. apply shape_ok_nth; apply H. Qed.
Lemma wax_shape ax l (h : list C) (x : nd C) : nshape (wax ax l h x) = nshape x.
Proof. unfold wax. rewrite along_shape, setn_nthz. auto. Qed.

Lemma band_wf' l : forall (plan : plan_t) key (x : nd C), nd_wf x -> nd_wf (swt_band l key plan x).
Proof. induction plan as [|[ax w] p IH]; intros [|c k] x H; cbn [swt_band]; auto. apply IH. apply wax_wf; auto. Qed.
Lemma band_shape' l : forall (plan : plan_t) key (x : nd C), nshape (swt_band l key plan x) = nshape x.
Proof. induction plan as [|[ax w] p IH]; intros [|c k] x; cbn [swt_band]; auto. rewrite IH. apply wax_shape; auto. Qed.
Lemma low_all_a l : forall (plan : plan_t) (x : nd C), swt_band l (all_a (List.length plan)) plan x = low_band l plan x.
Proof. induction plan as [|[ax w] p IH]; intros x; cbn [swt_band low_band all_a List.length]; auto. Qed.
Lemma approx_wf (plan : plan_t) s n (x : nd C) : nd_wf x -> nd_wf (swtn_approx plan s n x).
Proof. intros H. induction n as [|n IH]; cbn [swtn_approx]; auto. rewrite <- low_all_a. apply band_wf'; auto. Qed.
Lemma approx_shape (plan : plan_t) s n (x : nd C) : nshape (swtn_approx plan s n x) = nshape x.
Proof. induction n as [|n IH]; cbn [swtn_approx]; auto. rewrite <- low_all_a, band_shape'. auto. Qed.

Definition swt_one_ok (L : Z) (sh : list Z) (p : nat * wavelet C) : Prop :=
  (fst p < List.length sh)%nat /\ 1 <= nthz (fst p) sh /\ (2 ^ L | nthz (fst p) sh) /\ wf_bank (snd p) /\
    swt_resources fuel (nthz (fst p) sh) (dec_len (snd p)) L.

Lemma swtn_step_spec junk (D : dict (sarr C)) i p sh :
  (forall k a, In (k, a) D -> sarr_ok C a /\ sshape a = sh) -> (List.length sh <= 64)%nat -> prodZ sh < max_alloc -> 0 <= i ->
  swt_one_ok (i + 1) sh p ->
  swtn_step fuel junk i D (Z.of_nat (fst p), snd p) = Ok (flat_map (fun '(k, a) =>
    [(append k "a"%string, of_nd (wax (fst p) (i + 1) (dec_lo (snd p)) (val C a)));
     (append k "d"%string, of_nd (wax (fst p) (i + 1) (dec_hi (snd p)) (val C a)))]) D).
Proof.
  intros HD Hn Hp Hi (H1 & H2 & H3 & H4 & H5). unfold swtn_step.
  rewrite (mapM_ok _ (fun '(k, a) => [(append k "a"%string, of_nd (wax (fst p) (i + 1) (dec_lo (snd p)) (val C a)));
     (append k "d"%string, of_nd (wax (fst p) (i + 1) (dec_hi (snd p)) (val C a)))])).
  - cbn [bind]. rewrite flat_map_concat_map. reflexivity.
  - intros [k a] Hin. destruct (HD k a Hin) as (Hok & Hsh).
    rewrite to_axis_ok by lia. cbn [bind]. rewrite swt_axis_spec; rewrite ?Hsh; auto; try lia.
Qed.

Definition sres (l : Z) (key : string) (plan : plan_t) (a : sarr C) : sarr C :=
  match plan with [] => a | _ => of_nd (swt_band l key plan (val C a)) end.

Lemma swtn_steps_spec junk i : 0 <= i -> forall (plan : plan_t) (D : dict (sarr C)) sh,
  (forall k a, In (k, a) D -> sarr_ok C a /\ sshape a = sh) -> (List.length sh <= 64)%nat -> prodZ sh < max_alloc ->
  (forall p, In p plan -> swt_one_ok (i + 1) sh p) ->
  foldM (swtn_step fuel junk i) D (combine (map (fun p => Z.of_nat (fst p)) plan) (map snd plan))
  = Ok (flat_map (fun '(k, a) => map (fun q => (append k q, sres (i + 1) q plan a)) (ad_keys (List.length plan))) D).
Proof.
  intros Hi. induction plan as [|s p IH]; intros D sh HD Hn Hp HP; cbn [map combine foldM].
  - f_equal. cbn. induction D as [|[k a] D IHD]; cbn; auto. rewrite append_nil_r. f_equal. apply IHD.
    intros; apply (HD k0 a0); right; auto.
  - rewrite (swtn_step_spec junk D i s sh) by (auto; apply HP; left; auto). cbn [bind].
    rewrite (IH _ sh); auto.
    + f_equal. clear IH. induction D as [|[k a] D IHD]; cbn [flat_map]; auto. 
      cbn [app flat_map].
      rewrite <- IHD by (intros; apply (HD k0 a0); right; auto). rewrite app_assoc. f_equal.
      cbn [List.length ad_keys]. rewrite map_app, !map_map.
      destruct (HD k a (or_introl eq_refl)) as (Hok & Hsh).
      assert (W : forall h, nd_wf (wax (fst s) (i + 1) h (val C a))) by (intros; apply wax_wf, val_wf; auto).
      destruct s as [ax w]. cbn [fst snd] in *.
      f_equal; apply map_ext; intros q; rewrite append_assoc; f_equal; unfold sres; cbn [swt_band append letter Ascii.eqb Bool.eqb];
        (destruct p; [destruct q; reflexivity|]); rewrite val_of_nd by auto; reflexivity.
    + intros k' a' Hin. apply in_flat_map in Hin. destruct Hin as ([k a] & Hin & Hj).
      destruct (HD k a Hin) as (Hok & Hsh).
      assert (W : forall h, nd_wf (wax (fst s) (i + 1) h (val C a))) by (intros; apply wax_wf, val_wf; auto).
      destruct Hj as [Hj|[Hj|[]]]; injection Hj as <- <-; (split; [apply of_nd_ok; auto|]);
        cbn [of_nd sshape]; rewrite wax_shape, nshape_val, Hsh; reflexivity.
    + intros; apply HP; right; auto.
Qed.

Lemma one_ok_le L L' sh p : 1 <= L' <= L -> swt_one_ok L sh p -> swt_one_ok L' sh p.
Proof.
  intros HL (H1 & H2 & H3 & H4 & H5). split; auto. split; auto. split; [|split; auto].
  - apply Z.divide_trans with (2 ^ L); auto. apply pow2_div. lia.
  - apply swt_resources_le with L; auto. apply zlen_nonneg.
Qed.

Lemma swtn_loop_spec junk (plan : plan_t) s trim (x : nd C) : plan <> [] -> nd_wf x -> (List.length (nshape x) <= 64)%nat -> prodZ (nshape x) < max_alloc -> 0 <= s ->
  forall n k data ret, sarr_ok C data -> val C data = swtn_approx plan s k x ->
  (forall p, In p plan -> swt_one_ok (s + Z.of_nat (k + n)) (nshape x) p) ->
  swtn_loop fuel junk data (map (fun p => Z.of_nat (fst p)) plan) (map snd plan) (s + Z.of_nat k) n trim ret
  = Ok (ret ++ map (swtn_level trim plan s x) (seq (S k) n), match n with O => data | _ => of_nd (swtn_approx plan s (k + n) x) end).
Proof.
  intros Hne Hx Hn Hp Hs. induction n as [|n IH]; intros k data ret Hok Hv HP; cbn [swtn_loop].
  - cbn. rewrite app_nil_r. reflexivity.
  - assert (Hsh : sshape data = nshape x) by (rewrite <- (nshape_val C data), Hv; apply approx_shape).
    rewrite (swtn_steps_spec junk (s + Z.of_nat k) ltac:(lia) plan _ (nshape x)); auto.
    2:{ intros k0 a [E|[]]. injection E as <- <-. auto. }
    2:{ intros p Hin. apply (one_ok_le (s + Z.of_nat (k + S n))); [lia|auto]. }
    cbn [flat_map bind append]. rewrite app_nil_r. rewrite map_length.
    set (l := s + Z.of_nat k + 1).
    assert (Es : forall q, sres l q plan data = of_nd (swt_band l q plan (swtn_approx plan s k x))).
    { intros q. unfold sres. rewrite Hv. destruct plan; [congruence|auto]. }
    rewrite (map_ext _ (fun q => (q, of_nd (swt_band l q plan (swtn_approx plan s k x))))) by (intros; rewrite Es; auto).
    assert (EL : of_nd (swt_band l (all_a (List.length plan)) plan (swtn_approx plan s k x)) = of_nd (swtn_approx plan s (S k) x)).
    { rewrite low_all_a. cbn [swtn_approx]. unfold l. do 2 f_equal. lia. }
    assert (Eg : dgetE (map (fun q => (q, of_nd (swt_band l q plan (swtn_approx plan s k x)))) (ad_keys (List.length plan))) (all_a (List.length plan)) = Ok (of_nd (swtn_approx plan s (S k) x))).
    { rewrite ad_keys_hd. cbn [map]. unfold dgetE. cbn [dget]. rewrite String.eqb_refl. rewrite EL. reflexivity. }
    rewrite Eg. cbn [bind].
    assert (Ed : (if trim then dremove (map (fun q => (q, of_nd (swt_band l q plan (swtn_approx plan s k x)))) (ad_keys (List.length plan))) (all_a (List.length plan))
                  else map (fun q => (q, of_nd (swt_band l q plan (swtn_approx plan s k x)))) (ad_keys (List.length plan)))
      = map (fun q => (q, of_nd (swt_band (s + Z.of_nat (S k)) q plan (swtn_approx plan s (S k - 1) x)))) (if trim then tl (ad_keys (List.length plan)) else ad_keys (List.length plan))).
    { replace (s + Z.of_nat (S k)) with l by (unfold l; lia). replace (S k - 1)%nat with k by lia. destruct trim; auto.
      rewrite ad_keys_hd at 1. cbn [map dremove]. rewrite String.eqb_refl. reflexivity. }
    rewrite Ed. clear Ed Eg.
    replace l with (s + Z.of_nat (S k)) by (unfold l; lia).
    rewrite IH.
    + cbn [seq map]. unfold swtn_level at 3. rewrite <- app_assoc. cbn [app]. f_equal. f_equal.
      replace (S k + n)%nat with (k + S n)%nat by lia. destruct n; auto. rewrite Nat.add_1_r. reflexivity.
    + apply of_nd_ok, approx_wf; auto.
    + apply val_of_nd, approx_wf; auto.
    + intros p Hin. replace (S k + n)%nat with (k + S n)%nat by lia. auto.
Qed.

Lemma nodup_distinct (l : list Z) : NoDup l -> distinct l = List.length l.
Proof.
  apply distinct_NoDup.
Qed.
Lemma zaxes_nodup (plan : plan_t) : NoDup (map fst plan) -> NoDup (map (fun p => Z.of_nat (fst p)) plan).
Proof.
  intros H. rewrite <- (map_map fst Z.of_nat). apply FinFun.Injective_map_NoDup; auto. intros a b E. lia.
Qed.

Theorem swtn_spec junk (data : sarr C) w level s axes trim norm plan0 :
  let plan := norm_plan norm plan0 in
  sarr_ok C data -> 1 <= ndim data <= 64 -> 0 <= s -> 1 <= level ->
  swt_resolves (ndim data) w (default_axes (ndim data) axes) plan0 -> swt_plan_ok fuel (s + level) (sshape data) plan ->
  swtn fuel junk data w level s axes trim norm = Ok (swtn_result trim plan s (Z.to_nat level) (val C data)).
Proof.
  intros plan Hok Hn Hs HL (R1 & R2) (P1 & P2 & P3 & P4). unfold swtn. replace (ndim data <? 1) with false by lia.
  change (match axes with None => tab (ndim data) (fun i => i) | Some l => l end) with (default_axes (ndim data) axes).
  rewrite R1.
  assert (EA : map (fun p => Z.of_nat (fst p)) plan0 = map (fun p => Z.of_nat (fst p)) plan).
  { unfold plan, norm_plan. rewrite map_map. reflexivity. }
  assert (EW : map (norm_w norm) (map snd plan0) = map snd plan).
  { unfold plan, norm_plan. rewrite !map_map. reflexivity. }
  assert (EX : existsb (fun a => (a <? 0) || (ndim data <=? a)) (map (fun p => Z.of_nat (fst p)) plan) = false).
  { destruct (existsb _ _) eqn:E; auto. apply existsb_exists in E. destruct E as (a & Ha & Hb). apply in_map_iff in Ha. destruct Ha as (p & <- & Hp).
    destruct (P4 p Hp) as (H1 & _). unfold ndim, zlen in Hb. lia. }
  rewrite map_length. rewrite R2. rewrite EA, EX. rewrite (nodup_distinct _ (zaxes_nodup plan P3)). rewrite map_length.
  assert (Ln : List.length plan = List.length plan0) by (unfold plan, norm_plan; apply map_length). rewrite Ln, Nat.eqb_refl. cbn [negb bind].
  rewrite EW. pose proof (swtn_loop_spec junk plan s trim (val C data) P1 (val_wf C data Hok)) as SL. rewrite nshape_val in SL.
  specialize (SL ltac:(unfold ndim, zlen in Hn; lia) P2 Hs (Z.to_nat level) 0%nat data [] Hok eq_refl).
  cbn [Nat.add] in SL. rewrite Z2Nat.id in SL by lia. specialize (SL P4).
  replace (s + Z.of_nat 0) with s in SL by lia. rewrite SL. cbn [bind app].
  destruct (Z.to_nat level) as [|m] eqn:Em; [lia|]. unfold swtn_result. f_equal. destruct trim.
  - rewrite rev_app_distr. cbn [rev app]. f_equal. rewrite map_rev. reflexivity.
  - rewrite map_rev. reflexivity.
Qed.

End F.
