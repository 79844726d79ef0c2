(** mran and mra2 with the stationary transform: the terms add up to the data. *)
From Coq Require Import Ascii String Permutation.
From Verif Require Import Base BaseLemmas CConv Spec ExtLemmas Lengths Dwt DwtProofs PR Linear Swt SwtSpec SwtProofs Nd NdSpec NdLinear Axis AxisProofs AxisProofs2 Multidim MultidimProofs MultidimFacts MultilevelNd MultilevelNdProofs SwtNd SwtNdArgs AxisOps NdSynth NdSwtSpec SwtNdBand SwtNdSlices SwtNdLevel SwtNdLevel2 SwtNdFwd SwtNdInv SwtNd2 Mra MraProofs MranLoop MranSum MranAdd.

Section M.
Variable C : CRing.
Add Ring Cring_ring_mrsw : (rth C).
Variable fuel : nat.
Notation plan_t := (list (nat * wavelet C)).
Notation fam := (nat -> string -> nd C).

Lemma tl_keys m k : In k (tl (ad_keys m)) <-> In k (ad_keys m) /\ k <> all_a m.
Proof.
  pose proof (ad_keys_NoDup m) as H. rewrite ad_keys_head in H |- *. inversion H; subst. cbn [tl In]. split.
  - intros Hk. split; auto. intros ->. auto.
  - intros ([E|Hk] & Ne); [congruence|auto].
Qed.
Lemma tl_keys_NoDup m : NoDup (tl (ad_keys m)).
Proof. pose proof (ad_keys_NoDup m) as H. rewrite ad_keys_head in H. inversion H; auto. Qed.
Lemma tl_keys_ne m : (1 <= m)%nat -> tl (ad_keys m) <> [].
Proof.
  destruct m as [|m]; [lia|]. intros _. cbn [ad_keys]. rewrite (ad_keys_hd m). cbn [map app tl]. destruct (map _ (tl _)); discriminate.
Qed.
Lemma objs_seq {A} (l : list A) : objs_per_axis (Seq l) (List.length l) = Ok l.
Proof. destruct l as [|a [|b l]]; cbn [objs_per_axis]; auto. rewrite Nat.eqb_refl. reflexivity. Qed.

Lemma nth_rev_seq n j m : nth_error (rev (seq 1 n)) j = Some m -> (j < n)%nat /\ m = (n - j)%nat.
Proof.
  revert j. induction n as [|n IH]; intros j; [destruct j; discriminate|]. rewrite seq_S, rev_app_distr. cbn [rev app Nat.add].
  destruct j as [|j]; cbn [nth_error]; [intros E; injection E as <-; lia|]. intros E. destruct (IH j E). lia.
Qed.

(** The value of iswtn for the coefficient family [V], indexed by position. *)
Definition Tswt (half : C) (sh : list Z) (plan : plan_t) (n : nat) (a : nd C) (V : fam) : nd C :=
  isynth C half sh plan (fun l k => V (n - l)%nat k) n a.

Lemma Tswt_additive half sh (plan : plan_t) n K : plan_lev C fuel (Z.of_nat n) sh plan -> (forall k, In k (tl (ad_keys (List.length plan))) <-> In k K) ->
  additive C n K sh (fun _ => sh) (Tswt half sh plan n).
Proof.
  intros HP HK. split.
  - intros a V V' H. unfold Tswt. apply isynth_ext; [apply HP|]. intros l k Hl Hk. apply H; [lia|apply HK; auto].
  - intros a a' V V' Wa Wa' Sa Sa' HV HV'. unfold Tswt.
    apply (isynth_add C fuel half sh plan (fun l k => V (n - l)%nat k) (fun l k => V' (n - l)%nat k)); auto; try (split; auto; fail).
    + intros l k Hl Hk. apply HV; [lia|apply HK; auto].
    + intros l k Hl Hk. apply HV'; [lia|apply HK; auto].
Qed.

Lemma hold_coeffs sh (plan : plan_t) (V : fam) : forall n ds, 
  ds_hold C n (fun _ => sh) (tl (ad_keys (List.length plan))) ds V ->
  coeffs_hold C true sh plan (fun l k => V (n - l)%nat k) n (map NDict ds).
Proof.
  intros n ds (L & H).
  assert (G : forall m ds, List.length ds = m -> (m <= n)%nat -> (forall j d, nth_error ds j = Some d -> map fst d = tl (ad_keys (List.length plan)) /\
      forall k v, dget d k = Some v -> sarr_ok C v /\ sshape v = sh /\ val C v = V (n - m + j)%nat k) ->
    coeffs_hold C true sh plan (fun l k => V (n - l)%nat k) m (map NDict ds)).
  { clear ds L H. induction m as [|m IH]; intros [|d ds] L Hm H; cbn in L; try lia; cbn [map coeffs_hold]; auto. split.
    - cbn [item_holds]. destruct (H 0%nat d eq_refl) as (HK & Hv). split.
      + intros k v Hi. assert (Hk : In k (map fst d)) by (apply in_map with (f := fst) in Hi; exact Hi). rewrite HK in Hk.
        destruct (proj1 (tl_keys _ _) Hk) as (K1 & K2). split; auto. split; auto.
        assert (Hg : dget d k = Some v) by (apply dget_in; auto; rewrite HK; apply tl_keys_NoDup).
        specialize (Hv k v Hg). rewrite Nat.add_0_r in Hv. exact Hv.
      + intros k Hk Ne. apply in_keys. rewrite HK. apply tl_keys. auto.
    - apply IH; [lia|lia|]. intros j d' Hj. destruct (H (S j) d' Hj) as (HK & Hv). split; auto. intros k v Hg.
      replace (n - m + j)%nat with (n - S m + S j)%nat by lia. exact (Hv k v Hg). }
  apply G; auto. intros j d Hj. rewrite Nat.sub_diag. apply H; auto.
Qed.

Theorem mran_swt junk half sq2 isq2 (data : sarr C) w level axes plan :
  half [+] half = r1 -> sq2 [*] isq2 = r1 -> sarr_ok C data -> 1 <= ndim data <= 64 -> 1 <= level ->
  swt_resolves (ndim data) w (default_axes (ndim data) axes) plan -> swt_plan_ok fuel level (sshape data) plan ->
  (forall p, In p plan -> pr_wavelet (snd p)) ->
  exists cA out, mran fuel junk half sq2 isq2 data w (Some level) axes TSwt (One PERIODIZATION) = Ok (cA, out) /\
    sarr_ok C cA /\ sshape cA = sshape data /\ List.length out = Z.to_nat level /\
    (forall d, In d out -> map fst d = tl (ad_keys (List.length plan)) /\ forall k v, In (k, v) d -> sarr_ok C v /\ sshape v = sshape data) /\
    forall idx, valid (sshape data) idx ->
      ndget (val C cA) idx [+] psum C (fun '(_, v) => ndget (val C v) idx) (concat out) = ndget (val C data) idx.
Proof.
  intros Hh Hq Hok Hnd HL (R1 & R2) HP Hpr. set (x := val C data). assert (Hx : nd_wf x) by (apply val_wf; auto).
  assert (Sx : nshape x = sshape data) by apply nshape_val. set (ax := default_axes (ndim data) axes) in *.
  assert (Lax : List.length ax = List.length plan) by (apply (f_equal (@List.length Z)) in R1; unfold norm_axes in R1; rewrite !map_length in R1; auto).
  unfold mran. assert (PA : prep_axes (sshape data) axes = Ok (ax, map (fun s => nthz (st_ax C s) (sshape data)) (map (pst C) plan))).
  { apply prep_axes_ok; [unfold ndim in Hnd; lia| | |].
    - rewrite map_map. exact R1.
    - rewrite map_map. apply HP.
    - intros s Hs. apply in_map_iff in Hs as (p & <- & Hp). apply HP; auto. }
  rewrite PA. cbn [bind]. rewrite Lax, R2. cbn [bind mode_eqb negb].
  set (pf := norm_plan (Some isq2) plan). set (pb := norm_plan (Some sq2) plan). set (n := Z.to_nat level).
  assert (Lf : List.length pf = List.length plan) by (unfold pf, norm_plan; apply map_length).
  assert (Lb : List.length pb = List.length plan) by (unfold pb, norm_plan; apply map_length).
  assert (RS : swt_resolves (ndim data) (Seq (map snd plan)) (default_axes (ndim data) (Some ax)) plan).
  { split; auto. rewrite <- (map_length snd plan) at 1. apply objs_seq. }
  rewrite (swtn_spec C fuel junk data (Seq (map snd plan)) level 0 (Some ax) true (Some isq2) plan); auto; [|lia|apply norm_plan_ok; auto].
  cbn [bind]. fold pf n x. unfold swtn_result. cbn [app].
  assert (ED : dicts (map (swtn_level true pf 0 x) (rev (seq 1 n))) =
     Ok (map (fun j => map (fun k => (k, of_nd (swt_band (Z.of_nat j) k pf (swtn_approx pf 0 (j - 1) x)))) (tl (ad_keys (List.length pf)))) (rev (seq 1 n)))).
  { unfold dicts. induction (rev (seq 1 n)) as [|j l IH]; cbn [map mapM]; auto. unfold swtn_level at 1. cbn [bind]. rewrite IH. reflexivity. }
  rewrite ED. cbn [bind]. clear ED.
  assert (HPL : plan_lev C fuel (Z.of_nat n) (sshape data) pb).
  { unfold n. rewrite Z2Nat.id by lia. apply plan_ok_lev; [rewrite <- Sx; apply Hx|]. apply norm_plan_ok; auto. }
  assert (Hne : (1 <= List.length plan)%nat) by (destruct HP as (A & _); destruct plan; cbn; [congruence|lia]).
  assert (Hpb : pb <> []) by (destruct pb; cbn in Lb; [lia|discriminate]).
  assert (Wa : nd_wf (swtn_approx pf 0 n x)) by (apply approx_wf; auto).
  set (V := fun (j : nat) k => swt_band (Z.of_nat (n - j)) k pf (swtn_approx pf 0 (n - j - 1) x)).
  rewrite Lf.
  apply (mran_sum C n (fun _ => sshape data) (sshape data) (sshape data) (sshape data) (Tswt half (sshape data) pb n) (fun idx => ndget x idx)) with (V := V).
  - apply tl_keys_NoDup.
  - apply tl_keys_ne; auto.
  - split; [rewrite map_length, rev_length, seq_length; auto|]. intros j d Hj. rewrite nth_error_map in Hj.
    destruct (nth_error (rev (seq 1 n)) j) as [m|] eqn:Em; [|discriminate]. injection Hj as <-. apply nth_rev_seq in Em as (Hj & ->).
    split; [rewrite map_map; apply map_id|]. intros k v Hg. apply dget_In in Hg. apply in_map_iff in Hg as (q & E & Hq'). injection E as <- <-.
    assert (Wb : nd_wf (swt_band (Z.of_nat (n - j)) q pf (swtn_approx pf 0 (n - j - 1) x))) by (apply band_wf', approx_wf; auto).
    split; [apply of_nd_ok; auto|]. split; [|apply val_of_nd; auto]. cbn [of_nd sshape]. rewrite band_shape', approx_shape. auto.
  - apply of_nd_ok; auto.
  - cbn [of_nd sshape]. rewrite approx_shape. auto.
  - apply Tswt_additive; auto. rewrite Lb. reflexivity.
  - intros a' V' W S HV. apply isynth_good; [rewrite <- Sx; apply Hx|split; auto].
  - intros a' ds' V' Oa Sa HD. eexists. split.
    + apply (iswtn_spec C fuel junk half (Seq (map snd plan)) (Some ax) (Some sq2) plan true (sshape data) (fun l k => V' (n - l)%nat k) n a' (map NDict ds')); auto.
      * apply hold_coeffs. fold pb. rewrite Lb. auto.
      * unfold last_dict. cbn [rev]. rewrite <- map_rev. fold pb. rewrite Lb. destruct HD as (L & HD).
        assert (Hr : rev ds' <> []) by (intros Er; apply (f_equal (@rev _)) in Er; rewrite rev_involutive in Er; cbn in Er; subst ds'; cbn in L; lia).
        destruct (rev ds') as [|d r] eqn:Er; [congruence|]. cbn [map app].
        assert (Hin : In d ds') by (apply in_rev; rewrite Er; left; auto). apply In_nth_error in Hin as (j & Hj). destruct (HD j d Hj) as (HK & _).
        split; [intros ->; cbn in HK; symmetry in HK; apply (tl_keys_ne _ Hne HK)|]. intros k v Hi. apply ad_keys_length.
        apply in_map with (f := fst) in Hi. rewrite HK in Hi. apply tl_keys in Hi. apply Hi.
    + assert (Wi : good C (sshape data) (isynth C half (sshape data) pb (fun l k => V' (n - l)%nat k) n (val C a'))).
      { apply isynth_good; [rewrite <- Sx; apply Hx|]. split; [apply val_wf; auto|rewrite nshape_val; auto]. }
      destruct Wi as (W1 & W2). split; [apply of_nd_ok; auto|]. split; [exact W2|]. apply val_of_nd; auto.
  - rewrite <- Sx. apply Hx.
  - apply shape_le_refl.
  - intros idx Vi. f_equal. rewrite val_of_nd by auto. unfold Tswt.
    rewrite (isynth_ext C half (sshape data) pb _ (fun j k => swt_band (Z.of_nat j) k pf (swtn_approx pf 0 (j - 1) x))).
    + rewrite <- Sx. apply (isynth_swt C fuel); auto.
      * apply (plan_pair_norm C (Some (sq2, isq2))); auto.
      * intros p Hp. destruct (norm_plan_ok C fuel level (sshape data) (Some isq2) plan HP) as (_ & _ & _ & E). apply (E p Hp).
    + rewrite <- Sx. apply Hx.
    + intros l k Hl Hk. unfold V. replace (n - (n - l))%nat with l by lia. reflexivity.
Qed.

(** ** mra2 *)
Lemma K2_keys k : In k (tl (ad_keys 2)) <-> In k K2.
Proof. cbn. tauto. Qed.

Lemma hold_items2 sh (V : fam) : forall n ds, ds_hold2 C n (fun _ => sh) ds V ->
  exists ts, mapM of3 ds = Ok ts /\ items2_hold C true sh (fun l k => V (n - l)%nat k) n (map (fun '(h, v, d) => D2 h v d) ts).
Proof.
  intros n ds (L & H).
  assert (G : forall m ds, List.length ds = m -> (m <= n)%nat -> (forall j d, nth_error ds j = Some d -> List.length d = 3%nat /\
      forall i k v, nth_error d i = Some v -> nth_error K2 i = Some k -> sarr_ok C v /\ sshape v = sh /\ val C v = V (n - m + j)%nat k) ->
    exists ts, mapM of3 ds = Ok ts /\ items2_hold C true sh (fun l k => V (n - l)%nat k) m (map (fun '(h, v, d) => D2 h v d) ts)).
  { clear ds L H. induction m as [|m IH]; intros [|d ds] L Hm H; cbn in L; try lia.
    - exists []. split; [reflexivity|exact I].
    - destruct (IH ds) as (ts & E & HI); [lia|lia| |].
      + intros j d' Hj. destruct (H (S j) d' Hj) as (HK & Hv). split; auto. intros i k v Hg Hk.
        replace (n - m + j)%nat with (n - S m + S j)%nat by lia. exact (Hv i k v Hg Hk).
      + destruct (H 0%nat d eq_refl) as (L3 & Hv). destruct d as [|h [|v [|e [|? ?]]]]; cbn in L3; try lia.
        exists ((h, v, e) :: ts). cbn [mapM of3 bind]. rewrite E. cbn [bind]. split; [reflexivity|]. cbn [map items2_hold item2_holds]. split; auto.
        rewrite Nat.add_0_r in Hv. split; [apply (Hv 0%nat "da"%string); auto|]. split; [apply (Hv 1%nat "ad"%string); auto|apply (Hv 2%nat "dd"%string); auto]. }
  apply G; auto. intros j d Hj. rewrite Nat.sub_diag. apply H; auto.
Qed.

Theorem mra2_swt junk half sq2 isq2 (data : sarr C) w level axes plan :
  half [+] half = r1 -> sq2 [*] isq2 = r1 -> sarr_ok C data -> 2 <= ndim data <= 64 -> 1 <= level -> List.length plan = 2%nat ->
  swt_resolves (ndim data) w axes plan -> swt_plan_ok fuel level (sshape data) plan ->
  (forall p, In p plan -> pr_wavelet (snd p)) ->
  exists cA out, mra2 fuel junk half sq2 isq2 data w (Some level) axes TSwt (One PERIODIZATION) = Ok (cA, out) /\
    sarr_ok C cA /\ sshape cA = sshape data /\ List.length out = Z.to_nat level /\
    (forall d, In d out -> List.length d = 3%nat /\ forall v, In v d -> sarr_ok C v /\ sshape v = sshape data) /\
    forall idx, valid (sshape data) idx ->
      ndget (val C cA) idx [+] psum C (fun v => ndget (val C v) idx) (concat out) = ndget (val C data) idx.
Proof.
  intros Hh Hq Hok Hnd HL L2 R HP Hpr. set (x := val C data). assert (Hx : nd_wf x) by (apply val_wf; auto).
  assert (Sx : nshape x = sshape data) by apply nshape_val.
  unfold mra2. cbn [bind mode_eqb negb].
  set (pf := norm_plan (Some isq2) plan). set (pb := norm_plan (Some sq2) plan). set (n := Z.to_nat level).
  assert (Lf : List.length pf = 2%nat) by (unfold pf, norm_plan; rewrite map_length; auto).
  assert (Lb : List.length pb = 2%nat) by (unfold pb, norm_plan; rewrite map_length; auto).
  rewrite (swt2_spec C fuel junk data w level 0 axes true (Some isq2) plan); auto; [|lia|apply norm_plan_ok; auto].
  cbn [bind]. fold pf n x. unfold swt2_result. cbn [app].
  set (b := fun j k => of_nd (swt_band (Z.of_nat j) k pf (swtn_approx pf 0 (j - 1) x))).
  assert (ED : mapM (fun it => match it with D2 h v d => Ok [h; v; d] | _ => Err TypeError end) (map (swt2_level true pf 0 x) (rev (seq 1 n))) =
     Ok (map (fun j => map (b j) K2) (rev (seq 1 n)))).
  { induction (rev (seq 1 n)) as [|j l IH]; cbn [map mapM]; auto. unfold swt2_level at 1. cbn [bind]. rewrite IH. reflexivity. }
  rewrite ED. cbn [bind]. clear ED.
  assert (HPL : plan_lev C fuel (Z.of_nat n) (sshape data) pb).
  { unfold n. rewrite Z2Nat.id by lia. apply plan_ok_lev; [rewrite <- Sx; apply Hx|]. apply norm_plan_ok; auto. }
  assert (Wa : nd_wf (swtn_approx pf 0 n x)) by (apply approx_wf; auto).
  set (V := fun (j : nat) k => swt_band (Z.of_nat (n - j)) k pf (swtn_approx pf 0 (n - j - 1) x)).
  apply (mra2_sum C n (fun _ => sshape data) (sshape data) (sshape data) (sshape data) (Tswt half (sshape data) pb n) (fun idx => ndget x idx)) with (V := V).
  - split; [rewrite map_length, rev_length, seq_length; auto|]. intros j d Hj. rewrite nth_error_map in Hj.
    destruct (nth_error (rev (seq 1 n)) j) as [m|] eqn:Em; [|discriminate]. injection Hj as <-. apply nth_rev_seq in Em as (Hj & ->).
    split; [reflexivity|]. intros i k v Hg Hk. change (nth_error (map (b (n - j)%nat) K2) i = Some v) in Hg. rewrite nth_error_map, Hk in Hg. injection Hg as <-.
    assert (Wb : nd_wf (swt_band (Z.of_nat (n - j)) k pf (swtn_approx pf 0 (n - j - 1) x))) by (apply band_wf', approx_wf; auto).
    split; [apply of_nd_ok; auto|]. split; [|apply val_of_nd; auto]. unfold b. cbn [of_nd sshape]. rewrite band_shape', approx_shape. auto.
  - apply of_nd_ok; auto.
  - cbn [of_nd sshape]. rewrite approx_shape. auto.
  - apply Tswt_additive; auto. rewrite Lb. apply K2_keys.
  - intros a' V' W S HV. apply isynth_good; [rewrite <- Sx; apply Hx|split; auto].
  - intros a' ds' V' Oa Sa HD. destruct (hold_items2 _ _ _ _ HD) as (ts & Et & HI). rewrite Et. cbn [bind]. eexists. split.
    + apply (iswt2_spec C fuel junk half w axes (Some sq2) plan true (sshape data) (fun l k => V' (n - l)%nat k) n a' (map (fun '(h, v, d) => D2 h v d) ts)); auto.
      unfold n. lia.
    + assert (Wi : good C (sshape data) (isynth C half (sshape data) pb (fun l k => V' (n - l)%nat k) n (val C a'))).
      { apply isynth_good; [rewrite <- Sx; apply Hx|]. split; [apply val_wf; auto|rewrite nshape_val; auto]. }
      destruct Wi as (W1 & W2). split; [apply of_nd_ok; auto|]. split; [exact W2|]. apply val_of_nd; auto.
  - rewrite <- Sx. apply Hx.
  - apply shape_le_refl.
  - intros idx Vi. f_equal. rewrite val_of_nd by auto. unfold Tswt.
    rewrite (isynth_ext C half (sshape data) pb _ (fun j k => swt_band (Z.of_nat j) k pf (swtn_approx pf 0 (j - 1) x))).
    + rewrite <- Sx. apply (isynth_swt C fuel); auto.
      * apply (plan_pair_norm C (Some (sq2, isq2))); auto.
      * intros p Hp. destruct (norm_plan_ok C fuel level (sshape data) (Some isq2) plan HP) as (_ & _ & _ & E). apply (E p Hp).
    + rewrite <- Sx. apply Hx.
    + intros l k Hl Hk. unfold V. replace (n - (n - l))%nat with l by lia. reflexivity.
Qed.
End M.
