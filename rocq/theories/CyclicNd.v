(** wavedecn after waverecn in periodization mode. *)
From Coq Require Import Ascii String.
From Verif Require Import Base BaseLemmas CConv Spec ExtLemmas Lengths LengthsProofs Dwt DwtProofs PR Linear Swt SwtSpec SwtProofs Nd NdSpec NdLinear Axis AxisProofs AxisProofs2 Multidim MultidimProofs MultidimFacts Multilevel MultilevelProofs MultilevelNd MultilevelNdProofs MultilevelNdFacts SwtNd SwtNdArgs AxisOps NdSynth NdSwtSpec SwtNdBand SwtNdSlices SwtNdLevel SwtNdLevel2 SwtNdFwd SwtNdInv Mra MraProofs MranLoop MranSum MranAdd MranSwt MranDwt Cyclic CyclicMain.

Section Nd.
Variable C : CRing.
Add Ring Cring_ring_cn : (rth C).
Variable fuel : nat.
Notation step := (step C).
Notation lev := (lev_shape C).

Definition periodized (plan : list step) (sh : list Z) (n : nat) : Prop :=
  forall s, In s plan -> st_m C s = PERIODIZATION /\ pr_wavelet (st_w C s) /\ (2 ^ Z.of_nat n | nthz (st_ax C s) sh).

Lemma half_len F N : forall n, (2 ^ Z.of_nat n | N) -> N = 2 ^ Z.of_nat n * approx_len PERIODIZATION F n N.
Proof.
  induction n as [|n IH]; intros H; cbn [approx_len]; [change (2 ^ Z.of_nat 0) with 1; lia|].
  destruct H as (q & Hq). rewrite Nat2Z.inj_succ, Z.pow_succ_r in * by lia.
  assert (E : N = 2 ^ Z.of_nat n * approx_len PERIODIZATION F n N) by (apply IH; exists (2 * q); lia).
  assert (0 < 2 ^ Z.of_nat n) by (apply Z.pow_pos_nonneg; lia).
  assert (E2 : approx_len PERIODIZATION F n N = 2 * q) by nia. rewrite E2. cbn [coeff_len]. replace ((2 * q + 1) / 2) with q by lia. lia.
Qed.

Lemma lev_even plan sh B N n s : levels_good C fuel B sh plan N -> periodized plan sh N -> (n < N)%nat -> In s plan ->
  nthz (st_ax C s) (lev plan n sh) mod 2 = 0 /\ 1 <= nthz (st_ax C s) (lev plan (S n) sh).
Proof.
  intros HG HP Hn Hs. pose proof (HG O ltac:(lia)) as (_ & _ & _ & _ & Hd & H6). cbn [lev_shape] in H6. destruct (H6 s Hs) as ((Ha & Hw & Hm & Hr) & _).
  destruct (HP s Hs) as (M & PR & Dv). rewrite !nthz_lev_shape by auto. rewrite M in *. cbn [min_len] in Hm. split.
  - assert (E := half_len (dec_len (st_w C s)) (nthz (st_ax C s) sh) (S n)).
    assert (E0 := half_len (dec_len (st_w C s)) (nthz (st_ax C s) sh) n).
    destruct Dv as (q & Hq). replace (Z.of_nat N) with (Z.of_nat (N - S n) + Z.of_nat (S n)) in Hq by lia. rewrite Z.pow_add_r in Hq by lia.
    assert (Dn : (2 ^ Z.of_nat (S n) | nthz (st_ax C s) sh)) by (exists (q * 2 ^ Z.of_nat (N - S n)); rewrite Hq; ring).
    specialize (E Dn). rewrite Nat2Z.inj_succ, Z.pow_succ_r in * by lia.
    assert (Dn' : (2 ^ Z.of_nat n | nthz (st_ax C s) sh)) by (destruct Dn as (p & Hp); exists (2 * p); rewrite Hp; ring).
    specialize (E0 Dn'). assert (0 < 2 ^ Z.of_nat n) by (apply Z.pow_pos_nonneg; lia).
    set (u := approx_len PERIODIZATION (dec_len (st_w C s)) n (nthz (st_ax C s) sh)) in *.
    set (v := approx_len PERIODIZATION (dec_len (st_w C s)) (S n) (nthz (st_ax C s) sh)) in *. clearbody u v.
    assert (u = 2 * v) by nia. lia.
  - apply approx_len_pos; auto. apply Hw.
Qed.

Lemma odd_up_even axes sh : (forall k, In k axes -> nthz k sh mod 2 = 0) -> odd_up axes sh = sh.
Proof.
  intros H. apply nth_ext'; unfold odd_up; [rewrite map_length, seq_length; auto|].
  rewrite map_length, seq_length. intros k Hk. rewrite nthz_map_seq by auto. cbv zeta. destruct (in_dec _ _ _); auto. rewrite H by auto. lia.
Qed.

Lemma crop_same s (a : nd C) : good C s a -> ndcrop s a = a.
Proof. intros (W & <-). apply nd_ext; auto; [apply ndtab_wf; apply W|]. cbn [ndcrop nshape ndtab]. intros idx V. apply ndget_ndtab; auto. Qed.

Lemma appr_wsyn plan sh B N (Y : nat -> string -> nd C) : levels_good C fuel B sh plan N -> periodized plan sh N ->
  (forall l k, (1 <= l <= N)%nat -> In k (tl (ad_keys (List.length plan))) -> good C (lev plan l sh) (Y l k)) ->
  forall n a, (n <= N)%nat -> good C (lev plan n sh) a ->
  appr C plan n (wsyn C plan sh Y n a) = a /\
  forall j k, (j < n)%nat -> In k (tl (ad_keys (List.length plan))) -> band C k plan (appr C plan j (wsyn C plan sh Y n a)) = Y (S j) k.
Proof.
  intros HG HP HY. induction n as [|n IH]; intros a Hn Ha; cbn [wsyn appr]; [split; auto; intros; lia|].
  assert (HG' : levels_good C fuel B sh plan (S n)) by (intros j Hj; apply HG; lia).
  pose proof (HG n ltac:(lia)) as (_ & _ & _ & _ & Hd & H6).
  assert (Gw : good C (lev plan n sh) (wlev C plan sh (S n) a (Y (S n)))).
  { rewrite <- (odd_up_even (map (st_ax C) plan) (lev plan n sh)).
    - apply (wlev_good C fuel plan sh B); auto. intros; apply HY; auto; lia.
    - intros k Hk. apply in_map_iff in Hk. destruct Hk as (s & <- & Hs). apply (lev_even plan sh B N); auto. }
  destruct (IH (wlev C plan sh (S n) a (Y (S n))) ltac:(lia) Gw) as (E & Eb).
  set (Y' := fun k => if String.eqb k (all_a (List.length plan)) then ndcrop (lev plan (S n) sh) a else Y (S n) k).
  assert (Hb : forall k, In k (ad_keys (List.length plan)) -> band C k plan (wlev C plan sh (S n) a (Y (S n))) = Y' k).
  { intros k Hk. unfold wlev. apply (band_synth C plan Y' (lev plan (S n) sh)); auto.
    - intros s Hs. destruct (HP s Hs) as (? & ? & _). auto.
    - intros s Hs. split; [rewrite lev_shape_length; destruct (H6 s Hs) as ((A & _) & _); rewrite lev_shape_length in A; auto|].
      apply (lev_even plan sh B N); auto.
    - intros q Hq. apply (wlev_cond C plan sh n a); auto; [apply (lev_ok C fuel plan sh B n); auto|]. intros; apply HY; auto; lia. }
  split.
  - rewrite E, Hb by apply all_a_in. unfold Y'. rewrite String.eqb_refl. apply crop_same; auto.
  - intros j k Hj Hk. destruct (Nat.eq_dec j n) as [->|Hne]; [|apply Eb; auto; lia].
    rewrite E, Hb by (apply tl_keys in Hk; apply Hk). unfold Y'. apply tl_keys in Hk. destruct (String.eqb_spec k (all_a (List.length plan))); [tauto|auto].
Qed.

Theorem wavedecn_waverecn junk w m axes plan sh B N (V : nat -> string -> nd C) ds (a : sarr C) : plan <> [] -> 1 <= zlen sh <= 64 ->
  resolves C (zlen sh) w m axes plan -> NoDup axes -> plan_good C fuel B sh plan -> periodized plan sh N ->
  ds_hold C N (fun j => lev plan (N - j) sh) (tl (ad_keys (List.length plan))) ds V ->
  sarr_ok C a -> sshape a = lev plan N sh ->
  exists r a' ds', waverecn fuel junk (Some a) (map (map (fun '(k, v) => (k, Some v))) ds) w m (Some axes) = Ok (Some r) /\ sshape r = sh /\
    wavedecn fuel junk r w m (Some (Z.of_nat N)) (Some axes) = Ok (a', ds') /\ val C a' = val C a /\
    ds_hold C N (fun j => lev plan (N - j) sh) (tl (ad_keys (List.length plan))) ds' V.
Proof.
  intros Hne Hn HR Hnd HG HP Hds Ha Sa.
  assert (Hlev : forall s, In s plan -> levels_ok (st_m C s) (dec_len (st_w C s)) N (nthz (st_ax C s) sh)).
  { intros s Hs. destruct (HP s Hs) as (M & PR & _). pose proof HG as (_ & _ & _ & _ & _ & H6). destruct (H6 s Hs) as ((_ & Hw & Hm & _) & _).
    apply levels_ok_intro; auto; [apply Hw|rewrite M; auto]. }
  assert (HL : levels_good C fuel B sh plan N) by (apply levels_good_intro; auto).
  destruct (waverecn_arb C fuel junk w m axes plan sh B N V ds a Hne HR Hnd HL Hds Ha Sa) as (r & Er & Or & Sr & Vr).
  assert (Sr' : sshape r = sh).
  { rewrite Sr. destruct N as [|N]; auto. apply odd_up_even. intros k Hk. apply in_map_iff in Hk. destruct Hk as (s & <- & Hs).
    apply (lev_even plan sh B (S N) O s); auto. lia. }
  set (Y := fun l k => V (N - l)%nat k) in *.
  assert (HV : forall j k, (j < N)%nat -> In k (tl (ad_keys (List.length plan))) -> good C (lev plan (N - j) sh) (V j k)).
  { destruct Hds as (L & Hd). intros j k Hj Hk. destruct (nth_error ds j) as [d|] eqn:Ed; [|apply nth_error_None in Ed; lia].
    destruct (Hd j d Ed) as (K & Hv). destruct (in_keys d k) as (v & Hg); [rewrite K; auto|]. destruct (Hv k v Hg) as (V1 & V2 & V3).
    rewrite <- V3. split; [apply val_wf; auto|rewrite nshape_val; auto]. }
  destruct (appr_wsyn plan sh B N Y HL HP) with (n := N) (a := val C a) as (EA & EB); auto.
  { intros l k Hl Hk. unfold Y. replace (lev plan l sh) with (lev plan (N - (N - l)) sh) by (f_equal; lia). apply HV; auto. lia. }
  { split; [apply val_wf; auto|rewrite nshape_val; auto]. }
  assert (Hnd' : ndim r = zlen sh) by (unfold ndim; rewrite Sr'; reflexivity).
  destruct (wavedecn_spec C fuel junk r w m (Some (Z.of_nat N)) (Some axes) plan B (Z.of_nat N)) as (a' & Ed & Oa & Va); auto; rewrite ?Hnd'; rewrite ?Sr'; auto.
  { unfold check_level. destruct plan as [|s p]; [congruence|]. cbn [map MultilevelNdProofs.level_pairs].
    unfold level_pairs. cbn [map list_min]. replace (Z.of_nat N <? 0) with false by lia. reflexivity. }
  { rewrite Nat2Z.id. auto. }
  rewrite Nat2Z.id in *. exists r, a', (map (fun j => det C plan (appr C plan j (val C r))) (rev (seq 0 N))).
  split; [exact Er|]. split; auto. split; [exact Ed|]. split; [rewrite Va, Vr; exact EA|].
  assert (Sv : nshape (val C r) = sh) by (rewrite nshape_val; auto).
  pose proof (det_hold C fuel plan B (val C r) N (val_wf C r Or)) as DH. rewrite Sv in DH. specialize (DH HL). destruct DH as (D1 & D2). split; auto.
  intros j d Hj. destruct (D2 j d Hj) as (K & Hv). split; auto. intros k v Hg. destruct (Hv k v Hg) as (V1 & V2 & V3). split; auto. split; auto.
  rewrite V3, Vr. assert (j < N)%nat by (rewrite <- D1; apply nth_error_Some; congruence).
  rewrite EB by (try lia; rewrite <- K; apply dget_key in Hg; auto). unfold Y. f_equal. lia.
Qed.
End Nd.
