(** mran and mra2 with the decimated transform: waverecn on arbitrary
    coefficients of the right shapes, its additivity, and the sum of the terms. *)
From Coq Require Import Ascii String Permutation.
From Verif Require Import Base BaseLemmas CConv Spec ExtLemmas Lengths LengthsProofs Dwt DwtProofs PR Linear Swt SwtSpec SwtProofs Nd NdSpec NdLinear Axis AxisProofs AxisProofs2 Multidim MultidimProofs MultidimFacts Multilevel MultilevelProofs MultilevelNd MultilevelNdProofs MultilevelNdFacts SwtNd SwtNdArgs AxisOps NdSynth NdSwtSpec SwtNdBand SwtNdSlices SwtNdLevel SwtNdLevel2 SwtNdFwd SwtNdInv Mra MraProofs MranLoop MranSum MranAdd MranSwt.

Section M.
Variable C : CRing.
Add Ring Cring_ring_mrdw : (rth C).
Variable fuel : nat.
Notation step := (MultidimProofs.step C).
Notation fam := (nat -> string -> nd C).
Notation axs plan := (map (st_ax C) plan).

(** ** Shapes *)
Definition up_step (plan : list step) (sh : list Z) : list Z := fold_left (fun sh s => ssh C s sh) plan sh.
Lemma up_step_length plan : forall sh, List.length (up_step plan sh) = List.length sh.
Proof. unfold up_step. induction plan as [|s p IH]; intros sh; cbn [fold_left]; auto. rewrite IH. unfold ssh. apply setn_length. Qed.
Lemma nthz_up_step_ne plan : forall sh k, ~ In k (axs plan) -> nthz k (up_step plan sh) = nthz k sh.
Proof.
  unfold up_step. induction plan as [|t p IH]; intros sh k Hni; cbn [fold_left]; auto.
  rewrite IH by (intros H; apply Hni; right; auto). unfold ssh. apply nthz_setn_ne. intros E. apply Hni. left; auto.
Qed.
Lemma nthz_up_step plan : forall sh s, NoDup (axs plan) -> In s plan -> (st_ax C s < List.length sh)%nat ->
  nthz (st_ax C s) (up_step plan sh) = rec_len (st_m C s) (nthz (st_ax C s) sh) (dec_len (st_w C s)).
Proof.
  induction plan as [|t p IH]; intros sh s Hd Hs Ha; [destruct Hs|]. change (up_step (t :: p) sh) with (up_step p (ssh C t sh)).
  inversion Hd as [|? ? Hni Hd']; subst. destruct Hs as [->|Hs].
  - rewrite nthz_up_step_ne by auto. unfold ssh. apply nthz_setn. auto.
  - rewrite IH; auto.
    + unfold ssh. rewrite nthz_setn_ne; auto. intros E. apply Hni. rewrite <- E. apply in_map. auto.
    + unfold ssh. rewrite setn_length. auto.
Qed.
Lemma axs_dec (plan : list step) k : (exists s, In s plan /\ st_ax C s = k) \/ ~ In k (axs plan).
Proof. destruct (in_dec Nat.eq_dec k (axs plan)) as [Hi|Hi]; auto. left. apply in_map_iff in Hi as (s & E & Hs). eauto. Qed.

Lemma syn_level B sh plan : plan_good C fuel B sh plan -> syn_good C fuel B (lev_step C plan sh) plan.
Proof.
  intros (H1 & H2 & H3 & H4 & H5 & H6).
  assert (A : forall s, In s plan -> nthz (st_ax C s) (lev_step C plan sh) = coeff_len (st_m C s) (nthz (st_ax C s) sh) (dec_len (st_w C s))).
  { intros s Hs. apply nthz_lev_step; auto. apply (H6 s Hs). }
  assert (A2 : forall s, In s plan -> 1 <= nthz (st_ax C s) sh /\ 1 <= nthz (st_ax C s) (lev_step C plan sh) <= Z.max (nthz (st_ax C s) sh) (dec_len (st_w C s))).
  { intros s Hs. rewrite A by auto. destruct (H6 s Hs) as (Hok & _). apply (step_len C fuel s sh Hok). }
  refine (conj H1 (conj _ (conj _ (conj _ (conj H5 _))))).
  - rewrite lev_step_length. auto.
  - apply (shape_ok_nthz fuel). intros k Hk. rewrite lev_step_length in Hk. destruct (axs_dec plan k) as [(s & Hs & <-)|Hni].
    + specialize (A2 s Hs). lia.
    + rewrite nthz_lev_step_ne by auto. apply shape_ok_nth. auto.
  - intros k. destruct (axs_dec plan k) as [(s & Hs & <-)|Hni].
    + specialize (A2 s Hs). destruct (H6 s Hs) as (_ & Hb). lia.
    + rewrite nthz_lev_step_ne by auto. auto.
  - intros s Hs. destruct (H6 s Hs) as ((Ha & Hw & Hm & Hr) & Hb). destruct (A2 s Hs) as (N1 & N2).
    pose proof Hw as (F1 & F2 & F3 & F4 & F5).
    assert (ER : rec_len (st_m C s) (nthz (st_ax C s) (lev_step C plan sh)) (dec_len (st_w C s)) = nthz (st_ax C s) sh + nthz (st_ax C s) sh mod 2).
    { rewrite A by auto. apply rec_coeff_len; auto; lia. }
    split; [rewrite lev_step_length; auto|]. rewrite ER. split; [|lia].
    split; auto. split; [unfold resources in *; lia|]. split; [lia|]. rewrite ER. lia.
Qed.
Lemma up_shape B sh plan : plan_good C fuel B sh plan -> up_step (rev plan) (lev_step C plan sh) = odd_up (axs plan) sh.
Proof.
  intros HG. pose proof (syn_level _ _ _ HG) as (_ & _ & _ & _ & _ & HS). destruct HG as (H1 & H2 & H3 & H4 & H5 & H6).
  assert (HN : NoDup (axs (rev plan))) by (rewrite map_rev; apply NoDup_rev; auto).
  apply nth_ext'; [unfold odd_up; rewrite map_length, seq_length, up_step_length, lev_step_length; auto|].
  intros k Hk. rewrite up_step_length, lev_step_length in Hk. unfold odd_up. rewrite nthz_map_seq by auto. cbv zeta.
  destruct (in_dec Nat.eq_dec k (axs plan)) as [Hi|Hi].
  - apply in_map_iff in Hi as (s & <- & Hs). destruct (H6 s Hs) as ((Ha & Hw & Hm & Hr) & Hb). pose proof Hw as (F1 & F2 & F3 & F4 & F5).
    assert (1 <= nthz (st_ax C s) sh) by (apply (step_len C fuel s sh); split; auto).
    rewrite nthz_up_step; auto; [|apply in_rev; rewrite rev_involutive; auto|rewrite lev_step_length; auto].
    rewrite nthz_lev_step by auto. apply rec_coeff_len; auto; lia.
  - rewrite nthz_up_step_ne by (rewrite map_rev; intros Hc; apply in_rev in Hc; auto). apply nthz_lev_step_ne. auto.
Qed.

Definition near (s t : list Z) : Prop := Forall2 (fun s t => 0 <= s - t <= 1) s t.
Lemma near_le s t : near s t -> shape_le t s.
Proof. induction 1; constructor; auto. lia. Qed.
Lemma near_refl s : near s s.
Proof. induction s; constructor; auto. lia. Qed.
Lemma near_odd plan sh : near (odd_up (axs plan) sh) sh.
Proof.
  unfold odd_up, near.
  assert (H : Forall2 (fun s t => 0 <= s - t <= 1)
     (map (fun k => let n := nthz k sh in if in_dec Nat.eq_dec k (axs plan) then n + n mod 2 else n) (seq 0 (List.length sh)))
     (map (fun k => nthz k sh) (seq 0 (List.length sh)))).
  { induction (seq 0 (List.length sh)) as [|k t IH]; cbn [map]; constructor; auto. cbv zeta. destruct (in_dec _ _ _); lia. }
  replace (map (fun k => nthz k sh) (seq 0 (List.length sh))) with sh in H; auto.
  apply nth_ext'; [rewrite map_length, seq_length; auto|]. intros k Hk. rewrite nthz_map_seq by auto. reflexivity.
Qed.

(** ** The value of waverecn *)
Section W.
Variable plan : list step.
Variable sh : list Z.
Notation lev := (lev_shape C plan).
Notation K := (tl (ad_keys (List.length plan))).
Definition wlev (l : nat) (a : nd C) (Y : string -> nd C) : nd C :=
  synth C plan (fun k => if String.eqb k (all_a (List.length plan)) then ndcrop (lev l sh) a else Y k).
Fixpoint wsyn (Y : fam) (n : nat) (a : nd C) : nd C :=
  match n with O => a | S n' => wsyn Y n' (wlev n a (Y n)) end.

Lemma crop_good s (a : nd C) : shape_ok s -> good C s (ndcrop s a).
Proof. intros H. split; [apply ndtab_wf; auto|reflexivity]. Qed.
Lemma crop_add s t (a b : nd C) : shape_ok s -> good C t a -> good C t b -> shape_le s t -> ndcrop s (ndadd a b) = ndadd (ndcrop s a) (ndcrop s b).
Proof.
  intros Hs (Wa & Sa) (Wb & Sb) Hle. unfold ndadd at 2, ndcrop at 1. cbn [ndcrop nshape ndtab]. apply ndtab_ext; auto. intros idx V.
  unfold ndcrop. rewrite !ndget_ndtab by auto. apply ndget_ndadd. rewrite Sa. eapply valid_shape_le; eauto.
Qed.

Variable B : list Z.
Lemma wlev_cond n a (Y : string -> nd C) : shape_ok (lev (S n) sh) -> (forall k, In k K -> good C (lev (S n) sh) (Y k)) ->
  forall k, In k (ad_keys (List.length plan)) -> good C (lev (S n) sh) (if String.eqb k (all_a (List.length plan)) then ndcrop (lev (S n) sh) a else Y k).
Proof.
  intros Hs HY k Hk. destruct (String.eqb_spec k (all_a (List.length plan))) as [->|Ne]; [apply crop_good; auto|].
  apply HY. apply tl_keys. auto.
Qed.
Lemma lev_ok n : levels_good C fuel B sh plan (S n) -> shape_ok (lev (S n) sh).
Proof. intros HG. destruct (syn_level _ _ _ (HG n ltac:(lia))) as (_ & _ & H & _). exact H. Qed.
Lemma wlev_good n a Y : levels_good C fuel B sh plan (S n) -> (forall k, In k K -> good C (lev (S n) sh) (Y k)) ->
  good C (odd_up (axs plan) (lev n sh)) (wlev (S n) a Y).
Proof.
  intros HG HY. assert (G := HG n ltac:(lia)). assert (HC := wlev_cond n a Y (lev_ok n HG) HY). split.
  - apply (synth_good C fuel B plan _ (lev (S n) sh)); auto. apply syn_level; auto.
  - unfold wlev. rewrite (synth_shape C plan _ (lev (S n) sh)).
    + apply (up_shape B). auto.
    + intros k Hk. apply HC; auto.
    + intros s Hs. destruct G as (_ & _ & _ & _ & _ & G6). apply (G6 s Hs).
Qed.
Lemma wlev_ext n a Y Y' : (forall k, In k K -> Y k = Y' k) -> wlev n a Y = wlev n a Y'.
Proof.
  intros H. apply synth_ext. intros k Hk. destruct (String.eqb_spec k (all_a (List.length plan))); auto. apply H, tl_keys. auto.
Qed.
Lemma wsyn_ext Y Y' : forall n a, (forall l k, (1 <= l <= n)%nat -> In k K -> Y l k = Y' l k) -> wsyn Y n a = wsyn Y' n a.
Proof.
  induction n as [|n IH]; intros a H; cbn [wsyn]; auto. rewrite (wlev_ext (S n) a (Y (S n)) (Y' (S n))) by (intros; apply H; auto; lia).
  apply IH. intros; apply H; auto; lia.
Qed.

Lemma wlev_add n a a' Y Y' s : levels_good C fuel B sh plan (S n) -> good C s a -> good C s a' -> near s (lev (S n) sh) ->
  (forall k, In k K -> good C (lev (S n) sh) (Y k)) -> (forall k, In k K -> good C (lev (S n) sh) (Y' k)) ->
  wlev (S n) (ndadd a a') (fun k => ndadd (Y k) (Y' k)) = ndadd (wlev (S n) a Y) (wlev (S n) a' Y').
Proof.
  intros HG Ha Ha' Hn HY HY'. assert (G := HG n ltac:(lia)). assert (Hs := lev_ok n HG).
  unfold wlev. rewrite <- (synth_add C fuel B plan _ _ (lev (S n) sh)).
  - apply synth_ext. intros k Hk. destruct (String.eqb_spec k (all_a (List.length plan))); auto.
    apply (crop_add _ s); auto. apply near_le; auto.
  - apply syn_level; auto.
  - apply wlev_cond; auto.
  - apply wlev_cond; auto.
Qed.
Lemma wsyn_shape Y : forall n a s, levels_good C fuel B sh plan n -> good C s a -> (forall l k, (1 <= l <= n)%nat -> In k K -> good C (lev l sh) (Y l k)) ->
  good C (match n with O => s | S _ => odd_up (axs plan) sh end) (wsyn Y n a).
Proof.
  induction n as [|n IH]; intros a s HG Ha HY; cbn [wsyn]; auto.
  assert (G1 : good C (odd_up (axs plan) (lev n sh)) (wlev (S n) a (Y (S n)))) by (apply wlev_good; auto; intros; apply HY; auto; lia).
  specialize (IH _ _ ltac:(intros j Hj; apply HG; lia) G1 ltac:(intros; apply HY; auto; lia)). destruct n; auto.
Qed.
Theorem wsyn_add Y Y' : forall n a a' s, levels_good C fuel B sh plan n -> good C s a -> good C s a' -> near s (lev n sh) ->
  (forall l k, (1 <= l <= n)%nat -> In k K -> good C (lev l sh) (Y l k)) -> (forall l k, (1 <= l <= n)%nat -> In k K -> good C (lev l sh) (Y' l k)) ->
  wsyn (fun l k => ndadd (Y l k) (Y' l k)) n (ndadd a a') = ndadd (wsyn Y n a) (wsyn Y' n a').
Proof.
  induction n as [|n IH]; intros a a' s HG Ha Ha' Hn HY HY'; cbn [wsyn]; auto.
  rewrite (wlev_add n a a' (Y (S n)) (Y' (S n)) s); auto; try (intros; first [apply HY|apply HY']; auto; lia).
  apply (IH _ _ (odd_up (axs plan) (lev n sh))).
  - intros j Hj; apply HG; lia.
  - apply wlev_good; auto; intros; apply HY; auto; lia.
  - apply wlev_good; auto; intros; apply HY'; auto; lia.
  - apply near_odd.
  - intros; apply HY; auto; lia.
  - intros; apply HY'; auto; lia.
Qed.
End W.

(** waverecn on arbitrary coefficients of the right shapes. *)
Lemma crop_covers (a : sarr C) s : sarr_ok C a -> shape_ok s -> near (sshape a) s -> covers C a (ndcrop s (val C a)).
Proof.
  intros Ha Hs Hn. split; auto. split; [exact Hn|]. intros idx V. unfold ndcrop. rewrite ndget_ndtab; auto.
Qed.

Lemma wrec_step junk w m axes plan sh B n (a : sarr C) d (Y : string -> nd C) (first : bool) : plan <> [] ->
  resolves C (zlen sh) w m axes plan -> levels_good C fuel B sh plan (S n) ->
  map fst d = tl (ad_keys (List.length plan)) ->
  (forall k v, dget d k = Some v -> sarr_ok C v /\ sshape v = lev_shape C plan (S n) sh /\ val C v = Y k) ->
  sarr_ok C a -> near (sshape a) (lev_shape C plan (S n) sh) -> (first = true -> sshape a = lev_shape C plan (S n) sh) ->
  exists a' r, (if first then Ok (Some a) else match_coeff_dims (Some a) d) = Ok (Some a') /\
    idwtn fuel junk (dset (map (fun '(k, v) => (k, Some v)) d) (all_a (List.length axes)) (Some a')) w m (Some axes) = Ok (Some r) /\
    sarr_ok C r /\ val C r = wlev plan sh (S n) (val C a) Y.
Proof.
  intros Hne HR HG HK Hv Ha Hnr Hf. assert (G := HG n ltac:(lia)). assert (Hs := lev_ok plan sh B n HG). set (s := lev_shape C plan (S n) sh) in *.
  assert (Hpl : (1 <= List.length plan)%nat) by (destruct plan; cbn; [congruence|lia]).
  assert (Cov := crop_covers a s Ha Hs Hnr). assert (Wz : nd_wf (ndcrop s (val C a))) by (apply crop_good; auto).
  assert (Ls : List.length s = List.length sh) by apply lev_shape_length.
  assert (In_get : forall k v, In (k, v) d -> In k (tl (ad_keys (List.length plan))) /\ dget d k = Some v).
  { intros k v Hi. split; [rewrite <- HK; apply in_map with (f := fst) in Hi; exact Hi|]. apply dget_in; auto. rewrite HK. apply tl_keys_NoDup. }
  assert (H : exists a', (if first then Ok (Some a) else match_coeff_dims (Some a) d) = Ok (Some a') /\ sarr_ok C a' /\ sshape a' = s /\ val C a' = ndcrop s (val C a)).
  { destruct first.
    - exists a. split; auto. split; auto. split; auto. apply covers_exact; auto.
    - destruct d as [|[k v] t] eqn:Ed; [exfalso; cbn in HK; symmetry in HK; apply (tl_keys_ne _ Hpl HK)|]. rewrite <- Ed in *.
      assert (Sv : sshape v = s) by (apply (Hv k v); apply In_get; rewrite Ed; left; auto).
      exists (view a s). cbn [match_coeff_dims]. rewrite Ed, Sv.
      assert (Hb : existsb (fun '(s, t) => (s - t <? 0) || (1 <? s - t)) (combine (sshape a) s) = false).
      { clear -Hnr. clearbody s. induction Hnr; cbn [combine existsb]; auto. rewrite IHHnr. replace ((x - y <? 0) || (1 <? x - y)) with false by lia. reflexivity. }
      rewrite Hb. split; auto. destruct (view_spec C a _ Cov Wz) as (V1 & V2). split; auto. }
  destruct H as (a' & E1 & O' & S' & V'). exists a'.
  assert (Ed : dset (map (fun '(k, v) => (k, Some v)) d) (all_a (List.length axes)) (Some a') = map (fun '(k, v) => (k, Some v)) (d ++ [(all_a (List.length plan), a')])).
  { rewrite (resolves_len C _ _ _ _ _ HR), map_app. apply dset_not_in. rewrite map_map. intros Hi.
    apply in_map_iff in Hi. destruct Hi as ([k v] & E & Hi). cbn in E. destruct (In_get _ _ Hi) as (Hk & _). apply tl_keys in Hk. tauto. }
  destruct (idwtn_synth C fuel junk (d ++ [(all_a (List.length plan), a')])
     (fun k => if String.eqb k (all_a (List.length plan)) then ndcrop s (val C a) else Y k) w m (Some axes) plan B s) as (r & Er & Or & Vr).
  - apply syn_level; auto.
  - cbn [default_axes]. unfold zlen in *. rewrite Ls. auto.
  - intros k v Hi. apply in_app_or in Hi as [Hi|[Hi|[]]].
    + destruct (In_get _ _ Hi) as (Hk & Hg). destruct (proj1 (tl_keys _ _) Hk) as (K1 & K2). destruct (Hv _ _ Hg) as (V1 & V2 & V3).
      split; auto. split; auto. split; auto. destruct (String.eqb_spec k (all_a (List.length plan))); [congruence|auto].
    + injection Hi as <- <-. rewrite String.eqb_refl. split; [apply all_a_in|auto].
  - intros k Hk. apply in_keys. rewrite map_app, HK. cbn [map fst]. rewrite ad_keys_head in Hk. apply in_or_app. destruct Hk as [<-|Hk]; [right; left; auto|left; auto].
  - exists r. rewrite Ed. auto.
Qed.

Theorem wrec_loop junk w m axes plan sh B N (V : fam) : plan <> [] -> resolves C (zlen sh) w m axes plan ->
  forall n ds a first, levels_good C fuel B sh plan n -> (n <= N)%nat -> List.length ds = n ->
  (forall j d, nth_error ds j = Some d -> map fst d = tl (ad_keys (List.length plan)) /\
     forall k v, dget d k = Some v -> sarr_ok C v /\ sshape v = lev_shape C plan (n - j) sh /\ val C v = V (N - n + j)%nat k) ->
  sarr_ok C a -> near (sshape a) (lev_shape C plan n sh) -> (first = true -> sshape a = lev_shape C plan n sh) ->
  exists r, waverecn_loop fuel junk (Some a) ds first w m axes = Ok (Some r) /\ sarr_ok C r /\
    sshape r = match n with O => sshape a | S _ => odd_up (axs plan) sh end /\ val C r = wsyn plan sh (fun l k => V (N - l)%nat k) n (val C a).
Proof.
  intros Hne HR. induction n as [|n IH]; intros [|d ds] a first HG HN HL Hd Ha Hnr Hf; cbn in HL; try lia.
  - exists a. cbn. auto.
  - destruct (Hd 0%nat d eq_refl) as (HK & Hv). rewrite Nat.sub_0_r, Nat.add_0_r in Hv.
    destruct (wrec_step junk w m axes plan sh B n a d (V (N - S n)%nat) first) as (a' & r & E1 & E2 & Or & Vr); auto.
    cbn [waverecn_loop wsyn]. rewrite E1. cbn [bind]. rewrite E2. cbn [bind].
    assert (Gr : good C (odd_up (axs plan) (lev_shape C plan n sh)) (wlev plan sh (S n) (val C a) (V (N - S n)%nat))).
    { apply (wlev_good plan sh B); auto. intros k Hk. destruct (in_keys d k) as (v & Hg); [rewrite HK; auto|].
      destruct (Hv k v Hg) as (V1 & V2 & V3). rewrite <- V3. split; [apply val_wf; auto|rewrite nshape_val; auto]. }
    assert (Sr : sshape r = odd_up (axs plan) (lev_shape C plan n sh)) by (rewrite <- (nshape_val C r), Vr; apply Gr).
    destruct (IH ds r false) as (r' & Er & Or' & Sr' & Vr'); auto; try lia.
    + intros j Hj. apply HG. lia.
    + intros j d' Hj. destruct (Hd (S j) d' Hj) as (HK' & Hv'). split; auto. intros k v Hg.
      destruct (Hv' k v Hg) as (V1 & V2 & V3). split; auto. split; [exact V2|]. rewrite V3. f_equal. lia.
    + rewrite Sr. apply near_odd.
    + exists r'. split; [exact Er|]. split; auto. split; [rewrite Sr'; destruct n; auto|]. rewrite Vr', Vr. reflexivity.
Qed.

Theorem waverecn_arb junk w m axes plan sh B N (V : fam) ds a : plan <> [] -> resolves C (zlen sh) w m axes plan ->
  NoDup axes -> levels_good C fuel B sh plan N -> ds_hold C N (fun j => lev_shape C plan (N - j) sh) (tl (ad_keys (List.length plan))) ds V ->
  sarr_ok C a -> sshape a = lev_shape C plan N sh ->
  exists r, waverecn fuel junk (Some a) (map (map (fun '(k, v) => (k, Some v))) ds) w m (Some axes) = Ok (Some r) /\ sarr_ok C r /\
    sshape r = match N with O => sh | S _ => odd_up (axs plan) sh end /\ val C r = wsyn plan sh (fun l k => V (N - l)%nat k) N (val C a).
Proof.
  intros Hne HR Hnd HG (HL & Hd) Ha Sa.
  destruct (wrec_loop junk w m axes plan sh B N V Hne HR N ds a true) as (r & Er & Or & Sr & Vr); auto.
  { intros j d Hj. rewrite Nat.sub_diag. apply Hd; auto. }
  { rewrite Sa. apply near_refl. }
  assert (In_get : forall d k v, In d ds -> In (k, v) d -> In k (tl (ad_keys (List.length plan))) /\ exists j, sarr_ok C v /\ sshape v = lev_shape C plan (N - j) sh).
  { intros d k v Hi Hk. apply In_nth_error in Hi as (j & Hj). destruct (Hd j d Hj) as (HK & Hv).
    split; [rewrite <- HK; apply in_map with (f := fst) in Hk; exact Hk|]. exists j. assert (Hg : dget d k = Some v) by (apply dget_in; auto; rewrite HK; apply tl_keys_NoDup).
    destruct (Hv k v Hg) as (V1 & V2 & _). auto. }
  exists r. split; [|split; auto; split; auto; rewrite Sr; destruct N; auto]. unfold waverecn.
  assert (Hfix : mapM fix_coeffs (map (map (fun '(k, v) => (k, Some v))) ds) = Ok ds).
  { assert (Hk : forall d, In d ds -> fix_coeffs (map (fun '(k, v) => (k, Some v)) d) = Ok d).
    { intros d Hi. apply (fix_coeffs_some C d (List.length plan)). intros k v Hkv. destruct (In_get d k v Hi Hkv) as (Hk & _). apply tl_keys in Hk as (Hk & _).
      split; [apply ad_keys_length; auto|apply (ad_keys_ad _ _ Hk)]. }
    clear -Hk. induction ds as [|d t IH]; cbn [map mapM]; auto.
    rewrite (Hk d) by (left; auto). cbn [bind]. rewrite IH by (intros; apply Hk; right; auto). reflexivity. }
  rewrite Hfix. cbn [bind]. destruct ds as [|d0 dt] eqn:Eds; [exact Er|]. rewrite <- Eds in *. cbn [app].
  assert (Hndim : existsb (fun x => negb (ndim x =? ndim a)) (flat_map (map snd) ds) = false).
  { assert (Hall : forall v, In v (flat_map (map snd) ds) -> ndim v = ndim a).
    { intros v Hv. apply in_flat_map in Hv. destruct Hv as (d & Hi & Hv). apply in_map_iff in Hv. destruct Hv as ([k v'] & E & Hkv).
      cbn in E. subst v'. destruct (In_get d k v Hi Hkv) as (_ & j & _ & Sv). unfold ndim, zlen. rewrite Sv, Sa, !lev_shape_length. auto. }
    clear -Hall. induction (flat_map (map snd) ds) as [|v t IH]; cbn [existsb]; auto.
    rewrite (Hall v) by (left; auto). rewrite Z.eqb_refl. cbn. apply IH. intros; apply Hall; right; auto. }
  rewrite Hndim, (distinct_NoDup axes Hnd), Nat.eqb_refl. cbn [negb]. exact Er.
Qed.

(** ** mran *)
Definition Tdwt (plan : list step) (sh : list Z) (N : nat) (a : nd C) (V : fam) : nd C := wsyn plan sh (fun l k => V (N - l)%nat k) N a.

Lemma Tdwt_additive plan sh B N K : levels_good C fuel B sh plan N -> (forall k, In k (tl (ad_keys (List.length plan))) <-> In k K) ->
  additive C N K (lev_shape C plan N sh) (fun j => lev_shape C plan (N - j) sh) (Tdwt plan sh N).
Proof.
  intros HG HK. split.
  - intros a V V' H. apply wsyn_ext. intros l k Hl Hk. apply H; [lia|apply HK; auto].
  - intros a a' V V' Wa Wa' Sa Sa' HV HV'.
    apply (wsyn_add plan sh B (fun l k => V (N - l)%nat k) (fun l k => V' (N - l)%nat k) N a a' (lev_shape C plan N sh)); auto; try (split; auto; fail).
    + apply near_refl.
    + intros l k Hl Hk. destruct (HV (N - l)%nat k ltac:(lia)) as (W & S); [apply HK; auto|]. split; auto. rewrite S. f_equal. lia.
    + intros l k Hl Hk. destruct (HV' (N - l)%nat k ltac:(lia)) as (W & S); [apply HK; auto|]. split; auto. rewrite S. f_equal. lia.
Qed.
Lemma Tdwt_shape plan sh B N K (a : nd C) V : levels_good C fuel B sh plan N -> (forall k, In k (tl (ad_keys (List.length plan))) <-> In k K) ->
  nd_wf a -> nshape a = lev_shape C plan N sh -> fam_ok C N K (fun j => lev_shape C plan (N - j) sh) V ->
  nshape (Tdwt plan sh N a V) = match N with O => sh | S _ => odd_up (axs plan) sh end.
Proof.
  intros HG HK Wa Sa HV.
  assert (G := wsyn_shape plan sh B (fun l k => V (N - l)%nat k) N a (lev_shape C plan N sh) HG (conj Wa Sa)).
  destruct G as (_ & G).
  - intros l k Hl Hk. destruct (HV (N - l)%nat k ltac:(lia)) as (W & S); [apply HK; auto|]. split; auto. rewrite S. f_equal. lia.
  - unfold Tdwt. rewrite G. destruct N; auto.
Qed.

Lemma shape_le_up plan sh N : shape_le sh (match N with O => sh | S _ => odd_up (axs plan) sh end).
Proof. destruct N; [apply shape_le_refl|apply near_le, near_odd]. Qed.

Lemma det_hold plan B (x : nd C) N : nd_wf x -> levels_good C fuel B (nshape x) plan N ->
  ds_hold C N (fun j => lev_shape C plan (N - j) (nshape x)) (tl (ad_keys (List.length plan))) (map (fun j => det C plan (appr C plan j x)) (rev (seq 0 N)))
    (fun j k => band C k plan (appr C plan (N - j - 1) x)).
Proof.
  intros Hx HG. split; [rewrite map_length, rev_length, seq_length; auto|]. intros j d Hj. rewrite nth_error_map in Hj.
  destruct (nth_error (rev (seq 0 N)) j) as [i|] eqn:Ei; [|discriminate]. injection Hj as <-.
  assert (Hi : (j < N)%nat /\ i = (N - j - 1)%nat).
  { clear -Ei. revert j Ei. induction N as [|N IH]; intros j Ei; [destruct j; discriminate|]. rewrite seq_S, rev_app_distr in Ei. cbn [rev app Nat.add] in Ei.
    destruct j as [|j]; cbn [nth_error] in Ei; [injection Ei as <-; lia|]. destruct (IH j Ei). lia. }
  destruct Hi as (Hj & ->). split; [unfold det; rewrite map_map; apply map_id|]. intros k v Hg. apply dget_In in Hg.
  destruct (det_keys C plan _ k v Hg) as (Hk & _ & ->).
  destruct (appr_wf C fuel plan B (N - j - 1) x Hx) as (Wz & Sz); [intros q Hq; apply HG; lia|].
  pose proof (HG (N - j - 1)%nat ltac:(lia)) as G. rewrite <- Sz in G. pose proof (plan_good_ok _ _ _ _ _ G) as Hpo.
  assert (Wb : nd_wf (band C k plan (appr C plan (N - j - 1) x))) by (apply (band_wf C fuel); auto).
  split; [apply of_nd_ok; auto|]. split; [|apply val_of_nd; auto]. cbn [of_nd sshape].
  rewrite (band_shape C fuel) by (auto; apply ad_keys_length; auto). transitivity (lev_shape C plan (S (N - j - 1)) (nshape x)); [cbn [lev_shape]; rewrite <- Sz; reflexivity|f_equal; lia].
Qed.

Theorem mran_dwt junk half sq2 isq2 (data : sarr C) w m level axes plan B l :
  sarr_ok C data -> 1 <= ndim data <= 64 -> plan <> [] ->
  resolves C (ndim data) w m (default_axes (ndim data) axes) plan ->
  plan_good C fuel B (sshape data) plan -> (forall s, In s plan -> pr_wavelet (st_w C s)) ->
  check_level (level_pairs C (sshape data) plan) level = Ok l ->
  (forall s, In s plan -> levels_ok (st_m C s) (dec_len (st_w C s)) (Z.to_nat l) (nthz (st_ax C s) (sshape data))) ->
  exists cA out, mran fuel junk half sq2 isq2 data w level axes TDwt m = Ok (cA, out) /\
    sarr_ok C cA /\ sshape cA = sshape data /\ List.length out = Z.to_nat l /\
    (forall d, In d out -> map fst d = tl (ad_keys (List.length plan)) /\ forall k v, In (k, v) d -> sarr_ok C v /\ sshape v = sshape data) /\
    forall idx, valid (sshape data) idx ->
      ndget (val C cA) idx [+] psum C (fun '(_, v) => ndget (val C v) idx) (concat out) = ndget (val C data) idx.
Proof.
  intros Hok Hn Hne (R1 & R2 & R3) Hg Hpr Hl Hlev. set (x := val C data). assert (Hx : nd_wf x) by (apply val_wf; auto).
  assert (Sx : nshape x = sshape data) by apply nshape_val. set (ax := default_axes (ndim data) axes) in *.
  assert (Lax : List.length ax = List.length plan) by (apply (f_equal (@List.length Z)) in R1; unfold norm_axes in R1; rewrite !map_length in R1; auto).
  pose proof Hg as (_ & _ & Hso & _ & Hd & H6).
  unfold mran. assert (PA : prep_axes (sshape data) axes = Ok (ax, map (fun s => nthz (st_ax C s) (sshape data)) plan)).
  { apply prep_axes_ok; auto; [unfold ndim in Hn; lia|]. intros s Hs. apply (H6 s Hs). }
  rewrite PA. cbn [bind]. rewrite Lax, R2, R3. cbn [bind]. clear PA.
  assert (RS : resolves C (ndim data) (Seq (map (st_w C) plan)) (Seq (map (st_m C) plan)) (default_axes (ndim data) (Some ax)) plan).
  { split; auto. split; [rewrite <- (map_length (st_w C) plan) at 1; apply objs_seq|rewrite <- (map_length (st_m C) plan) at 1; apply objs_seq]. }
  destruct (wavedecn_spec C fuel junk data (Seq (map (st_w C) plan)) (Seq (map (st_m C) plan)) level (Some ax) plan B l Hok Hn Hne RS Hg Hl Hlev) as (a & Ea & Oa & Va).
  destruct (waverecn_wavedecn C fuel junk data (Seq (map (st_w C) plan)) (Seq (map (st_m C) plan)) level (Some ax) plan B l Hok Hn Hne RS Hg Hpr Hl Hlev)
    as (a2 & ds2 & r & Ea2 & _ & Er & Sr & Hr).
  rewrite Ea in Ea2. injection Ea2 as <- <-. rewrite Ea. cbn [bind].
  set (N := Z.to_nat l) in *. assert (HG : levels_good C fuel B (sshape data) plan N) by (apply levels_good_intro; auto).
  assert (Hnd : NoDup ax) by (apply (norm_axes_NoDup C _ _ _ R1 Hd)).
  assert (Hpl : (1 <= List.length plan)%nat) by (destruct plan; cbn; [congruence|lia]).
  assert (HH := det_hold plan B x N Hx). rewrite Sx in HH. specialize (HH HG). fold x in Va, Er |- *.
  assert (Sa : sshape a = lev_shape C plan N (sshape data)).
  { rewrite <- (nshape_val C a), Va, <- Sx. apply (appr_wf C fuel plan B); auto. }
  set (V := fun (j : nat) k => band C k plan (appr C plan (N - j - 1) x)) in *.
  apply (mran_sum C N (fun j => lev_shape C plan (N - j) (sshape data)) (lev_shape C plan N (sshape data)) (match N with O => sshape data | S _ => odd_up (axs plan) (sshape data) end)
     (sshape data) (Tdwt plan (sshape data) N) (fun idx => ndget x idx)) with (V := V); auto.
  - apply tl_keys_NoDup.
  - apply tl_keys_ne; auto.
  - apply (Tdwt_additive _ _ B); auto. reflexivity.
  - intros a' V' W S HV. apply (Tdwt_shape _ _ B _ (tl (ad_keys (List.length plan)))); auto. reflexivity.
  - intros a' ds' V' Oa' Sa' HD.
    destruct (waverecn_arb junk (Seq (map (st_w C) plan)) (Seq (map (st_m C) plan)) ax plan (sshape data) B N V' ds' a' Hne RS Hnd HG HD Oa' Sa') as (r' & Er' & Or' & Sr' & Vr').
    exists r'. rewrite Er'. cbn [bind]. auto.
  - apply shape_le_up.
  - intros idx Vi. transitivity (ndget (val C r) idx); [|apply (Hr idx Vi)].
    destruct (waverecn_arb junk (Seq (map (st_w C) plan)) (Seq (map (st_m C) plan)) ax plan (sshape data) B N V _ a Hne RS Hnd HG HH Oa Sa) as (r' & Er' & Or' & Sr' & Vr').
    fold x in Er. rewrite Er' in Er. injection Er as <-. rewrite Vr'. reflexivity.
Qed.

(** ** mra2 *)
Lemma of3_all ds : (forall d : list (sarr C), In d ds -> List.length d = 3%nat) -> exists ts, mapM of3 ds = Ok ts /\ map to3 ts = ds.
Proof.
  induction ds as [|d ds IH]; intros H; [exists []; split; reflexivity|]. destruct IH as (ts & E & M); [intros; apply H; right; auto|].
  assert (L := H d (or_introl eq_refl)). destruct d as [|h [|v [|e [|? ?]]]]; cbn in L; try lia.
  exists ((h, v, e) :: ts). cbn [mapM of3 bind]. rewrite E. cbn [bind map to3]. rewrite M. auto.
Qed.
Lemma nth_map_inv {A A'} (f : A -> A') l j d : nth_error (map f l) j = Some d -> exists t, nth_error l j = Some t /\ d = f t.
Proof. rewrite nth_error_map. destruct (nth_error l j) as [t|]; [|discriminate]. intros E. injection E as <-. eauto. Qed.
Lemma hold_dict3 N shs ts (V : fam) : ds_hold2 C N shs (map to3 ts) V -> ds_hold C N shs (tl (ad_keys 2)) (map (dict3 C) ts) V.
Proof.
  intros (L & H). rewrite map_length in L. split; [rewrite map_length; auto|]. intros j d Hj. apply nth_map_inv in Hj as ([[h v] e] & E & ->). split; [reflexivity|].
  destruct (H j [h; v; e]) as (_ & Hv); [exact (map_nth_error to3 j ts E)|].
  intros k u Hg. apply dget_In in Hg. cbn [dict3 In] in Hg. destruct Hg as [Hg|[Hg|[Hg|[]]]]; injection Hg as <- <-.
  - apply (Hv 1%nat "ad"%string); auto.
  - apply (Hv 0%nat "da"%string); auto.
  - apply (Hv 2%nat "dd"%string); auto.
Qed.

Theorem waverec2_arb junk w m ax1 ax2 plan sh B N (V : fam) ds a : List.length plan = 2%nat -> resolves C (zlen sh) w m [ax1; ax2] plan ->
  levels_good C fuel B sh plan N -> NoDup [ax1; ax2] -> ds_hold2 C N (fun j => lev_shape C plan (N - j) sh) ds V ->
  sarr_ok C a -> sshape a = lev_shape C plan N sh ->
  exists ts r, mapM of3 ds = Ok ts /\ waverec2 fuel junk (Some a) (map (some3 C) ts) w m [ax1; ax2] = Ok (Some r) /\ sarr_ok C r /\
    sshape r = match N with O => sh | S _ => odd_up (axs plan) sh end /\ val C r = wsyn plan sh (fun l k => V (N - l)%nat k) N (val C a).
Proof.
  intros L2 HR HG Hnd HD Ha Sa. pose proof HD as (Ld & Hd).
  destruct (of3_all ds) as (ts & Et & Mt).
  { intros d Hi. apply In_nth_error in Hi as (j & Hj). apply (Hd j d Hj). }
  exists ts. rewrite <- Mt in HD, Hd, Ld. rewrite map_length in Ld.
  assert (S3 : forall j h v d, nth_error ts j = Some (h, v, d) -> sshape h = lev_shape C plan (N - j) sh /\ sshape v = lev_shape C plan (N - j) sh /\ sshape d = lev_shape C plan (N - j) sh).
  { intros j h v d E. destruct (Hd j [h; v; d]) as (_ & Hv); [exact (map_nth_error to3 j ts E)|].
    split; [apply (Hv 0%nat "da"%string); auto|]. split; [apply (Hv 1%nat "ad"%string); auto|apply (Hv 2%nat "dd"%string); auto]. }
  assert (Hne : plan <> []) by (intros ->; discriminate).
  apply hold_dict3 in HD. rewrite <- L2 in HD.
  destruct (waverecn_arb junk w m [ax1; ax2] plan sh B N V (map (dict3 C) ts) a Hne HR Hnd HG HD Ha Sa) as (r & Er & Or & Sr & Vr).
  exists r. split; auto. split; auto. rewrite waverec2_waverecn.
  - rewrite map_map in Er. exact Er.
  - apply Forall_forall. intros [[h v] d] Hi. apply In_nth_error in Hi as (j & Hj). destruct (S3 j h v d Hj) as (H1 & H2 & H3).
    split; [congruence|]. split; [congruence|]. unfold ndim, zlen. rewrite H1, Sa, !lev_shape_length. auto.
  - destruct ts as [|[[h v] d] t]; auto. destruct (S3 0%nat h v d eq_refl) as (H1 & _). rewrite H1, Sa, Nat.sub_0_r. auto.
  - intros _ E. inversion Hnd as [|? ? Hni _]; subst. apply Hni. left; auto.
Qed.

Theorem mra2_dwt junk half sq2 isq2 (data : sarr C) w m level ax1 ax2 plan B l :
  sarr_ok C data -> 2 <= ndim data <= 64 -> List.length plan = 2%nat ->
  resolves C (ndim data) w m [ax1; ax2] plan ->
  plan_good C fuel B (sshape data) plan -> (forall s, In s plan -> pr_wavelet (st_w C s)) ->
  check_level (level_pairs C (sshape data) plan) level = Ok l ->
  (forall s, In s plan -> levels_ok (st_m C s) (dec_len (st_w C s)) (Z.to_nat l) (nthz (st_ax C s) (sshape data))) ->
  exists cA out, mra2 fuel junk half sq2 isq2 data w level [ax1; ax2] TDwt m = Ok (cA, out) /\
    sarr_ok C cA /\ sshape cA = sshape data /\ List.length out = Z.to_nat l /\
    (forall d, In d out -> List.length d = 3%nat /\ forall v, In v d -> sarr_ok C v /\ sshape v = sshape data) /\
    forall idx, valid (sshape data) idx ->
      ndget (val C cA) idx [+] psum C (fun v => ndget (val C v) idx) (concat out) = ndget (val C data) idx.
Proof.
  intros Hok Hn2 L2 RS Hg Hpr Hl Hlev. set (x := val C data). assert (Hx : nd_wf x) by (apply val_wf; auto).
  assert (Sx : nshape x = sshape data) by apply nshape_val. assert (Hn : 1 <= ndim data <= 64) by lia.
  assert (Hne : plan <> []) by (intros ->; discriminate).
  pose proof Hg as (_ & _ & Hso & _ & Hd & H6).
  assert (RS' : resolves C (ndim data) w m (default_axes (ndim data) (Some [ax1; ax2])) plan) by exact RS.
  destruct (wavedecn_spec C fuel junk data w m level (Some [ax1; ax2]) plan B l Hok Hn Hne RS' Hg Hl Hlev) as (a & Ea & Oa & Va).
  destruct (waverecn_wavedecn C fuel junk data w m level (Some [ax1; ax2]) plan B l Hok Hn Hne RS' Hg Hpr Hl Hlev) as (a2 & ds2 & r & Ea2 & _ & Er & Sr & Hr).
  rewrite Ea in Ea2. injection Ea2 as <- <-. unfold mra2. rewrite wavedec2_wavedecn by lia. rewrite Ea. cbn [bind].
  set (N := Z.to_nat l) in *. fold x in Ea, Va, Er |- *.
  set (b := fun j k => of_nd (band C k plan (appr C plan j x))).
  assert (ER : mapM (ren C) (map (fun j => det C plan (appr C plan j x)) (rev (seq 0 N))) = Ok (map (fun j => (b j "da", b j "ad", b j "dd")%string) (rev (seq 0 N)))).
  { generalize (rev (seq 0 N)); induction l0 as [|j t IH]; cbn [map mapM]; auto. rewrite IH. unfold det at 1. rewrite L2. reflexivity. }
  rewrite ER. cbn [bind]. clear ER. rewrite map_map. cbn [to3].
  assert (HG : levels_good C fuel B (sshape data) plan N) by (apply levels_good_intro; auto).
  assert (Hnd : NoDup [ax1; ax2]) by (destruct RS as (R1 & _); apply (norm_axes_NoDup C _ _ _ R1 Hd)).
  assert (HH := det_hold plan B x N Hx). rewrite Sx in HH. specialize (HH HG).
  assert (Sa : sshape a = lev_shape C plan N (sshape data)).
  { rewrite <- (nshape_val C a), Va, <- Sx. apply (appr_wf C fuel plan B); auto. }
  set (V := fun (j : nat) k => band C k plan (appr C plan (N - j - 1) x)) in *.
  assert (HKK : forall k, In k (tl (ad_keys (List.length plan))) <-> In k K2) by (rewrite L2; apply K2_keys).
  apply (mra2_sum C N (fun j => lev_shape C plan (N - j) (sshape data)) (lev_shape C plan N (sshape data)) (match N with O => sshape data | S _ => odd_up (axs plan) (sshape data) end)
     (sshape data) (Tdwt plan (sshape data) N) (fun idx => ndget x idx)) with (V := V); auto.
  - destruct HH as (Lh & HH). rewrite map_length in Lh. split; [rewrite map_length; auto|]. intros j d Hj. rewrite nth_error_map in Hj.
    destruct (nth_error (rev (seq 0 N)) j) as [i|] eqn:Ei; [|discriminate]. injection Hj as <-. split; [reflexivity|].
    destruct (HH j (det C plan (appr C plan i x))) as (_ & Hv); [rewrite nth_error_map, Ei; reflexivity|].
    intros q k v Hq Hk. apply (Hv k v). unfold det. rewrite L2.
    destruct q as [|[|[|q]]]; cbn in Hq, Hk; try (destruct q; discriminate); injection Hq as <-; injection Hk as <-; reflexivity.
  - apply (Tdwt_additive _ _ B); auto.
  - intros a' V' W S HV. apply (Tdwt_shape _ _ B _ K2); auto.
  - intros a' ds' V' Oa' Sa' HD.
    destruct (waverec2_arb junk w m ax1 ax2 plan (sshape data) B N V' ds' a' L2 RS HG Hnd HD Oa' Sa') as (ts & r' & Et & Er' & Or' & Sr' & Vr').
    exists r'. rewrite Et. cbn [bind]. change (map (fun '(h, v, d) => (Some h, Some v, Some d)) ts) with (map (some3 C) ts). rewrite Er'. cbn [bind]. auto.
  - apply shape_le_up.
  - intros idx Vi. transitivity (ndget (val C r) idx); [|apply (Hr idx Vi)].
    destruct (waverecn_arb junk w m [ax1; ax2] plan (sshape data) B N V _ a Hne RS Hnd HG HH Oa Sa) as (r' & Er' & Or' & Sr' & Vr').
    rewrite Er' in Er. injection Er as <-. rewrite Vr'. reflexivity.
Qed.
End M.
