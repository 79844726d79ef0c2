(** Sums of the coefficients of the n-dimensional stationary transform. *)
From Coq Require Import String Ascii List.
From Verif Require Import Base BaseLemmas CConv Spec Lengths Dwt DwtProofs PR Swt SwtSpec SwtProofs Nd NdSpec NdLinear Axis AxisProofs AxisProofs2 Multidim MultidimProofs MultidimFacts MultilevelNd MultilevelNdProofs SwtNd SwtNdArgs NdSwtSpec SwtNdLevel SwtNdFwd ParsevalNd MeanSpec Mean MeanNd.
Import ListNotations.
Open Scope list_scope. Open Scope Z_scope.

(** Product, over the axes, of the sums of the filters named by the letters. *)
Fixpoint key_gain {C : CRing} (key : string) (plan : list (nat * wavelet C)) : C :=
  match key, plan with
  | String c k, (_, w) :: p => total (if Ascii.eqb c "a"%char then dec_lo w else dec_hi w) [*] key_gain k p
  | _, _ => r1
  end.
Definition low_gain {C : CRing} (plan : list (nat * wavelet C)) : C := fold_right (fun p acc => total (dec_lo (snd p)) [*] acc) r1 plan.

Section M.
Variable C : CRing.
Add Ring Cring_ring_msn : (rth C).
Variable fuel : nat.
Notation plan_t := (list (nat * wavelet C)).

Lemma wax_total ax l h (x : nd C) : nd_wf x -> (ax < List.length (nshape x))%nat -> 1 <= nthz ax (nshape x) -> nd_total (wax ax l h x) = total h [*] nd_total x.
Proof.
  intros Wx Hax HN. unfold nd_total. rewrite wax_shape. set (n := nthz ax (nshape x)) in *.
  rewrite !(ndsum_axis C fuel (nshape x) ax) by auto. rewrite <- ndsum_scal. apply ndsum_ext. intros idx V. fold n.
  transitivity (total (swt_step l h (line x ax idx))).
  - unfold total. rewrite zlen_swt_step, zlen_line by auto. fold n. apply sumZ_ext. intros i Hi.
    assert (Vi : valid (setn ax n (nshape x)) (setn ax i idx)).
    { rewrite <- (setn_setn ax n 1). apply valid_setn; auto. }
    assert (Li : nthz ax (setn ax i idx) = i) by (apply nthz_setn; rewrite (valid_len _ _ V), setn_length; auto).
    unfold wax. fold n. rewrite !ndget_along by auto. rewrite !line_setn, Li. reflexivity.
  - assert (Z1 : zlen (line x ax idx) = n) by (rewrite zlen_line by auto; reflexivity).
    rewrite (circular_total C h (line x ax idx) _ (2 ^ (l - 1)) (zlen h / 2)); [|lia|apply zlen_swt_step|intros; rewrite gz_swt_step by auto; reflexivity]. f_equal.
    unfold total. rewrite Z1. apply sumZ_ext. intros i Hi. unfold line. fold n. rewrite gz_tab by auto. reflexivity.
Qed.
Lemma swt_band_total l : forall (plan : plan_t) key (x : nd C), nd_wf x -> (forall p, In p plan -> (fst p < List.length (nshape x))%nat /\ 1 <= nthz (fst p) (nshape x)) ->
  nd_total (swt_band l key plan x) = key_gain key plan [*] nd_total x.
Proof.
  induction plan as [|[ax w] p IH]; intros [|c k] x Wx H; cbn [swt_band key_gain]; try ring.
  destruct (H (ax, w) (or_introl eq_refl)) as [H1 H2]. rewrite IH; [|now apply wax_wf|intros q Hq; rewrite wax_shape; apply H; now right].
  rewrite wax_total by auto. unfold letter. ring.
Qed.
Lemma key_gain_low : forall plan : plan_t, key_gain (all_a (List.length plan)) plan = low_gain plan.
Proof. induction plan as [|[ax w] p IH]; cbn [List.length all_a key_gain low_gain fold_right]; auto. rewrite IH. reflexivity. Qed.
Lemma swtn_approx_total (plan : plan_t) s (x : nd C) : nd_wf x -> (forall p, In p plan -> (fst p < List.length (nshape x))%nat /\ 1 <= nthz (fst p) (nshape x)) ->
  forall n, nd_total (swtn_approx plan s n x) = power (low_gain plan) n [*] nd_total x.
Proof.
  intros Wx H. induction n as [|n IH]; cbn [swtn_approx power]; [ring|].
  rewrite <- low_all_a, swt_band_total; [|apply approx_wf; auto|intros; rewrite approx_shape; auto]. rewrite key_gain_low, IH. ring.
Qed.

Lemma nth_rev_seq N j : (1 <= j <= N)%nat -> nth_error (rev (seq 1 N)) (N - j) = Some j.
Proof.
  induction N as [|N IH]; intros H; [lia|]. rewrite seq_S, rev_app_distr. cbn [rev app]. destruct (Nat.eq_dec j (S N)) as [->|].
  - replace (S N - S N)%nat with O by lia. reflexivity.
  - replace (S N - j)%nat with (S (N - j)) by lia. cbn [nth_error]. apply IH. lia.
Qed.

Lemma ad_keys_some (plan : plan_t) : plan <> [] -> tl (ad_keys (List.length plan)) <> [] /\ ad_keys (List.length plan) <> [].
Proof.
  destruct plan as [|p pl]; [congruence|]. intros _. cbn [List.length]. split; [|rewrite ad_keys_hd; congruence].
  cbn [ad_keys]. rewrite (ad_keys_hd (List.length pl)). cbn [map app tl]. intros E. apply app_eq_nil in E. destruct E as [_ E]. discriminate E.
Qed.

(** The level [j] is the item [level - j] of the list, after the approximation
    if it is trimmed. *)
Theorem swtn_mean junk (data : sarr C) w level s axes trim norm plan0 :
  let plan := norm_plan norm plan0 in
  sarr_ok C data -> 1 <= ndim data <= 64 -> 0 <= s -> 1 <= level ->
  swt_resolves (ndim data) w (default_axes (ndim data) axes) plan0 -> swt_plan_ok fuel (s + level) (sshape data) plan ->
  exists cs, swtn fuel junk data w level s axes trim norm = Ok cs /\
    (trim = true -> exists a rest, cs = NArr a :: rest /\ nd_total (val C a) = power (low_gain plan) (Z.to_nat level) [*] nd_total (val C data)) /\
    forall j, (1 <= j <= Z.to_nat level)%nat -> exists d, nth_error cs ((if trim then 1 else 0) + (Z.to_nat level - j)) = Some (NDict d) /\ d <> [] /\
      forall k a, In (k, a) d -> nd_total (val C a) = key_gain k plan [*] power (low_gain plan) (j - 1) [*] nd_total (val C data).
Proof.
  intros plan Ox Hn Hs Hl HR HP. exists (swtn_result trim plan s (Z.to_nat level) (val C data)). split; [apply swtn_spec; auto|].
  pose proof (val_wf C data Ox) as Wx.
  assert (HA : forall p, In p plan -> (fst p < List.length (nshape (val C data)))%nat /\ 1 <= nthz (fst p) (nshape (val C data))).
  { intros p Hp. rewrite nshape_val. destruct HP as (_ & _ & _ & H4). destruct (H4 p Hp) as (A & B & _). auto. }
  split.
  - intros ->. unfold swtn_result. eexists _, _. split; [reflexivity|]. rewrite val_of_nd by (apply approx_wf; auto). apply swtn_approx_total; auto.
  - intros j Hj. unfold swtn_result. eexists. split; [|split].
    + destruct trim; cbn [app plus Nat.add nth_error]; rewrite nth_error_map, nth_rev_seq by auto; reflexivity.
    + destruct HP as (P1 & _). intros E. apply map_eq_nil in E. revert E. destruct trim; apply ad_keys_some; auto.
    + intros k a Hin. apply in_map_iff in Hin. destruct Hin as (k' & E & _). injection E as <- <-.
      rewrite val_of_nd by (apply band_wf', approx_wf; auto). rewrite swt_band_total; [|apply approx_wf; auto|intros; rewrite approx_shape; auto].
      rewrite swtn_approx_total by auto. ring.
Qed.
End M.
