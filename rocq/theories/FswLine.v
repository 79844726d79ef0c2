(** The stacked multilevel decomposition of a line and its inverse, as linear maps. *)
From Verif Require Import Base BaseLemmas CConv Spec ExtLemmas UpConv Lengths Dwt DwtProofs PR LengthsProofs Linear Multilevel MultilevelProofs
  SwtSpec Nd NdSpec NdLinear FswSpec.

Section FL.
Variable C : CRing.
Add Ring Cring_ring_fsw : (rth C).

Definition piece (o l : Z) (v : list C) : list C := tab l (fun i => gz v (o + i)).

Lemma zlen_piece o l v : 0 <= l -> zlen (piece o l v) = l.
Proof. apply zlen_tab. Qed.
Lemma piece_vlin o l s a t b : zlen a = zlen b -> piece o l (vlin s a t b) = vlin s (piece o l a) t (piece o l b).
Proof.
  intros H. unfold piece. rewrite vlin_tab. apply tab_ext. intros i _. apply gz_vlin. auto.
Qed.
Lemma piece_all v : piece 0 (zlen v) v = v.
Proof. transitivity (tab (zlen v) (gz v)); [|apply tab_gz]. unfold piece. apply tab_ext. intros. reflexivity. Qed.
Lemma piece_app_l o l u v : 0 <= o -> o + l <= zlen u -> piece o l (u ++ v) = piece o l u.
Proof. intros Ho Hl. unfold piece. apply tab_ext. intros i Hi. rewrite gz_app. replace (o + i <? zlen u) with true by lia. reflexivity. Qed.
Lemma piece_app_r u v : piece (zlen u) (zlen v) (u ++ v) = v.
Proof.
  transitivity (tab (zlen v) (gz v)); [|apply tab_gz]. unfold piece. apply tab_ext. intros i Hi. rewrite gz_app.
  replace (zlen u + i <? zlen u) with false by lia. f_equal. lia.
Qed.

(** ** Synthesis from a stacked line *)
Definition syn1 (m : mode) (w : wavelet C) (a d : list C) : list C :=
  vadd (synthesis m (rec_lo w) a) (synthesis m (rec_hi w) d).
Fixpoint msyn (m : mode) (w : wavelet C) (a : list C) (o : Z) (lens : list Z) (v : list C) : list C :=
  match lens with [] => a | l :: t => msyn m w (syn1 m w (piece 0 l a) (piece o l v)) (o + l) t v end.
Definition unstack (m : mode) (w : wavelet C) (lens : list Z) (v : list C) : list C :=
  match lens with [] => [] | l :: t => msyn m w (piece 0 l v) l t v end.
Fixpoint msyn_len (m : mode) (F : Z) (a : Z) (lens : list Z) : Z :=
  match lens with [] => a | l :: t => msyn_len m F (rec_len m l F) t end.
Definition unstack_len (m : mode) (F : Z) (lens : list Z) : Z :=
  match lens with [] => 0 | l :: t => msyn_len m F l t end.

(** Lengths for which each synthesis gives at least what the next step needs. *)
Definition good_len (m : mode) (F l : Z) : Prop := 0 <= l /\ 0 <= rec_len m l F.

Lemma zlen_syn1 m w a d : wf_bank w -> zlen a = zlen d -> good_len m (dec_len w) (zlen a) ->
  zlen (syn1 m w a d) = rec_len m (zlen a) (dec_len w).
Proof.
  intros (H1 & H2 & H3 & _) E (_ & G). unfold syn1.
  assert (L : zlen (synthesis m (rec_lo w) a) = rec_len m (zlen a) (dec_len w)) by (rewrite zlen_synthesis; rewrite H2; auto).
  assert (L' : zlen (synthesis m (rec_hi w) d) = rec_len m (zlen a) (dec_len w)) by (rewrite zlen_synthesis; rewrite H3, <- E; auto).
  rewrite zlen_vadd; rewrite L; auto.
Qed.

Lemma syn1_lin m w s a d t b e : wf_bank w -> zlen a = zlen b -> zlen d = zlen e -> zlen a = zlen d -> good_len m (dec_len w) (zlen a) ->
  syn1 m w (vlin s a t b) (vlin s d t e) = vlin s (syn1 m w a d) t (syn1 m w b e).
Proof.
  intros Hw E1 E2 E3 G. unfold syn1.
  rewrite !synthesis_linear by auto.
  pose proof Hw as (H1 & H2 & H3 & _). pose proof G as (_ & G2).
  set (L := rec_len m (zlen a) (dec_len w)) in *.
  assert (La : zlen (synthesis m (rec_lo w) a) = L) by (rewrite zlen_synthesis; rewrite H2; auto).
  assert (Lb : zlen (synthesis m (rec_lo w) b) = L) by (rewrite zlen_synthesis; rewrite H2, <- E1; auto).
  assert (Ld : zlen (synthesis m (rec_hi w) d) = L) by (rewrite zlen_synthesis; rewrite H3, <- E3; auto).
  assert (Le : zlen (synthesis m (rec_hi w) e) = L) by (rewrite zlen_synthesis; rewrite H3, <- E2, <- E3; auto).
  apply list_ext.
  - rewrite zlen_vadd; rewrite !zlen_vlin; rewrite ?zlen_vadd; lia.
  - intros i _. rewrite gz_vadd by (rewrite !zlen_vlin; lia).
    rewrite !gz_vlin by (rewrite ?zlen_vadd; lia). rewrite !gz_vadd by lia. ring.
Qed.

Lemma zlen_msyn m w lens : wf_bank w -> Forall (good_len m (dec_len w)) lens -> forall a o v,
  zlen (msyn m w a o lens v) = msyn_len m (dec_len w) (zlen a) lens.
Proof.
  intros Hw. induction 1 as [|l t G HF IH]; intros a o v; cbn [msyn msyn_len]; [reflexivity|].
  rewrite IH. f_equal. pose proof G as (G1 & G2).
  rewrite zlen_syn1; rewrite ?zlen_piece by auto; auto.
Qed.

Lemma msyn_lin m w lens : wf_bank w -> Forall (good_len m (dec_len w)) lens -> forall o s a v t b u,
  zlen a = zlen b -> zlen v = zlen u ->
  msyn m w (vlin s a t b) o lens (vlin s v t u) = vlin s (msyn m w a o lens v) t (msyn m w b o lens u).
Proof.
  intros Hw. induction 1 as [|l t' G HF IH]; intros o s a v t b u Ea Ev; cbn [msyn]; [reflexivity|].
  pose proof G as (G1 & G2).
  rewrite !piece_vlin by auto. rewrite syn1_lin by (rewrite ?zlen_piece; auto).
  apply IH; auto. rewrite !zlen_syn1; rewrite ?zlen_piece; auto.
Qed.

Lemma linop_unstack m w l t N : wf_bank w -> 0 <= l -> Forall (good_len m (dec_len w)) t ->
  linop C N (unstack_len m (dec_len w) (l :: t)) (unstack m w (l :: t)).
Proof.
  intros Hw G1 HF. unfold unstack, unstack_len. split.
  - intros x Hx. rewrite zlen_msyn by auto. rewrite zlen_piece; auto.
  - intros s x t' y Hx Hy. rewrite piece_vlin by lia. apply msyn_lin; auto; rewrite ?zlen_piece; auto; lia.
Qed.

Lemma msyn_snoc m w t : forall a o l v,
  msyn m w a o (t ++ [l]) v = syn1 m w (piece 0 l (msyn m w a o t v)) (piece (o + sum_of t) l v).
Proof.
  induction t as [|k t IH]; intros a o l v; cbn [app msyn].
  - unfold sum_of. cbn [fold_right]. rewrite Z.add_0_r. reflexivity.
  - rewrite IH. unfold sum_of. cbn [fold_right]. do 2 f_equal. lia.
Qed.

Lemma msyn_app m w t : forall a o u v, 0 <= o -> Forall (fun l => 0 <= l) t -> o + sum_of t <= zlen u -> msyn m w a o t (u ++ v) = msyn m w a o t u.
Proof.
  induction t as [|l t IH]; intros a o u v Ho Hp Hs; cbn [msyn]; [reflexivity|].
  inversion Hp; subst. unfold sum_of in *. cbn [fold_right] in Hs.
  assert (0 <= fold_right Z.add 0 t) by (clear -H2; induction H2; cbn [fold_right]; lia).
  rewrite piece_app_l by lia. apply IH; auto; lia.
Qed.

(** ** Lengths *)
Lemma multi_lens_S m F n N : multi_lens m F (S n) N = multi_lens m F n (coeff_len m N F) ++ [coeff_len m N F].
Proof.
  unfold multi_lens. rewrite <- approx_len_S. cbn [app]. f_equal. cbn [seq rev].
  rewrite map_app. cbn [map]. f_equal. rewrite <- seq_shift, <- map_rev, map_map. apply map_ext. intros j.
  symmetry. apply approx_len_S.
Qed.

Lemma zlen_multi m (w : wavelet C) n (x : list C) : wf_bank w -> 1 <= zlen x ->
  map zlen (multi_analysis m (dec_lo w) (dec_hi w) n x) = multi_lens m (dec_len w) n (zlen x).
Proof.
  intros (H1 & _ & _ & _ & H5) Hx. unfold multi_analysis, multi_lens. cbn [map]. unfold dec_len in *. f_equal.
  - apply zlen_approx; lia.
  - rewrite map_map. apply map_ext. intros j. cbn [approx_len].
    pose proof (zlen_approx C m (dec_lo w) j x ltac:(lia) ltac:(lia)) as E.
    pose proof (approx_len_pos m (zlen (dec_lo w)) j (zlen x) ltac:(lia) ltac:(lia)).
    rewrite zlen_analysis by lia. rewrite E, H1. reflexivity.
Qed.

Lemma zlen_concat (l : list (list C)) : zlen (List.concat l) = sum_of (map zlen l).
Proof.
  induction l as [|a l IH]; [reflexivity|]. cbn [List.concat map]. unfold sum_of in *. cbn [fold_right].
  unfold zlen in *. rewrite app_length. lia.
Qed.

Lemma zlen_stacked m (w : wavelet C) n (x : list C) : wf_bank w -> 1 <= zlen x ->
  zlen (stacked m w n x) = sum_of (multi_lens m (dec_len w) n (zlen x)).
Proof. intros Hw Hx. unfold stacked. rewrite zlen_concat, zlen_multi by auto. reflexivity. Qed.

Lemma multi_lens_pos m F n N : 2 <= F -> 1 <= N -> Forall (fun l => 1 <= l) (multi_lens m F n N).
Proof.
  intros HF HN. apply Forall_forall. intros l [<-|Hl].
  - apply approx_len_pos; lia.
  - apply in_map_iff in Hl as (j & <- & _). apply approx_len_pos; lia.
Qed.

Lemma rec_len_coeff m F N : 2 <= F -> F mod 2 = 0 -> 1 <= N -> 1 <= rec_len m (coeff_len m N F) F.
Proof. intros HF HF2 HN. rewrite rec_coeff_len by auto. lia. Qed.

Lemma sum_pos l : Forall (fun x => 1 <= x) l -> 0 <= sum_of l.
Proof. unfold sum_of. induction 1; cbn [fold_right]; lia. Qed.

Lemma multi_lens_tail m F n N : 2 <= F -> F mod 2 = 0 -> 1 <= N -> Forall (good_len m F) (tl (multi_lens m F n N)).
Proof.
  intros HF HF2 HN. unfold multi_lens. cbn [tl]. apply Forall_forall. intros l Hl.
  apply in_map_iff in Hl as (j & <- & _). cbn [approx_len].
  pose proof (approx_len_pos m F j N HN HF). pose proof (approx_len_pos m F (S j) N HN HF) as P. cbn [approx_len] in P.
  split; [lia|]. pose proof (rec_len_coeff m F (approx_len m F j N)). lia.
Qed.

Lemma multi_len_last m F n N : 2 <= F -> F mod 2 = 0 -> 1 <= N ->
  unstack_len m F (multi_lens m F n N) = match n with O => N | S _ => N + N mod 2 end.
Proof.
  intros HF HF2 HN. destruct n as [|n]; [reflexivity|].
  rewrite multi_lens_S. unfold unstack_len.
  assert (A : forall t a l, msyn_len m F a (t ++ [l]) = rec_len m l F) by (induction t; intros; cbn [app msyn_len]; auto).
  unfold multi_lens. cbn [app]. rewrite A. apply rec_coeff_len; auto.
Qed.

(** ** Linearity of stacking *)
Lemma approx_lin m h n s (x : list C) t y : 2 <= zlen h -> 1 <= zlen x -> zlen x = zlen y ->
  approx m h n (vlin s x t y) = vlin s (approx m h n x) t (approx m h n y).
Proof.
  intros Hh Hx E. induction n as [|n IH]; cbn [approx]; [reflexivity|]. rewrite IH. apply analysis_linear.
  rewrite !zlen_approx; auto; try lia. rewrite E. reflexivity.
Qed.

Lemma concat_vlin s t (l l' : list (list C)) : map zlen l = map zlen l' ->
  List.concat (map (fun '(a, b) => vlin s a t b) (combine l l')) = vlin s (List.concat l) t (List.concat l').
Proof.
  revert l'. induction l as [|a l IH]; intros [|b l'] E; cbn [map] in E; try discriminate; [reflexivity|].
  assert (E1 : zlen a = zlen b) by congruence. assert (E2 : map zlen l = map zlen l') by congruence.
  assert (Z2 : zlen (List.concat l) = zlen (List.concat l')) by (rewrite !zlen_concat, E2; auto).
  cbn [combine map List.concat]. rewrite IH by auto.
  assert (zlen (a ++ List.concat l) = zlen (b ++ List.concat l')) by (unfold zlen in *; rewrite !app_length; lia).
  apply list_ext.
  - unfold zlen at 1. rewrite app_length, Nat2Z.inj_add. fold (zlen (vlin s a t b)). fold (zlen (vlin s (List.concat l) t (List.concat l'))).
    rewrite !zlen_vlin by auto. unfold zlen. rewrite app_length. lia.
  - intros i _. rewrite gz_app, zlen_vlin by auto. rewrite (gz_vlin C s (a ++ _)) by auto. rewrite !gz_app.
    rewrite !gz_vlin by auto. rewrite <- E1. destruct (i <? zlen a); reflexivity.
Qed.

Lemma linop_stacked m (w : wavelet C) n N : wf_bank w -> 1 <= N -> linop C N (sum_of (multi_lens m (dec_len w) n N)) (stacked m w n).
Proof.
  intros Hw HN. split.
  - intros x Hx. rewrite zlen_stacked by (auto; lia). rewrite Hx. reflexivity.
  - intros s x t y Hx Hy. unfold stacked. pose proof Hw as (H1 & _ & _ & _ & H5). unfold dec_len in H5.
    rewrite <- concat_vlin.
    + f_equal. unfold multi_analysis. cbn [combine map]. f_equal; [apply approx_lin; lia|].
      induction (rev (seq 0 n)) as [|j l IH]; cbn [map combine]; [reflexivity|]. rewrite IH. f_equal.
      rewrite approx_lin by lia. apply analysis_linear. rewrite !zlen_approx; try lia. rewrite Hx, Hy. reflexivity.
    + rewrite !zlen_multi by (auto; lia). rewrite Hx, Hy. reflexivity.
Qed.

(** ** Round trip of a line *)
Lemma piece_rec m n (x : list C) : n = O \/ min_len m <= zlen x -> piece 0 (zlen x) (rec_result m n x) = x.
Proof.
  intros H. destruct (rec_result_props C m n x H) as (Hf & Hz).
  transitivity (firstn (length x) (rec_result m n x)); [|exact Hf]. apply list_ext.
  - rewrite zlen_piece by apply zlen_nonneg. rewrite Hf. reflexivity.
  - rewrite zlen_piece by apply zlen_nonneg. intros i Hi. unfold piece. rewrite gz_tab by auto. rewrite gz_firstn by (unfold zlen in Hi; lia).
    reflexivity.
Qed.

Lemma unstack_stacked m (w : wavelet C) n : pr_wavelet w -> forall x, 1 <= zlen x -> levels_ok m (dec_len w) n (zlen x) ->
  unstack m w (multi_lens m (dec_len w) n (zlen x)) (stacked m w n x) = rec_result m n x.
Proof.
  intros Hpr. pose proof (pr_wf w Hpr) as Hw. pose proof Hw as (H1 & H2 & H3 & H4 & H5). unfold dec_len in *.
  induction n as [|n IH]; intros x Hx Hl.
  - cbn. rewrite app_nil_r. apply piece_all.
  - set (a := analysis m (dec_lo w) x). set (d := analysis m (dec_hi w) x).
    assert (Hza : zlen a = coeff_len m (zlen x) (zlen (dec_lo w))) by (apply zlen_analysis; lia).
    assert (Hzd : zlen d = zlen a) by (rewrite Hza; unfold d; rewrite zlen_analysis by lia; rewrite H1; reflexivity).
    assert (Hx0 : min_len m <= zlen x) by (apply (Hl O); lia).
    pose proof (coeff_len_bounds m (zlen x) (zlen (dec_lo w)) Hx H5) as Hcb.
    assert (Hla : levels_ok m (zlen (dec_lo w)) n (zlen a)).
    { intros j Hj. rewrite Hza, approx_len_S. apply Hl. lia. }
    specialize (IH a ltac:(lia) Hla).
    unfold stacked. rewrite multi_analysis_S, concat_app. fold a d. cbn [List.concat]. rewrite app_nil_r.
    fold (stacked m w n a). rewrite multi_lens_S, <- Hza.
    pose proof (multi_lens_pos m (zlen (dec_lo w)) n (zlen a) H5 ltac:(lia)) as Hpos.
    pose proof (zlen_stacked m w n a Hw ltac:(lia)) as Hzs. unfold dec_len in Hzs.
    unfold unstack in *. unfold multi_lens in *. cbn [app].
    set (l0 := approx_len m (zlen (dec_lo w)) n (zlen a)) in *.
    set (t := map (fun j => approx_len m (zlen (dec_lo w)) (S j) (zlen a)) (rev (seq 0 n))) in *.
    inversion Hpos as [|? ? Hl0 Ht]; subst.
    assert (0 <= sum_of t) by (apply sum_pos; auto).
    assert (Es : sum_of (l0 :: t) = l0 + sum_of t) by reflexivity.
    rewrite msyn_snoc. rewrite piece_app_l by lia.
    assert (Ht' : Forall (fun l => 0 <= l) t) by (eapply Forall_impl; [|exact Ht]; cbn; intros; lia).
    rewrite msyn_app by (auto; lia).
    rewrite IH. rewrite piece_rec.
    2: { destruct n; [left; reflexivity|right]. apply (Hla O). lia. }
    replace (l0 + sum_of t) with (zlen (stacked m w n a)) by lia. rewrite <- Hzd. rewrite piece_app_r.
    unfold syn1, a, d. rewrite (analysis_synthesis C (dec_lo w) (dec_hi w) (rec_lo w) (rec_hi w)); auto.
Qed.

End FL.
