(** The 1-D inverse transforms on arbitrary coefficients: what waverec and iswt
    return, and that it is additive in the coefficients. *)
From Verif Require Import Base BaseLemmas CConv Spec ExtLemmas Lengths Dwt DwtProofs PR Linear Multilevel MultilevelProofs Swt SwtSpec SwtProofs.

Section IL.
Variable C : CRing.
Add Ring Cring_ring_il : (rth C).
Variable fuel : nat.

Lemma vadd_vlin (x y : list C) : zlen x = zlen y -> vadd x y = vlin r1 x r1 y.
Proof.
  intros H. apply list_ext.
  - rewrite zlen_vadd, zlen_vlin by auto. reflexivity.
  - intros i Hi. rewrite gz_vadd, gz_vlin by auto. ring.
Qed.

(** Element by element sum of two lists of arrays. *)
Fixpoint vadds (u v : list (list C)) : list (list C) :=
  match u, v with a :: u', b :: v' => vadd a b :: vadds u' v' | _, _ => [] end.
Definition lens (u : list (list C)) : list Z := map zlen u.

(** ** waverec *)
Definition synth1 (w : wavelet C) (m : mode) (a d : list C) : list C :=
  vadd (synthesis m (rec_lo w) (firstn (length d) a)) (synthesis m (rec_hi w) d).
Fixpoint synths (w : wavelet C) (m : mode) (a : list C) (ds : list (list C)) : list C :=
  match ds with [] => a | d :: t => synths w m (synth1 w m a d) t end.

(** Lengths for which every step is defined. *)
Fixpoint chain (w : wavelet C) (m : mode) (n : Z) (ls : list Z) : Prop :=
  match ls with
  | [] => True
  | l :: t => (n = l \/ n = l + 1) /\ 1 <= l /\ 1 <= rec_len m l (dec_len w) /\ resources fuel l (dec_len w) /\
              chain w m (rec_len m l (dec_len w)) t
  end.

Lemma synth1_len w m a d : wf_bank w -> zlen d <= zlen a -> 1 <= rec_len m (zlen d) (dec_len w) ->
  zlen (synth1 w m a d) = rec_len m (zlen d) (dec_len w).
Proof.
  intros (H1 & H2 & H3 & H4 & H5) Hl Hr. unfold synth1.
  assert (Hf : zlen (firstn (length d) a) = zlen d) by (unfold zlen in *; rewrite firstn_length; lia).
  rewrite zlen_vadd; rewrite !zlen_syn; rewrite ?Hf, ?H2, ?H3; auto; lia.
Qed.

Theorem waverec_loop_general w m : wf_bank w -> forall ds (a : list C), chain w m (zlen a) (lens ds) ->
  waverec_loop fuel (Some a) (map Some ds) w m = Ok (Some (synths w m a ds)).
Proof.
  intros Hw. induction ds as [|d ds IH]; intros a Hc; [reflexivity|].
  cbn [lens map chain] in Hc. destruct Hc as (Hl & H1 & Hr & Hres & Hc).
  cbn [map waverec_loop synths].
  assert (E : waverec_step fuel (Some a) (Some d) w m = Ok (synth1 w m a d)).
  { unfold waverec_step. assert (Hf : zlen (firstn (length d) a) = zlen d) by (unfold zlen in *; rewrite firstn_length; lia).
    destruct (idwt_spec C fuel (firstn (length d) a) d w m) as (E & _); auto; rewrite ?Hf; auto.
    destruct Hl as [Hl|Hl].
    - replace (zlen a =? zlen d + 1) with false by lia. replace (zlen a =? zlen d) with true by lia. cbn [negb bind].
      replace a with (firstn (length d) a) at 1; [exact E|]. apply firstn_all2. unfold zlen in Hl. lia.
    - replace (zlen a =? zlen d + 1) with true by lia. cbn [bind]. exact E. }
  rewrite E. cbn [bind]. apply IH. rewrite synth1_len; auto. lia.
Qed.

Lemma firstn_vlin n a (x : list C) b y : zlen x = zlen y -> firstn n (vlin a x b y) = vlin a (firstn n x) b (firstn n y).
Proof.
  intros H. apply list_ext.
  - rewrite zlen_vlin by (unfold zlen in *; rewrite !firstn_length; lia).
    assert (L : zlen (vlin a x b y) = zlen x) by (apply zlen_vlin; auto). unfold zlen in *. rewrite !firstn_length. lia.
  - intros i Hi. assert (L : zlen (vlin a x b y) = zlen x) by (apply zlen_vlin; auto).
    assert (Hi' : 0 <= i < Z.of_nat n) by (unfold zlen in Hi; rewrite firstn_length in Hi; lia).
    rewrite gz_vlin by (unfold zlen in *; rewrite !firstn_length; lia).
    rewrite !gz_firstn by lia. apply gz_vlin. auto.
Qed.

Theorem synths_additive w m : wf_bank w -> forall ds ds' (a a' : list C), chain w m (zlen a) (lens ds) ->
  zlen a = zlen a' -> lens ds = lens ds' ->
  synths w m (vadd a a') (vadds ds ds') = vadd (synths w m a ds) (synths w m a' ds') /\
  zlen (synths w m a ds) = zlen (synths w m a' ds').
Proof.
  intros Hw. induction ds as [|d ds IH]; intros [|d' ds'] a a' Hc Ha Hd; try discriminate; [cbn; auto|].
  cbn [lens map chain] in *. destruct Hc as (Hl & H1 & Hr & Hres & Hc). injection Hd as Hd0 Hd.
  cbn [vadds synths].
  assert (Hln : length d = length d') by (unfold zlen in *; lia).
  assert (Hf : zlen (firstn (length d) a) = zlen d) by (unfold zlen in *; rewrite firstn_length; lia).
  assert (Hf' : zlen (firstn (length d) a') = zlen d) by (unfold zlen in *; rewrite firstn_length; lia).
  pose proof Hw as (W1 & W2 & W3 & W4 & W5).
  assert (E : synth1 w m (vadd a a') (vadd d d') = vadd (synth1 w m a d) (synth1 w m a' d')).
  { unfold synth1. replace (length (vadd d d')) with (length d) by (pose proof (zlen_vadd C d d' Hd0); unfold zlen in *; lia).
    rewrite <- Hln. rewrite (vadd_vlin a a'), (vadd_vlin d d') by auto.
    rewrite firstn_vlin by auto. rewrite !synthesis_linear by lia.
    assert (L : forall g c : list C, zlen g = dec_len w -> zlen c = zlen d -> zlen (synthesis m g c) = rec_len m (zlen d) (dec_len w)).
    { intros g c Hg Hcc. rewrite zlen_syn; rewrite ?Hg, ?Hcc; auto; lia. }
    apply list_ext.
    - rewrite !zlen_vadd; rewrite ?zlen_vlin, ?zlen_vadd; rewrite ?L; auto. 
    - intros i Hi. rewrite !gz_vadd; rewrite ?zlen_vlin, ?zlen_vadd; rewrite ?L; auto.
      rewrite !gz_vlin by (rewrite !L; auto). ring. }
  rewrite E. apply IH; auto.
  - rewrite synth1_len; auto. lia.
  - rewrite !synth1_len; auto; rewrite <- ?Hd0; auto; lia.
Qed.

(** ** iswt *)
(** One level: [f = n mod st] selects the sub-signal, [n / st] the place in it. *)
Definition iswt_half (w : wavelet C) (st o : Z) (a d : list C) : list C :=
  vadd (synthesis PERIODIZATION (rec_lo w) (coset C (2 * st) o a)) (synthesis PERIODIZATION (rec_hi w) (coset C (2 * st) o d)).
Definition iswt_lev (half : C) (w : wavelet C) (st : Z) (a d : list C) : list C :=
  tab (zlen a) (fun n => (gz (iswt_half w st (n mod st) a d) (n / st) [+]
                          gz (roll 1 (iswt_half w st (n mod st + st) a d)) (n / st)) [*] half).
Fixpoint iswt_levs (half : C) (w : wavelet C) (a : list C) (ds : list (list C)) : list C :=
  match ds with [] => a | d :: t => iswt_levs half w (iswt_lev half w (2 ^ zlen t) a d) t end.

Lemma zlen_coset st f (x : list C) : 1 <= st -> zlen (coset C st f x) = zlen x / st.
Proof. intros H. unfold coset. apply zlen_tab. apply Z.div_pos; [apply zlen_nonneg|lia]. Qed.

Lemma iswt_half_len w st o a d q : wf_bank w -> 1 <= st -> 1 <= q -> zlen a = 2 * st * q -> zlen d = zlen a ->
  zlen (iswt_half w st o a d) = 2 * q.
Proof.
  intros (W1 & W2 & W3 & W4 & W5) Hst Hq Ha Hd.
  assert (Hc : forall x : list C, zlen x = 2 * st * q -> zlen (coset C (2 * st) o x) = q).
  { intros x Hx. rewrite zlen_coset by lia. rewrite Hx, Z.mul_comm. apply Z.div_mul. lia. }
  unfold iswt_half. rewrite zlen_vadd; rewrite !zlen_syn; rewrite ?Hc by lia; cbn [rec_len]; lia.
Qed.

Lemma iswt_first_general w half (cD output : list C) st f q :
  wf_bank w -> 1 <= st -> 1 <= q -> zlen output = 2 * st * q -> zlen cD = zlen output -> 0 <= f < st ->
  resources fuel (zlen output) (dec_len w) ->
  exists r, iswt_first fuel half w cD st output f = Ok r /\ zlen r = zlen output /\
    forall n, 0 <= n < zlen output -> gz r n = if n mod st =? f then gz (iswt_lev half w st output cD) n else gz output n.
Proof.
  intros Hw Hst1 Hq1 Ho Hd Hf Hr. pose proof Hw as (W1 & W2 & W3 & W4 & W5).
  set (M := 2 * q). assert (HM : zlen output = st * M) by (unfold M; lia).
  unfold iswt_first. rewrite Hd. unfold arange.
  replace ((zlen output - f + st - 1) / st) with M.
  2:{ apply Z.div_unique with (st - 1 - f); lia. }
  rewrite evens_tab, odds_tab by lia.
  replace ((M + 1) / 2) with q by (unfold M; lia). replace (M / 2) with q by (unfold M; lia).
  assert (Hin : forall k, 0 <= k < M -> 0 <= f + st * k < zlen output) by (intros; nia).
  rewrite !(gather_tab C fuel) by (intros k Hk; rewrite ?Hd; apply Hin; unfold M; lia). cbn [bind].
  assert (Hce : forall x : list C, zlen x = 2 * st * q -> tab q (fun k => gz x (f + st * (2 * k))) = coset C (2 * st) f x).
  { intros x Hx. unfold coset. rewrite Hx. replace (2 * st * q) with (q * (2 * st)) by lia. rewrite Z.div_mul by lia.
    apply tab_ext. intros k Hk. f_equal. lia. }
  assert (Hco : forall x : list C, zlen x = 2 * st * q -> tab q (fun k => gz x (f + st * (2 * k + 1))) = coset C (2 * st) (f + st) x).
  { intros x Hx. unfold coset. rewrite Hx. replace (2 * st * q) with (q * (2 * st)) by lia. rewrite Z.div_mul by lia.
    apply tab_ext. intros k Hk. f_equal. lia. }
  rewrite !Hce, !Hco by lia.
  assert (Hcl : forall o (x : list C), zlen x = 2 * st * q -> zlen (coset C (2 * st) o x) = q).
  { intros o x Hx. rewrite zlen_coset by lia. rewrite Hx, Z.mul_comm. apply Z.div_mul. lia. }
  assert (Hid : forall o, idwt_single fuel (coset C (2 * st) o output) (coset C (2 * st) o cD) w PERIODIZATION = Ok (iswt_half w st o output cD)).
  { intros o. rewrite idwt_single_spec; rewrite ?Hcl by lia; auto.
    - cbn [rec_len]. lia.
    - apply resources_le with (zlen output); auto. nia. }
  rewrite Hid. cbn [bind]. rewrite Hid. cbn [bind].
  assert (L : forall o, zlen (iswt_half w st o output cD) = M) by (intros o; apply iswt_half_len; auto).
  rewrite roll1_roll. rewrite zlen_roll, !L, Z.eqb_refl. cbn [negb].
  set (v := map _ _).
  assert (Hv : zlen v = M).
  { unfold v. rewrite zlen_map. pose proof (L f) as Lf. assert (Lr : zlen (roll 1 (iswt_half w st (f + st) output cD)) = M) by (rewrite zlen_roll; apply L).
    unfold zlen in *. rewrite combine_length. lia. }
  destruct (scatter_arange C output v f st M Hf Hv) as (r & E & Hrl & Hrg); [lia|].
  exists r. split; [exact E|]. split; [lia|]. intros n Hn. rewrite Hrg by lia.
  destruct (Z.eqb_spec (n mod st) f) as [Ef|]; auto.
  unfold iswt_lev. rewrite gz_tab by lia. rewrite Ef. unfold v.
  assert (Hnd : 0 <= n / st < M).
  { split; [apply Z.div_pos; lia|]. apply Z.div_lt_upper_bound; lia. }
  set (u1 := iswt_half w st f output cD) in *. set (u2 := roll 1 (iswt_half w st (f + st) output cD)) in *.
  assert (L1 : zlen u1 = M) by apply L. assert (L2 : zlen u2 = M) by (unfold u2; rewrite zlen_roll; apply L).
  clearbody u1 u2.
  transitivity (gz (vadd u1 u2) (n / st) [*] half).
  - unfold vadd. rewrite <- gz_scale. f_equal. rewrite map_map. apply map_ext. intros [p p']. reflexivity.
  - rewrite gz_vadd by lia. reflexivity.
Qed.

Lemma iswt_half_ext w st o (a a' d : list C) : zlen a = zlen a' -> 1 <= st -> (forall k, 0 <= k < zlen a / (2 * st) -> gz a (o + 2 * st * k) = gz a' (o + 2 * st * k)) ->
  iswt_half w st o a d = iswt_half w st o a' d.
Proof.
  intros Hl Hst H. unfold iswt_half. f_equal. f_equal. unfold coset. rewrite <- Hl. apply tab_ext. intros k Hk. apply H. auto.
Qed.

Lemma iswt_level_general w half (cD a : list C) st q :
  wf_bank w -> 1 <= st -> 1 <= q -> zlen a = 2 * st * q -> zlen cD = zlen a ->
  resources fuel (zlen a) (dec_len w) ->
  foldM (iswt_first fuel half w cD st) a (tab st (fun k => k)) = Ok (iswt_lev half w st a cD).
Proof.
  intros Hw Hst Hq Ha Hd Hr.
  destruct (foldM_tab (fun K r => zlen r = zlen a /\ forall n, 0 <= n < zlen a ->
      gz r n = if n mod st <? K then gz (iswt_lev half w st a cD) n else gz a n)
    (iswt_first fuel half w cD st) st (fun k => k) a) as (r & E & Hrl & Hrg); [lia| | |].
  - split; auto. intros n Hn. pose proof (Z.mod_pos_bound n st ltac:(lia)). replace (_ <? 0) with false by lia. reflexivity.
  - intros k s Hk (Hsl & Hsg).
    destruct (iswt_first_general w half cD s st k q) as (r & E & Hrl & Hrg); auto; try lia; [rewrite Hsl; auto|].
    exists r. split; auto. split; [lia|]. intros n Hn. rewrite Hrg by lia.
    destruct (Z.eqb_spec (n mod st) k) as [Ek|Ek].
    + rewrite Ek. replace (k <? k + 1) with true by lia. unfold iswt_lev. rewrite !gz_tab by lia. rewrite Ek.
      assert (Hm : forall o j, o = k \/ o = k + st -> 0 <= j < zlen s / (2 * st) -> gz s (o + 2 * st * j) = gz a (o + 2 * st * j)).
      { intros o j Ho Hj. rewrite Hsl, Ha in Hj. replace (2 * st * q) with (q * (2 * st)) in Hj by lia. rewrite Z.div_mul in Hj by lia.
        assert (Hb : 0 <= o + 2 * st * j < zlen a).
        { assert (2 * st * j <= 2 * st * (q - 1)) by (apply Z.mul_le_mono_nonneg_l; lia). destruct Ho; subst o; lia. }
        rewrite Hsg by auto.
        replace ((o + 2 * st * j) mod st) with k; [replace (k <? k) with false by lia; reflexivity|].
        destruct Ho; subst o.
        - apply Z.mod_unique with (2 * j); lia.
        - apply Z.mod_unique with (2 * j + 1); lia. }
      rewrite (iswt_half_ext w st k s a cD) by (auto; intros; apply Hm; auto).
      rewrite (iswt_half_ext w st (k + st) s a cD) by (auto; intros; apply Hm; auto). reflexivity.
    + rewrite Hsg by auto. replace (n mod st <? k + 1) with (n mod st <? k) by lia. reflexivity.
  - rewrite E. f_equal. apply list_ext; [unfold iswt_lev; rewrite zlen_tab; lia|].
    intros n Hn. rewrite Hrg by lia.
    pose proof (Z.mod_pos_bound n st ltac:(lia)). replace (_ <? _) with true by lia. reflexivity.
Qed.

Lemma zlen_iswt_lev half w st (a d : list C) : zlen (iswt_lev half w st a d) = zlen a.
Proof. unfold iswt_lev. apply zlen_tab. apply zlen_nonneg. Qed.

Theorem iswt_loop_general w half : wf_bank w -> forall ds (a : list C),
  1 <= zlen a -> (2 ^ zlen ds | zlen a) -> Forall (fun d => zlen d = zlen a) ds -> resources fuel (zlen a) (dec_len w) ->
  iswt_loop fuel half w a ds = Ok (iswt_levs half w a ds).
Proof.
  intros Hw. induction ds as [|d ds IH]; intros a Ha Hdiv Hd Hr; [reflexivity|].
  inversion Hd as [|? ? Hd0 Hd']; subst. cbn [iswt_loop iswt_levs].
  rewrite zlen_cons in Hdiv. pose proof (zlen_nonneg ds) as Hds. rewrite Z.pow_add_r, Z.pow_1_r in Hdiv by lia.
  assert (Hst : 1 <= 2 ^ zlen ds) by (apply pow2_pos; auto).
  destruct Hdiv as (q & Hq).
  rewrite (iswt_level_general w half d a (2 ^ zlen ds) q); auto; [|nia|lia].
  cbn [bind]. apply IH; rewrite ?zlen_iswt_lev; auto. exists (2 * q). lia.
Qed.

Lemma coset_vadd st f (x y : list C) : 1 <= st -> zlen x = zlen y -> coset C st f (vadd x y) = vadd (coset C st f x) (coset C st f y).
Proof.
  intros Hst H. apply list_ext.
  - rewrite zlen_vadd; rewrite !zlen_coset, ?zlen_vadd by auto; auto. rewrite H. auto.
  - intros i Hi. rewrite zlen_coset, zlen_vadd in Hi by auto. rewrite gz_vadd by (rewrite !zlen_coset by auto; rewrite H; auto).
    unfold coset. rewrite zlen_vadd by auto. rewrite !gz_tab by (rewrite <- ?H; auto). apply gz_vadd. auto.
Qed.

Lemma iswt_half_vadd w st o (a a' d d' : list C) q : wf_bank w -> 1 <= st -> 1 <= q -> zlen a = 2 * st * q ->
  zlen a' = zlen a -> zlen d = zlen a -> zlen d' = zlen a ->
  iswt_half w st o (vadd a a') (vadd d d') = vadd (iswt_half w st o a d) (iswt_half w st o a' d').
Proof.
  intros Hw Hst Hq Ha Ha' Hd Hd'. pose proof Hw as (W1 & W2 & W3 & W4 & W5). unfold iswt_half. rewrite !coset_vadd by lia.
  assert (Hcl : forall (x : list C), zlen x = zlen a -> zlen (coset C (2 * st) o x) = q).
  { intros x Hx. rewrite zlen_coset by lia. rewrite Hx, Ha, Z.mul_comm. apply Z.div_mul. lia. }
  assert (L : forall g c : list C, zlen g = dec_len w -> zlen c = q -> zlen (synthesis PERIODIZATION g c) = 2 * q).
  { intros g c Hg Hcc. rewrite zlen_syn; rewrite ?Hg, ?Hcc; cbn [rec_len]; auto; lia. }
  rewrite !(vadd_vlin (coset C (2 * st) o _)) by (rewrite !Hcl; auto).
  rewrite !synthesis_linear by (rewrite !Hcl; auto).
  apply list_ext.
  - rewrite !zlen_vadd; rewrite ?zlen_vlin, ?zlen_vadd; rewrite ?L; auto.
  - intros i Hi. rewrite !gz_vadd; rewrite ?zlen_vlin, ?zlen_vadd; rewrite ?L; auto.
    rewrite !gz_vlin by (rewrite !L; auto). ring.
Qed.

Lemma gz_roll_vadd s (x y : list C) i : zlen x = zlen y -> gz (roll s (vadd x y)) i = gz (roll s x) i [+] gz (roll s y) i.
Proof.
  intros H. destruct (Z_le_gt_dec 0 i) as [Hi|Hi]; [destruct (Z_lt_ge_dec i (zlen x)) as [Hj|Hj]|].
  - unfold roll. rewrite zlen_vadd by auto. rewrite !gz_tab by lia. rewrite H. apply gz_vadd. auto.
  - rewrite !gz_big; rewrite ?zlen_roll, ?zlen_vadd; auto; try lia. ring.
  - rewrite !gz_neg; rewrite ?zlen_roll, ?zlen_vadd; auto; try lia. ring.
Qed.

Lemma iswt_lev_vadd half w st (a a' d d' : list C) q : wf_bank w -> 1 <= st -> 1 <= q -> zlen a = 2 * st * q ->
  zlen a' = zlen a -> zlen d = zlen a -> zlen d' = zlen a ->
  iswt_lev half w st (vadd a a') (vadd d d') = vadd (iswt_lev half w st a d) (iswt_lev half w st a' d').
Proof.
  intros Hw Hst Hq Ha Ha' Hd Hd'. apply list_ext.
  - rewrite zlen_vadd; rewrite !zlen_iswt_lev, ?zlen_vadd; auto.
  - intros n Hn. rewrite zlen_iswt_lev, zlen_vadd in Hn by auto.
    rewrite gz_vadd by (rewrite !zlen_iswt_lev; auto). unfold iswt_lev. rewrite zlen_vadd by auto.
    rewrite !gz_tab by lia. rewrite !(iswt_half_vadd w st _ a a' d d' q) by auto.
    assert (L : forall o, zlen (iswt_half w st o a d) = zlen (iswt_half w st o a' d')).
    { intros o. rewrite !(iswt_half_len w st o _ _ q); auto; lia. }
    rewrite gz_roll_vadd, gz_vadd by auto. ring.
Qed.

Theorem iswt_levs_additive w half : wf_bank w -> forall ds ds' (a a' : list C),
  1 <= zlen a -> (2 ^ zlen ds | zlen a) -> Forall (fun d => zlen d = zlen a) ds -> lens ds = lens ds' -> zlen a = zlen a' ->
  iswt_levs half w (vadd a a') (vadds ds ds') = vadd (iswt_levs half w a ds) (iswt_levs half w a' ds') /\
  zlen (iswt_levs half w a ds) = zlen a /\ zlen (iswt_levs half w a' ds') = zlen a.
Proof.
  intros Hw. induction ds as [|d ds IH]; intros [|d' ds'] a a' H1 Hdiv Hd Hl Ha; try discriminate; [cbn; auto|].
  inversion Hd as [|? ? Hd0 Hd1]; subst. cbn [lens map] in Hl. injection Hl as Hl0 Hl.
  cbn [vadds iswt_levs]. rewrite zlen_cons in Hdiv. pose proof (zlen_nonneg ds) as Hds. rewrite Z.pow_add_r, Z.pow_1_r in Hdiv by lia.
  assert (Hst : 1 <= 2 ^ zlen ds) by (apply pow2_pos; auto).
  assert (Ez : zlen ds' = zlen ds) by (pose proof (f_equal (@length _) Hl) as E; unfold lens in E; rewrite !map_length in E; unfold zlen; lia).
  assert (Ev : zlen (vadds ds ds') = zlen ds).
  { assert (G : forall u v : list (list C), length u = length v -> length (vadds u v) = length u).
    { induction u as [|p u IHu]; intros [|p' v]; cbn; auto; discriminate. }
    unfold zlen in *. rewrite G; lia. }
  destruct Hdiv as (q & Hq). rewrite Ev, Ez.
  rewrite (iswt_lev_vadd half w (2 ^ zlen ds) a a' d d' q); auto; try lia.
  destruct (IH ds' (iswt_lev half w (2 ^ zlen ds) a d) (iswt_lev half w (2 ^ zlen ds) a' d')) as (E1 & E2 & E3);
    rewrite ?zlen_iswt_lev in *; auto. exists (2 * q). lia.
Qed.

End IL.
