(** Rounding errors of one level with the built-in wavelets. *)
From Verif Require Import Base BaseLemmas CConv Spec ExtLemmas Instances Lengths Dwt DwtProofs FilterSpec Filters FiltersProofs FiltersFacts PRError Tables TablesProofs TablesFacts.
From Verif Require Import CwtReal RawConv RawRel HomRing Rounding RoundingProofs RoundingLevels RoundingFacts.
From Coq Require Import QArith Qcanon Qcabs Qabs Reals Qreals Lra Psatz.
Open Scope R_scope.

(** * Rational numbers as real numbers *)
Definition q2r (c : Qcring) : Rring := Q2R (this c).
Definition real_bank (b : wavelet Qcring) : wavelet Rring :=
  mkWavelet (C := Rring) (map q2r (dec_lo b)) (map q2r (dec_hi b)) (map q2r (rec_lo b)) (map q2r (rec_hi b)).

Lemma q2r_0 : q2r r0 = r0. Proof. unfold q2r. cbn. unfold Q2R. cbn. lra. Qed.
Lemma q2r_1 : q2r r1 = r1. Proof. unfold q2r. cbn. unfold Q2R. cbn. lra. Qed.
Lemma q2r_add a b : q2r (a [+] b) = q2r a [+] q2r b.
Proof. unfold q2r. change (Q2R (Qred (this a + this b)) = Q2R (this a) + Q2R (this b)). rewrite (Qeq_eqR _ _ (Qred_correct _)). apply Q2R_plus. Qed.
Lemma q2r_mul a b : q2r (a [*] b) = q2r a [*] q2r b.
Proof. unfold q2r. change (Q2R (Qred (this a * this b)) = Q2R (this a) * Q2R (this b)). rewrite (Qeq_eqR _ _ (Qred_correct _)). apply Q2R_mult. Qed.
Lemma q2r_opp a : q2r ([--] a) = [--] q2r a.
Proof. unfold q2r. change (Q2R (Qred (- this a)) = - Q2R (this a)). rewrite (Qeq_eqR _ _ (Qred_correct _)). apply Q2R_opp. Qed.
Lemma q2r_sub a b : q2r (a [-] b) = q2r a [-] q2r b.
Proof.
  transitivity (q2r (a [+] [--] b)); [reflexivity|]. rewrite q2r_add, q2r_opp. reflexivity.
Qed.
Lemma q2r_le a b : rle a b -> q2r a <= q2r b.
Proof. unfold rle, Qcle, q2r. apply Qle_Rle. Qed.
Lemma q2r_abs a : q2r (qabs a) = Rabs (q2r a).
Proof.
  destruct (Qclt_le_dec a 0) as [H|H].
  - assert (H' : rle a r0) by (apply Qclt_le_weak, H). rewrite (qabs_neg a H'), q2r_opp. apply q2r_le in H'. rewrite q2r_0 in H'.
    rewrite Rabs_left1; [reflexivity|exact H'].
  - assert (H' : rle r0 a) by exact H. rewrite (qabs_pos a H'). apply q2r_le in H'. rewrite q2r_0 in H'. rewrite Rabs_pos_eq; [reflexivity|exact H'].
Qed.
Lemma gz_q2r (l : list Qcring) i : gz (map q2r l) i = q2r (gz l i).
Proof. apply gz_map, q2r_0. Qed.
Lemma sum_q2r a b f : q2r (sumZ a b f) = sumZ a b (fun t => q2r (f t)).
Proof. apply (sumZ_hom q2r q2r_0 q2r_add). Qed.
Lemma corr_q2r a b k : corr (map q2r a) (map q2r b) k = q2r (corr a b k).
Proof. unfold corr. rewrite sum_q2r, zlen_map. apply (sumZ_ext Rring). intros t _. rewrite !gz_q2r, q2r_mul. reflexivity. Qed.
Lemma sgn_q2r i : sgn (C := Rring) i = q2r (sgn i).
Proof. unfold sgn. destruct (_ =? 0)%Z; [rewrite q2r_1; reflexivity|]. rewrite q2r_opp, q2r_1. reflexivity. Qed.
Lemma flip_q2r (l : list Qcring) : alt_flip (map q2r l) = map q2r (alt_flip l).
Proof.
  unfold alt_flip. rewrite map_tab, !zlen_map. apply tab_ext. intros i _. rewrite gz_q2r, q2r_mul, sgn_q2r. reflexivity.
Qed.
Lemma real_bi_bank a b : real_bank (bi_bank a b) = bi_bank (map q2r a) (map q2r b).
Proof. unfold real_bank, bi_bank. cbn [dec_lo dec_hi rec_lo rec_hi]. rewrite !map_rev, !flip_q2r. reflexivity. Qed.

(** * Norms of the filters *)
Lemma norm1_cons x l : norm1 (x :: l) = Rabs x + norm1 l.
Proof.
  unfold norm1. assert (E : zlen (x :: l) = (zlen l + 1)%Z) by (unfold zlen; cbn [length]; lia). rewrite E.
  assert (0 <= zlen l)%Z by apply zlen_nonneg.
  rewrite (sumZ_first Rring) by lia. change (gz (C := Rring) (x :: l) 0) with x. change (radd (c := Rring)) with Rplus. apply (f_equal (Rplus (Rabs x))).
  rewrite (sumZ_shift Rring 0 (zlen l) 1). apply (sumZ_ext Rring). intros t Ht. apply (f_equal Rabs).
  unfold gz. replace (0 <=? t)%Z with true by lia. replace (0 <=? t - 1)%Z with true by lia. replace (Z.to_nat t) with (S (Z.to_nat (t - 1))) by lia. reflexivity.
Qed.
Lemma norm1_rev l : norm1 (rev l) = norm1 l.
Proof.
  unfold norm1. rewrite zlen_rev, (sumZ_rev Rring). apply (sumZ_ext Rring). intros t Ht. rewrite gz_rev by lia. f_equal. f_equal. lia.
Qed.
Lemma norm1_flip l : norm1 (alt_flip l) = norm1 l.
Proof.
  rewrite <- (norm1_rev l). unfold norm1. rewrite zlen_flip, zlen_rev. apply (sumZ_ext Rring). intros t Ht. rewrite gz_flip, gz_rev by lia.
  change (rmul (c := Rring)) with Rmult. rewrite Rabs_mult. unfold sgn. destruct (_ =? 0)%Z; cbn; rewrite ?Rabs_Ropp, Rabs_R1; ring.
Qed.
Lemma taps_norm1 q l : taps q l <= norm1 l.
Proof. apply sumZ_le_R. intros t _. destruct (_ =? q)%Z; [apply Rle_refl|apply Rabs_pos]. Qed.

Definition l1_ok (t : positive * list Z) : bool := (fold_right Z.add 0 (map Z.abs (snd t)) <=? 4 * 10 ^ Zpos (fst t))%Z.
Lemma q2r_dec E z : q2r (dec E z) = IZR z / IZR (10 ^ Zpos E).
Proof.
  unfold q2r, dec. cbn [this Q2Qc]. rewrite (Qeq_eqR _ _ (Qred_correct _)). unfold Q2R. cbn [Qnum Qden]. rewrite Pos2Z.inj_pow. reflexivity.
Qed.
Lemma l1_norm t : l1_ok t = true -> norm1 (map q2r (dtab t)) <= 4.
Proof.
  unfold l1_ok. rewrite Z.leb_le. intros H. assert (P : 0 < IZR (10 ^ Zpos (fst t))) by (apply IZR_lt; lia).
  assert (E : norm1 (map q2r (dtab t)) = IZR (fold_right Z.add 0%Z (map Z.abs (snd t))) / IZR (10 ^ Zpos (fst t))).
  { unfold dtab. clear H. induction (snd t) as [|z l IH]; [change (0 = 0 / IZR (10 ^ Zpos (fst t))); unfold Rdiv; rewrite Rmult_0_l; reflexivity|].
    cbn [map fold_right]. rewrite norm1_cons, IH, plus_IZR, q2r_dec. unfold Rdiv. rewrite Rabs_mult, Rabs_inv, (Rabs_pos_eq (IZR (10 ^ _))), <- abs_IZR by lra. ring. }
  rewrite E. apply IZR_le in H. rewrite mult_IZR in H. apply (Rmult_le_reg_r _ _ _ P). unfold Rdiv. rewrite Rmult_assoc, Rinv_l by lra. lra.
Qed.
Lemma db_l1 : forallb l1_ok db_list = true. Proof. vm_compute. reflexivity. Qed.
Lemma sym_l1 : forallb l1_ok sym_list = true. Proof. vm_compute. reflexivity. Qed.
Lemma coif_l1 : forallb (fun t => l1_ok (tscale t sqrt2_z)) coif_list = true. Proof. vm_compute. reflexivity. Qed.
Lemma dmey_l1 : l1_ok dmey_z = true. Proof. vm_compute. reflexivity. Qed.
Lemma bior_l1 : forallb (fun q => l1_ok (fst (bior_z (snd q))) && l1_ok (snd (bior_z (snd q)))) bior_list = true. Proof. vm_compute. reflexivity. Qed.

Definition small (w : wavelet Qcring) : Prop :=
  norm1 (map q2r (rec_lo w)) <= 4 /\ norm1 (map q2r (dec_lo w)) <= 4.
Lemma small_bi a b : norm1 (map q2r a) <= 4 -> norm1 (map q2r b) <= 4 -> small (bi_bank a b).
Proof. intros Ha Hb. split; cbn [bi_bank rec_lo dec_lo]; [exact Ha|]. rewrite map_rev, norm1_rev. exact Hb. Qed.

Lemma bior_small n q : lookup n = Some q -> norm1 (map q2r (bior_synth _ builtin q)) <= 4 /\ norm1 (map q2r (bior_ana _ builtin q)) <= 4.
Proof.
  intros Hq. unfold lookup in Hq. destruct (find _ bior_list) as [[k q']|] eqn:E; [|discriminate].
  injection Hq as ->. apply find_some in E. destruct E as (Hin & _).
  pose proof bior_l1 as Hc. rewrite forallb_forall in Hc. specialize (Hc _ Hin). cbn [snd] in Hc. apply andb_true_iff in Hc. destruct Hc as [C1 C2].
  assert (G : bior_synth _ builtin q = dtab (fst (bior_z q)) /\ bior_ana _ builtin q = dtab (snd (bior_z q))).
  { unfold bior_synth, bior_ana, bior_z, builtin. cbn [t_bior]. clear C1 C2.
    unfold bior_list in Hin. cbn [In] in Hin.
    repeat (destruct Hin as [Hin|Hin];
      [injection Hin as _ <-; cbn [fst snd nthZ]; rewrite <- ?dtab_window; split; reflexivity|]). contradiction. }
  destruct G as (-> & ->). split; apply l1_norm; assumption.
Qed.

Theorem builtin_small fuel name n w : uint_range n -> (22 < Z.of_nat fuel)%Z -> valid_order name n = true ->
  discrete_wavelet fuel builtin name n = Ok (Some w) -> small (w_bank w).
Proof.
  intros Hn Hf Hv. pose proof builtin_ok as HT.
  assert (HDB : forall m, (1 <= m <= 38)%Z -> discrete_wavelet fuel builtin DB m = Ok (Some w) -> small (w_bank w)).
  { intros m Hm. rewrite db_structure by (auto; unfold uint_range; lia).
    replace ((1 <=? m) && (m <=? 38))%Z with true by lia. cbv zeta. intros E. injection E as <-. cbn [w_bank].
    assert (G : norm1 (map q2r (nthZ (t_db builtin) (m - 1))) <= 4).
    { unfold builtin. cbn [t_db]. rewrite nthZ_map by (split; [lia|change (zlen db_list) with 38%Z; lia]). apply l1_norm. apply (nth_check _ db_list (m - 1) db_l1). change (zlen db_list) with 38%Z. lia. }
    apply small_bi; exact G. }
  destruct name; cbn [valid_order] in Hv; try discriminate Hv.
  - rewrite haar_structure by auto. apply HDB. lia.
  - pose proof (lookup_valid n) as L. rewrite Hv in L. destruct L as (q & Hq). rewrite rbio_structure by auto.
    rewrite bior_structure by auto. rewrite Hq. cbv zeta. cbn [w_bank].
    rewrite (bi_swap _ _ _ eq_refl). intros E. injection E as <-. cbn [w_bank]. destruct (bior_small n q Hq). apply small_bi; assumption.
  - apply andb_true_iff in Hv. apply HDB. lia.
  - rewrite sym_structure by auto. rewrite Hv. cbv zeta. apply andb_true_iff in Hv. intros E. injection E as <-. cbn [w_bank].
    assert (G : norm1 (map q2r (nthZ (t_sym builtin) (n - 2))) <= 4).
    { unfold builtin. cbn [t_sym]. rewrite nthZ_map by (split; [lia|change (zlen sym_list) with 19%Z; lia]). apply l1_norm. apply (nth_check _ sym_list (n - 2) sym_l1). change (zlen sym_list) with 19%Z. lia. }
    apply small_bi; exact G.
  - rewrite coif_structure by auto. rewrite Hv. cbv zeta. apply andb_true_iff in Hv. intros E. injection E as <-. cbn [w_bank].
    assert (G : norm1 (map q2r (map (fun v => v [*] t_sqrt2 builtin) (nthZ (t_coif builtin) (n - 1)))) <= 4).
    { unfold builtin. cbn [t_coif t_sqrt2]. rewrite nthZ_map by (split; [lia|change (zlen coif_list) with 17%Z; lia]). rewrite (dtab_scale _ sqrt2_z). apply l1_norm.
      apply (nth_check (fun t => l1_ok (tscale t sqrt2_z)) coif_list (n - 1) coif_l1). change (zlen coif_list) with 17%Z. lia. }
    apply small_bi; exact G.
  - pose proof (lookup_valid n) as L. rewrite Hv in L. destruct L as (q & Hq).
    rewrite bior_structure by auto. rewrite Hq. intros E. injection E as <-. cbn [w_bank]. destruct (bior_small n q Hq). apply small_bi; assumption.
  - rewrite dmey_structure by auto. cbv zeta. intros E. injection E as <-. cbn [w_bank]. apply small_bi; apply (l1_norm dmey_z dmey_l1).
Qed.

(** * The exact transforms with the real filters *)
Add Ring RRB : (rth Rring).
Definition real_resid (a b : list Qcring) : R := q2r (resid_sum a b).
Lemma real_resid_sum (a b : list Qcring) :
  real_resid a b = sumZ (C := Rring) (- (zlen a / 2)) (zlen a / 2) (fun k => Rabs (q2r (resid a b k))).
Proof. unfold real_resid, resid_sum. rewrite sum_q2r. apply (sumZ_ext Rring). intros k _. apply q2r_abs. Qed.
Lemma q2r_resid (a b : list Qcring) k : q2r (resid a b k) = (q2r (corr a b (2 * k)) : Rring) [-] (if (k =? 0)%Z then r1 else r0).
Proof. unfold resid. rewrite q2r_sub. destruct (k =? 0)%Z; [rewrite q2r_1|rewrite q2r_0]; reflexivity. Qed.
Lemma real_response_eq (a b : list Qcring) (e : Z -> Rring) n : (2 <= zlen a)%Z ->
  even_response (map q2r a) (map q2r b) e n [-] e n =
  sumZ (C := Rring) (- (zlen a / 2)) (zlen a / 2) (fun k => q2r (resid a b k) [*] e (n + 2 * k)%Z).
Proof.
  intros Ha. unfold even_response. rewrite zlen_map. set (K := (zlen a / 2)%Z).
  assert (1 <= K)%Z by (unfold K; lia).
  assert (E : e n = sumZ (C := Rring) (- K) K (fun k => (if (k =? 0)%Z then r1 else r0) [*] e (n + 2 * k)%Z)).
  { rewrite (sumZ_single Rring (- K) K 0); [|lia|].
    - cbn [Z.eqb]. replace (n + 2 * 0)%Z with n by lia. ring.
    - intros t Ht Hne. replace (t =? 0)%Z with false by lia. ring. }
  rewrite E at 1. clear E. rewrite <- (sumZ_sub Rring). apply (sumZ_ext Rring). intros k _.
  rewrite corr_q2r, q2r_resid. destruct (k =? 0)%Z; ring.
Qed.
Lemma real_response (a b : list Qcring) (e : Z -> Rring) n B : (2 <= zlen a)%Z -> (forall k, Rabs (e k) <= B) ->
  Rabs (even_response (map q2r a) (map q2r b) e n [-] e n) <= real_resid a b * B.
Proof.
  intros Ha He. rewrite (real_response_eq a b e n Ha), real_resid_sum. apply (dot_bound _ _ (fun k => q2r (resid a b k)) (fun k => e (n + 2 * k)%Z)). intros t. apply He.
Qed.

Lemma val_le (fl : flarith) B (x : list fl) : (1 <= zlen x)%Z -> (forall v, In v x -> Rabs (val v) <= B) -> 0 <= B /\ RoundingLevels.bounded (map val x) B.
Proof.
  intros Hx HB. assert (B0 : 0 <= B). { destruct x as [|v x]; [unfold zlen in Hx; cbn in Hx; lia|]. specialize (HB v (or_introl eq_refl)). pose proof (Rabs_pos (val v)). lra. }
  split; [exact B0|]. exact (near_bounded fl 0 B x _ B0 (near_0 fl B x HB)).
Qed.

Lemma four_pos : 0 <= 4. Proof. lra. Qed.
Lemma eight_pos : 0 <= 8. Proof. lra. Qed.
(** One level with filters close to a dual pair. *)
Section OneLevel.
Variable fl : flarith.
Variables pf fuel : nat.
Variables (w : owavelet fl) (a b : list Qcring).
Hypothesis Hl : zlen b = zlen a.
Hypothesis He : (zlen a mod 2 = 0)%Z.
Hypothesis Ha : (2 <= zlen a)%Z.
Hypothesis Hs : small (bi_bank a b).
Hypothesis Hw : rounded_bank fl pf w (real_bank (bi_bank a b)).
Let rb := real_bank (bi_bank a b).
Let F := zlen a.

Lemma rb_wf : wf_bank rb.
Proof. unfold rb. rewrite real_bi_bank. apply bi_wf; rewrite ?zlen_map; assumption. Qed.
Lemma rb_len : dec_len rb = F.
Proof. unfold rb, dec_len, real_bank, bi_bank. cbn [dec_lo]. rewrite zlen_map, zlen_rev. exact Hl. Qed.
Lemma rb_norm : norm1 (dec_lo rb) <= 4 /\ norm1 (dec_hi rb) <= 4 /\ forall q, taps q (rec_lo rb) + taps q (rec_hi rb) <= 8.
Proof.
  destruct Hs as (S1 & S2). unfold rb, real_bank, bi_bank in *. cbn [dec_lo dec_hi rec_lo rec_hi] in *.
  split; [exact S2|]. split; [rewrite map_rev, norm1_rev, <- flip_q2r, norm1_flip; exact S1|]. intros q.
  pose proof (taps_norm1 q (map q2r a)). pose proof (taps_norm1 q (alt_flip (map q2r b))) as T. rewrite norm1_flip in T.
  rewrite map_rev, norm1_rev in S2. rewrite <- flip_q2r. lra.
Qed.

Theorem one_level M (x : list fl) m : copying m = true -> (min_len m <= zlen x)%Z -> resources fuel (zlen x) F -> (forall v, In v x -> Rabs (val v) <= M) ->
  exists cA cD y, o_dwt_single fuel x w m = Ok (cA, cD) /\ o_idwt_single fuel cA cD w m = Ok y /\ (zlen y = zlen x + zlen x mod 2)%Z /\
    forall i, (0 <= i < zlen x)%Z ->
      Rabs (gz (C := Rring) (map val y) i - gz (C := Rring) (map val x) i) <=
      real_resid a b * M + 32 * (growth fl pf rb ^ 2 - 1) * M + under fl pf rb * (8 * growth fl pf rb + 1).
Proof.
  intros Hm Hx Hr HM. pose proof rb_wf as Wf. destruct rb_norm as (N1 & N2 & N3). assert (Hx1 : (1 <= zlen x)%Z) by (destruct m; cbn [min_len] in Hx; lia).
  destruct (val_le fl M x Hx1 HM) as (M0 & MB).
  set (X := map val x : list Rring) in *. assert (LX : zlen X = zlen x) by apply zlen_map.
  destruct (dwt_near fl pf fuel w rb Wf Hw 4 m 0 M x X Hm N1 N2 (Rle_refl 0) M0 (near_0 fl M x HM)) as (cA & cD & D1 & D2 & D3).
  { rewrite LX. exact Hx. } { rewrite LX, rb_len. exact Hr. }
  set (A := analysis m (dec_lo rb) X) in *. set (D := analysis m (dec_hi rb) X) in *.
  destruct (idwt_dwt_response Rring fuel (map q2r a) (map q2r b) X m) as (rA & rD & E1 & E2); try (rewrite ?zlen_map, ?LX; assumption).
  rewrite <- real_bi_bank in E1, E2. fold rb in E1, E2.
  unfold dwt in E1. rewrite (dwt_single_spec Rring fuel X rb m Wf) in E1 by (rewrite ?LX, ?rb_len; assumption). injection E1 as EA ED.
  fold A in EA. fold D in ED. subst rA rD. cbn [idwt] in E2.
  assert (LA : zlen A = coeff_len m (zlen x) F /\ zlen D = coeff_len m (zlen x) F).
  { pose proof Wf as (W1 & W2 & W3 & W4 & W5). rewrite rb_len in *. unfold dec_len in *.
    split; unfold A, D; rewrite zlen_analysis, LX by (rewrite ?LX; change (zlen (dec_lo rb)) with (dec_len rb); rewrite ?W1, ?rb_len; lia); [|rewrite W1]; f_equal; apply rb_len. }
  destruct LA as (LA & LD). pose proof (coeff_len_bounds m (zlen x) F Hx1 ltac:(unfold F; lia)) as Cb.
  assert (HR : (1 <= rec_len m (zlen A) (dec_len rb))%Z). { rewrite LA, rb_len. pose proof (rec_coeff_len m (zlen x) F) as T. unfold F in *. lia. }
  assert (HRs : resources fuel (zlen A) (dec_len rb)) by (rewrite LA, rb_len; destruct Hr; split; lia).
  assert (E3 : idwt_single fuel A D rb m = Ok (tab (zlen X + zlen X mod 2) (even_response (map q2r a) (map q2r b) (ext m X)))) by exact E2. clear E2. rename E3 into E2.
  rewrite (idwt_single_spec Rring fuel A D rb m Wf) in E2 by (rewrite ?LD, ?LA; try lia; rewrite <- ?LA; assumption).
  assert (Inj : forall p q : list Rring, Ok p = Ok q -> p = q) by (intros p q E; injection E; auto). apply Inj in E2. clear Inj.
  assert (M4 : 0 <= 4 * M) by lra. assert (S0 : 0 <= step fl pf rb 4 0 M) by (apply step_nonneg; lra).
  destruct (idwt_near fl pf fuel w rb Wf Hw 8 m (step fl pf rb 4 0 M) (4 * M) cA cD A D N3
    S0 M4 D2 D3 ltac:(congruence) ltac:(lia) HR HRs) as (y & Y1 & Y2).
  rewrite E2 in Y2. set (Y := tab _ _) in Y2.
  assert (LY : zlen Y = (zlen x + zlen x mod 2)%Z) by (unfold Y; rewrite LX; apply zlen_tab; lia).
  exists cA, cD, y. split; [exact D1|]. split; [exact Y1|]. split; [rewrite <- LY; exact (F2_zlen _ _ _ Y2)|].
  intros i Hi. pose proof (near_apart fl _ _ y Y (step_nonneg fl pf rb 8 eight_pos _ _ S0 M4) Y2 i) as P.
  assert (Q : Rabs (gz Y i - gz X i) <= real_resid a b * M).
  { unfold Y. rewrite gz_tab by (rewrite LX; lia). rewrite <- (ext_in Rring X m i) by (rewrite ?LX; lia).
    apply (real_response a b (ext m X) i M Ha). intros k. apply ext_bounded; assumption. }
  unfold step in P. change (map val x) with X.
  set (p := gz (C := Rring) (map val y) i) in *. set (q := gz Y i) in *. set (r := gz X i) in *. clearbody p q r. change (car Rring) with R in *.
  replace (p - r) with ((p - q) + (q - r)) by ring. eapply Rle_trans; [apply Rabs_triang|].
  set (G := growth fl pf rb) in *. set (Un := under fl pf rb) in *.
  replace (real_resid a b * M + 32 * (G ^ 2 - 1) * M + Un * (8 * G + 1)) with
    ((G * 8 * (G * 4 * 0 + (G - 1) * 4 * M + Un) + (G - 1) * 8 * (4 * M) + Un) + real_resid a b * M) by ring.
  apply Rplus_le_compat; assumption.
Qed.
End OneLevel.

(** * The built-in wavelets *)
Theorem builtin_rounding (fl : flarith) pf fuel name n M (x : list fl) m :
  uint_range n -> (22 < Z.of_nat fuel)%Z -> valid_order name n = true -> copying m = true ->
  (min_len m <= zlen x)%Z -> resources fuel (zlen x) 102 -> (forall v, In v x -> Rabs (val v) <= M) ->
  exists d, discrete_wavelet fuel builtin name n = Ok (Some d) /\
    forall wf, rounded_bank fl pf wf (real_bank (w_bank d)) ->
      exists cA cD y, o_dwt_single fuel x wf m = Ok (cA, cD) /\ o_idwt_single fuel cA cD wf m = Ok y /\
        (zlen y = zlen x + zlen x mod 2)%Z /\
        forall i, (0 <= i < zlen x)%Z ->
          Rabs (gz (C := Rring) (map val y) i - gz (C := Rring) (map val x) i) <=
          q2r (residual name) * M +
          (32 * ((1 + fu fl) ^ (2 * (102 + pf)) - 1) * M + 918 * (1 + fu fl) ^ (2 * (102 + pf)) * feta fl).
Proof.
  intros Hn Hf Hv Hm Hx Hr HM. destruct (builtin_form fuel name n Hn Hf Hv) as (d & a & b & Ed & Eb & L1 & L2 & L3 & L4).
  pose proof (builtin_small fuel name n d Hn Hf Hv Ed) as Hs. exists d. split; [exact Ed|]. rewrite Eb in *. intros w Hw.
  destruct (one_level fl pf fuel w a b L1 L2 ltac:(lia) Hs Hw M x m Hm Hx) as (cA & cD & y & Y1 & Y2 & Y3 & Y4); [|exact HM|].
  { destruct Hr as [R1 R2]. split; lia. }
  exists cA, cD, y. split; [exact Y1|]. split; [exact Y2|]. split; [exact Y3|]. intros i Hi. eapply Rle_trans; [apply Y4, Hi|].
  assert (Hx1 : (1 <= zlen x)%Z) by (destruct m; cbn [min_len] in Hx; lia). destruct (val_le fl M x Hx1 HM) as (M0 & _).
  rewrite Rplus_assoc. apply Rplus_le_compat; [apply Rmult_le_compat_r; [exact M0|]; apply q2r_le, L4|].
  unfold under, growth. rewrite (rb_len a b L1). set (u := fu fl). pose proof (fu_nonneg fl : 0 <= u) as U0. pose proof (feta_nonneg fl) as E0.
  set (k := (Z.to_nat (zlen a) + pf)%nat). set (k' := (102 + pf)%nat). assert (Hk : (k <= k')%nat) by (unfold k, k'; lia).
  assert (P1 : (1 + u) ^ k <= (1 + u) ^ k') by (apply Rle_pow; [lra|exact Hk]).
  assert (P0 : 1 <= (1 + u) ^ k) by (apply pow_R1_Rle; lra).
  replace ((1 + u) ^ (2 * k')) with ((1 + u) ^ k' * (1 + u) ^ k') by (rewrite <- pow_add; f_equal; lia).
  set (G := (1 + u) ^ k) in *. set (G' := (1 + u) ^ k') in *. clearbody G G'.
  assert (Z1 : INR (Z.to_nat (zlen a)) <= 102) by (replace 102 with (INR 102) by (cbn; lra); apply le_INR; lia).
  pose proof (pos_INR (Z.to_nat (zlen a))) as Z0. set (N := INR (Z.to_nat (zlen a))) in *. clearbody N.
  assert (GG : G * G <= G' * G') by nra. apply Rplus_le_compat.
  - apply Rmult_le_compat_r; [exact M0|]. cbn [pow]. lra.
  - replace (N * G * feta fl * (8 * G + 1)) with (N * (G * (8 * G + 1)) * feta fl) by ring. apply Rmult_le_compat_r; [exact E0|].
    assert (G * (8 * G + 1) <= 9 * (G' * G')) by nra. apply Rle_trans with (102 * (9 * (G' * G'))); [|lra].
    apply Rmult_le_compat; nra.
Qed.

(** Double precision: at most 2^-53 per operation. *)
Lemma pow1_le u n : 0 <= u -> INR (2 * n) * u <= 1 -> (1 + u) ^ n <= 1 + INR (2 * n) * u.
Proof.
  intros U. induction n as [|n IH]; intros H; [cbn; lra|].
  assert (E : INR (2 * S n) = INR (2 * n) + 2) by (replace (2 * S n)%nat with (2 * n + 2)%nat by lia; rewrite plus_INR; cbn; ring).
  rewrite E in *. pose proof (pos_INR (2 * n)). assert (H' : INR (2 * n) * u <= 1) by nra. specialize (IH H'). cbn [pow].
  set (p := (1 + u) ^ n) in *. set (c := INR (2 * n)) in *. clearbody p c. apply Rle_trans with ((1 + u) * (1 + c * u)); [apply Rmult_le_compat_l; lra|].
  assert (c * u * u <= 1 * u) by (apply Rmult_le_compat_r; assumption). nra.
Qed.
Theorem builtin_rounding_double (fl : flarith) pf fuel name n M (x : list fl) m :
  fu fl <= / 2 ^ 53 -> (pf <= 2)%nat ->
  uint_range n -> (22 < Z.of_nat fuel)%Z -> valid_order name n = true -> copying m = true ->
  (min_len m <= zlen x)%Z -> resources fuel (zlen x) 102 -> (forall v, In v x -> Rabs (val v) <= M) ->
  exists d, discrete_wavelet fuel builtin name n = Ok (Some d) /\
    forall wf, rounded_bank fl pf wf (real_bank (w_bank d)) ->
      exists cA cD y, o_dwt_single fuel x wf m = Ok (cA, cD) /\ o_idwt_single fuel cA cD wf m = Ok y /\
        (zlen y = zlen x + zlen x mod 2)%Z /\
        forall i, (0 <= i < zlen x)%Z ->
          Rabs (gz (C := Rring) (map val y) i - gz (C := Rring) (map val x) i) <=
          (q2r (residual name) + 2 / 10 ^ 12) * M + 1000 * feta fl.
Proof.
  intros Hu Hp Hn Hf Hv Hm Hx Hr HM. destruct (builtin_rounding fl pf fuel name n M x m Hn Hf Hv Hm Hx Hr HM) as (d & Ed & H).
  exists d. split; [exact Ed|]. intros w Hw. destruct (H w Hw) as (cA & cD & y & Y1 & Y2 & Y3 & Y4). exists cA, cD, y.
  split; [exact Y1|]. split; [exact Y2|]. split; [exact Y3|]. intros i Hi. eapply Rle_trans; [apply Y4, Hi|].
  assert (Hx1 : (1 <= zlen x)%Z) by (destruct m; cbn [min_len] in Hx; lia). destruct (val_le fl M x Hx1 HM) as (M0 & _).
  rewrite Rmult_plus_distr_r, Rplus_assoc. apply Rplus_le_compat_l.
  pose proof (fu_nonneg fl) as U0. pose proof (feta_nonneg fl) as E0. set (u := fu fl) in *. set (k := (2 * (102 + pf))%nat).
  assert (K : INR (2 * k) <= 416) by (replace 416 with (INR 416) by (rewrite INR_IZR_INZ; reflexivity); apply le_INR; unfold k; lia).
  assert (I : / 2 ^ 53 <= 1 / 9000000000000000) by (apply (Rmult_le_reg_l (2 ^ 53)); [lra|]; rewrite Rinv_r by lra; lra).
  assert (Q : INR (2 * k) * u <= 416 * (1 / 9000000000000000)) by (apply Rmult_le_compat; try lra; apply pos_INR).
  pose proof (pow1_le u k U0 ltac:(lra)) as P. set (g := (1 + u) ^ k) in *. clearbody g.
  assert (P' : g - 1 <= 416 * (1 / 9000000000000000)) by lra. apply Rplus_le_compat.
  - apply Rmult_le_compat_r; [exact M0|]. lra.
  - apply Rmult_le_compat_r; [exact E0|]. lra.
Qed.
