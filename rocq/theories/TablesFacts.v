(** Consequences for the built-in wavelets. *)
From Verif Require Import Base BaseLemmas CConv Spec ExtLemmas Instances Lengths Dwt DwtProofs FilterSpec Filters FiltersProofs FiltersFacts PRError Tables TablesProofs.
From Coq Require Import QArith Qcanon Qcabs.
Open Scope Z_scope.

(** Bound of the sum of the residuals |<a, b(.+2k)> - delta(k)| of a family. *)
Definition residual (name : family) : R :=
  match name with
  | HAAR | DB => bound_db | SYM => bound_sym | COIF => bound_coif | BIOR | RBIO => bound_bior | _ => bound_dmey
  end.

Lemma nth_check (P : positive * list Z -> bool) l i : forallb P l = true -> 0 <= i < zlen l ->
  P (nth (Z.to_nat i) l (1%positive, [])) = true.
Proof. intros H Hi. apply nth_forallb; auto. unfold zlen in Hi. lia. Qed.

Lemma db_tab i : 0 <= i < 38 ->
  let c := nthZ (t_db builtin) i in zlen c = 2 * (i + 1) /\ (resid_sum c c [<=] bound_db).
Proof.
  intros Hi c. destruct builtin_ok as (H & _). apply map_zlen_tab in H; [|lia]. destruct H as (Hl & Hz).
  split; [apply Hz; lia|]. unfold c, builtin. cbn [t_db]. rewrite nthZ_map by exact Hi.
  apply acheck_ok. apply (nth_check _ db_list i db_check Hi).
Qed.
Lemma sym_tab i : 0 <= i < 19 ->
  let c := nthZ (t_sym builtin) i in zlen c = 2 * (i + 2) /\ (resid_sum c c [<=] bound_sym).
Proof.
  intros Hi c. destruct builtin_ok as (_ & H & _). apply map_zlen_tab in H; [|lia]. destruct H as (Hl & Hz).
  split; [apply Hz; lia|]. unfold c, builtin. cbn [t_sym]. rewrite nthZ_map by exact Hi.
  apply acheck_ok. apply (nth_check _ sym_list i sym_check Hi).
Qed.
Lemma coif_tab i : 0 <= i < 17 ->
  let c := map (fun v => v [*] t_sqrt2 builtin) (nthZ (t_coif builtin) i) in zlen c = 6 * (i + 1) /\ (resid_sum c c [<=] bound_coif).
Proof.
  intros Hi c. destruct builtin_ok as (_ & _ & H & _). apply map_zlen_tab in H; [|lia]. destruct H as (Hl & Hz).
  split; [unfold c; rewrite zlen_map; apply Hz; lia|]. unfold c, builtin. cbn [t_coif t_sqrt2]. rewrite nthZ_map by exact Hi.
  rewrite (dtab_scale _ sqrt2_z). apply scheck_ok. apply (nth_check (fun t => scheck t sqrt2_z 14 (10 ^ 17)) coif_list i coif_check Hi).
Qed.

Lemma bior_tab n q : lookup n = Some q ->
  let a := bior_synth _ builtin q in let b := bior_ana _ builtin q in
  (resid_sum a b [<=] bound_bior) /\ (resid_sum b a [<=] bound_bior).
Proof.
  intros Hq a b. unfold lookup in Hq. destruct (find _ bior_list) as [[k q']|] eqn:E; [|discriminate].
  injection Hq as ->. apply find_some in E. destruct E as (Hin & _).
  pose proof bior_check as Hc. rewrite forallb_forall in Hc. specialize (Hc _ Hin). cbn beta iota in Hc.
  assert (G : a = dtab (fst (bior_z q)) /\ b = dtab (snd (bior_z q))).
  { unfold a, b, bior_synth, bior_ana, bior_z, builtin. cbn [t_bior]. clear Hc a b.
    unfold bior_list in Hin. cbn [In] in Hin.
    repeat (destruct Hin as [Hin|Hin];
      [injection Hin as _ <-; cbn [fst snd nthZ]; rewrite <- ?dtab_window; split; reflexivity|]). contradiction. }
  destruct G as (-> & ->). destruct (bior_z q) as [ta tb]. cbn [fst snd]. apply andb_true_iff in Hc.
  destruct Hc as (C1 & C2). split; apply tcheck_ok; assumption.
Qed.

Lemma bi_swap {C : CRing} (a b : list C) (w : wavelet C) : w = bi_bank a b ->
  mkWavelet (rev (rec_lo w)) (rev (rec_hi w)) (rev (dec_lo w)) (rev (dec_hi w)) = bi_bank b a.
Proof. intros ->. unfold bi_bank. cbn [rec_lo rec_hi dec_lo dec_hi]. rewrite !rev_involutive. reflexivity. Qed.

Theorem builtin_form fuel name n : uint_range n -> 22 < Z.of_nat fuel -> valid_order name n = true ->
  exists w a b, discrete_wavelet fuel builtin name n = Ok (Some w) /\ w_bank w = bi_bank a b /\
    zlen b = zlen a /\ zlen a mod 2 = 0 /\ 2 <= zlen a <= 102 /\ (resid_sum a b [<=] residual name).
Proof.
  intros Hn Hf Hv. pose proof builtin_ok as HT.
  assert (HDB : forall m, 1 <= m <= 38 -> exists w a b, discrete_wavelet fuel builtin DB m = Ok (Some w) /\ w_bank w = bi_bank a b /\
    zlen b = zlen a /\ zlen a mod 2 = 0 /\ 2 <= zlen a <= 102 /\ (resid_sum a b [<=] bound_db)).
  { intros m Hm. rewrite db_structure by (auto; unfold uint_range; lia).
    replace ((1 <=? m) && (m <=? 38)) with true by lia. cbv zeta.
    destruct (db_tab (m - 1) ltac:(lia)) as (Hz & Hb). eexists _, _, _. split; [reflexivity|]. split; [reflexivity|].
    split; [reflexivity|]. rewrite Hz. split; [lia|]. split; [lia|exact Hb]. }
  assert (HB : forall q, lookup n = Some q -> let a := bior_synth _ builtin q in let b := bior_ana _ builtin q in
     zlen b = zlen a /\ zlen a mod 2 = 0 /\ 2 <= zlen a <= 102).
  { intros q Hq a b. pose proof (lookup_len _ builtin n q HT Hq) as L. fold a b in L. destruct L as (L1 & L2 & L3). rewrite L1. lia. }
  destruct name; cbn [valid_order] in Hv; try discriminate; cbn [residual].
  - rewrite haar_structure by auto. apply HDB. lia.
  - pose proof (lookup_valid n) as L. rewrite Hv in L. destruct L as (q & Hq). rewrite rbio_structure by auto.
    rewrite bior_structure by auto. rewrite Hq. cbv zeta. cbn [w_bank].
    destruct (HB q Hq) as (H1 & H2 & H3). destruct (bior_tab n q Hq) as (_ & Hb).
    rewrite (bi_swap _ _ _ eq_refl). eexists _, _, _. split; [reflexivity|]. split; [reflexivity|].
    rewrite H1. auto.
  - apply andb_true_iff in Hv. apply HDB. lia.
  - rewrite sym_structure by auto. rewrite Hv. cbv zeta. apply andb_true_iff in Hv.
    destruct (sym_tab (n - 2) ltac:(lia)) as (Hz & Hb). eexists _, _, _. split; [reflexivity|]. split; [reflexivity|].
    split; [reflexivity|]. rewrite Hz. split; [lia|]. split; [lia|exact Hb].
  - rewrite coif_structure by auto. rewrite Hv. cbv zeta. apply andb_true_iff in Hv.
    destruct (coif_tab (n - 1) ltac:(lia)) as (Hz & Hb). eexists _, _, _. split; [reflexivity|]. split; [reflexivity|].
    split; [reflexivity|]. rewrite Hz. split; [lia|]. split; [lia|exact Hb].
  - pose proof (lookup_valid n) as L. rewrite Hv in L. destruct L as (q & Hq).
    rewrite bior_structure by auto. rewrite Hq. destruct (HB q Hq) as (H1 & H2 & H3). destruct (bior_tab n q Hq) as (Hb & _).
    eexists _, _, _. split; [reflexivity|]. split; [reflexivity|]. auto.
  - rewrite dmey_structure by auto. cbv zeta. destruct HT as (_ & _ & _ & _ & Hz).
    eexists _, _, _. split; [reflexivity|]. split; [reflexivity|]. split; [reflexivity|]. rewrite Hz.
    split; [reflexivity|]. split; [lia|]. unfold builtin. cbn [t_dmey]. apply acheck_ok. apply dmey_check.
Qed.

Lemma rle_add (a b c d : R) : a [<=] b -> c [<=] d -> a [+] c [<=] b [+] d.
Proof. apply Qcplus_le_compat. Qed.

Lemma resid_one (a b : list R) k : zlen b = zlen a -> zlen a mod 2 = 0 -> 2 <= zlen a -> qabs (resid a b k) [<=] resid_sum a b.
Proof.
  intros Hl He H2. unfold resid_sum. set (K := zlen a / 2). assert (HK : zlen a = 2 * K) by (unfold K; pose proof (Z.div_mod (zlen a) 2); lia).
  assert (Hs : forall x y, (r0 [<=] (sumZ x y (fun k => qabs (resid a b k)) : R))).
  { intros x y. unfold sumZ. induction (Z.to_nat (y - x)) as [|m IH]; cbn [sumn]; [apply rle_refl|].
    replace (r0 : R) with (r0 [+] r0 : R) by ring. apply rle_add; [exact IH|apply qabs_nonneg]. }
  destruct (Z_le_gt_dec (- K) k) as [G1|G1]; [destruct (Z_lt_ge_dec k K) as [G2|G2]|].
  - rewrite (sumZ_split _ (- K) k K), (sumZ_first _ k K) by lia.
    set (u := qabs (resid a b k)). pose proof (Hs (- K) k) as P. pose proof (Hs (k + 1) K) as Q.
    set (p := sumZ (- K) k _) in *. set (q := sumZ (k + 1) K _) in *. clearbody p q u.
    replace u with (r0 [+] (u [+] r0) : R) at 1 by ring.
    apply rle_add; [exact P|]. apply rle_add; [apply rle_refl|exact Q].
  - assert (E : resid a b k = r0).
    { unfold resid. replace (k =? 0) with false by lia. unfold corr. rewrite sumZ_zero; [ring|].
      intros t Ht. rewrite (gz_big b) by lia. ring. }
    rewrite E, qabs_pos by apply rle_refl. apply Hs.
  - assert (E : resid a b k = r0).
    { unfold resid. replace (k =? 0) with false by lia. unfold corr. rewrite sumZ_zero; [ring|].
      intros t Ht. rewrite (gz_neg b) by lia. ring. }
    rewrite E, qabs_pos by apply rle_refl. apply Hs.
Qed.

(** Every perfect-reconstruction identity of a built-in bank holds up to [residual]. *)
Theorem builtin_residual fuel name n : uint_range n -> 22 < Z.of_nat fuel -> valid_order name n = true ->
  exists w, discrete_wavelet fuel builtin name n = Ok (Some w) /\
    let b := w_bank w in let F := dec_len b in
    forall p s, p = 0 \/ p = 1 ->
      qabs (sumZ 0 F (fun m => if m mod 2 =? p
                               then gz (rec_lo b) m [*] gz (dec_lo b) (s - m) [+] gz (rec_hi b) m [*] gz (dec_hi b) (s - m)
                               else r0)
            [-] (if s =? F - 1 then r1 else r0)) [<=] residual name.
Proof.
  intros Hn Hf Hv. destruct (builtin_form fuel name n Hn Hf Hv) as (w & a & b & Ew & Eb & Hl & He & Hz & Hr).
  exists w. split; [exact Ew|]. rewrite Eb. cbv zeta. intros p s Hp.
  assert (EF : dec_len (bi_bank a b) = zlen a) by (unfold dec_len, bi_bank; cbn [dec_lo]; rewrite zlen_rev; exact Hl).
  rewrite EF. pose proof (bi_response R a b p s Hl He Hp) as B. cbv zeta in B. rewrite B.
  destruct (Z.eqb_spec ((zlen a - 1 - s) mod 2) 0) as [Hu|Hu].
  - set (k := (zlen a - 1 - s) / 2). assert (Ek : zlen a - 1 - s = 2 * k) by (unfold k; pose proof (Z.div_mod (zlen a - 1 - s) 2); lia).
    eapply rle_trans; [|exact Hr]. eapply rle_trans; [|apply (resid_one a b k); auto; lia].
    unfold resid. rewrite Ek. replace (s =? zlen a - 1) with (k =? 0) by (destruct (Z.eqb_spec k 0), (Z.eqb_spec s (zlen a - 1)); auto; lia).
    apply rle_refl.
  - replace (s =? zlen a - 1) with false by (destruct (Z.eqb_spec s (zlen a - 1)) as [Es|]; auto; subst s; exfalso; apply Hu; replace (zlen a - 1 - (zlen a - 1)) with 0 by lia; reflexivity).
    replace (r0 [-] r0 : R) with (r0 : R) by ring. rewrite qabs_pos by apply rle_refl.
    eapply rle_trans; [|exact Hr]. eapply rle_trans; [|apply (resid_one a b 0); auto; lia]. apply qabs_nonneg.
Qed.

Theorem builtin_error fuel name n (x : list R) m (M : R) :
  uint_range n -> valid_order name n = true -> min_len m <= zlen x -> resources fuel (zlen x) 102 ->
  (forall i, 0 <= i < zlen x -> (qabs (gz x i) [<=] M)) ->
  exists w cA cD y, discrete_wavelet fuel builtin name n = Ok (Some w) /\
    dwt fuel x (w_bank w) m = Ok (cA, cD) /\ idwt fuel (Some cA) (Some cD) (w_bank w) m = Ok y /\
    zlen y = zlen x + zlen x mod 2 /\
    forall i, 0 <= i < zlen x -> (qabs (gz y i [-] gz x i) [<=] residual name [*] (rz (gain m (dec_len (w_bank w))) [*] M)).
Proof.
  intros Hn Hv Hx Hr HM. assert (Hf : 22 < Z.of_nat fuel) by (destruct Hr; lia).
  destruct (builtin_form fuel name n Hn Hf Hv) as (w & a & b & Ew & Eb & Hl & He & Hz & Hb).
  assert (Hr' : resources fuel (zlen x) (zlen a)) by (destruct Hr; split; lia).
  destruct (idwt_dwt_error fuel a b x m M Hl He ltac:(lia) Hx Hr' HM) as (cA & cD & y & E1 & E2 & E3 & E4).
  exists w, cA, cD, y. rewrite Eb. repeat (split; [assumption|]). intros i Hi.
  assert (HN : 1 <= zlen x) by lia.
  assert (EF : dec_len (bi_bank a b) = zlen a) by (unfold dec_len, bi_bank; cbn [dec_lo]; rewrite zlen_rev; exact Hl).
  rewrite EF. specialize (E4 i ltac:(lia)). rewrite ext_in in E4 by lia.
  eapply rle_trans; [exact E4|]. apply qmul_mono; [exact Hb|].
  eapply rle_trans with (b := qabs (rz (gain m (zlen a)) [*] M)); [apply qabs_nonneg|].
  assert (P : r0 [<=] M) by (eapply M_nonneg; [exact HM|lia]).
  rewrite qabs_pos; [apply rle_refl|]. replace (r0 : R) with (r0 [*] M) by ring. apply qmul_mono; [|exact P].
  apply rz_nonneg. unfold gain. destruct m; lia.
Qed.

(** The discrete Meyer filter is flagged orthogonal, but its energy differs
    from 1 by more than 1/500. *)
Lemma dec_dist E c : (kE E [*] kE E [*] rz c [-] r1 : R) = Q2Qc ((c - Dz E E) # (10 ^ E * 10 ^ E)%positive)%Q.
Proof.
  assert (Q : (kE E [*] kE E [*] rz c [-] r1 : R) = kE E [*] kE E [*] rz (c - Dz E E)).
  { rewrite rz_sub. unfold Dz. rewrite rz_mul.
    transitivity (kE E [*] kE E [*] rz c [-] (kE E [*] rz (10 ^ Zpos E)) [*] (kE E [*] rz (10 ^ Zpos E)) : R); [rewrite kE_one; ring|ring]. }
  rewrite Q. rewrite rz_Qc. unfold kE, dec. cbn [rmul Qcring]. apply Qc_is_canon. unfold Qcmult. cbn [this Q2Qc].
  rewrite !Qred_correct. unfold Qeq, Qmult, inject_Z. cbn [Qnum Qden]. lia.
Qed.

Lemma energy_dist E (z : list Zring) n d :
  n * (10 ^ Zpos E * 10 ^ Zpos E) <= (fcorr z z 0 - Dz E E) * Zpos d ->
  ratio n d [<=] qabs (corr (map (dec E) z) (map (dec E) z) 0 [-] r1).
Proof.
  intros H. rewrite corr_dec, dec_dist. eapply rle_trans; [|apply Qcle_Qcabs].
  unfold rle, ratio, Qcle. cbn [this Q2Qc]. rewrite !Qred_correct. unfold Qle. cbn [Qnum Qden].
  rewrite <- fcorr_spec, Pos2Z.inj_mul, !Pos2Z.inj_pow. exact H.
Qed.

Lemma dmey_energy : ratio 1 500 [<=] qabs (corr (t_dmey builtin) (t_dmey builtin) 0 [-] r1).
Proof. apply (energy_dist (fst dmey_z) (snd dmey_z) 1 500). vm_compute. discriminate. Qed.

Theorem dmey_not_pr fuel n : exists w, discrete_wavelet fuel builtin DMEY n = Ok (Some w) /\ w_orthogonal w = true /\
  ~ pr_wavelet (w_bank w).
Proof.
  rewrite dmey_structure by apply builtin_ok. cbv zeta. eexists. split; [reflexivity|]. split; [reflexivity|].
  cbn [w_bank]. intros (_ & _ & _ & _ & _ & H). specialize (H 0 (zlen (t_dmey builtin) - 1) (or_introl eq_refl)).
  assert (EF : zlen (dec_lo (bi_bank (t_dmey builtin) (t_dmey builtin))) = zlen (t_dmey builtin)) by (unfold bi_bank; cbn [dec_lo]; rewrite zlen_rev; reflexivity).
  rewrite EF, Z.eqb_refl in H.
  pose proof (bi_response R (t_dmey builtin) (t_dmey builtin) 0 (zlen (t_dmey builtin) - 1) eq_refl) as B.
  assert (Hz : zlen (t_dmey builtin) = 62) by apply builtin_ok.
  rewrite Hz in *. specialize (B eq_refl (or_introl eq_refl)). cbv zeta in B. change ((62 - 1 - (62 - 1)) mod 2 =? 0) with true in B. cbn iota in B.
  change (62 - 1 - (62 - 1)) with 0 in B.
  pose proof dmey_energy as D. rewrite <- B in D. rewrite H in D.
  revert D. unfold rle, ratio. replace (@r1 Qcring [-] r1) with (@r0 Qcring) by ring. vm_compute. intros D. apply D. reflexivity.
Qed.
