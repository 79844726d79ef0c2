(** The sampled functions of wavefun are the cascade approximations. *)
From Coq Require Import QArith.
From Verif Require Import Base BaseLemmas CConv Spec Lengths Dwt DwtProofs Swt Multilevel MultilevelProofs.
From Verif Require Import FilterSpec Filters FiltersProofs FiltersFacts Cwt Wavefun WavefunSpec.
Open Scope Z_scope.

Lemma qnth_tab n (f : Z -> Q) i : 0 <= i < n -> nth (Z.to_nat i) (tab n f) 0%Q = f i.
Proof.
  intros H. unfold tab. rewrite (nth_indep _ 0%Q (f (Z.of_nat 0))) by (rewrite map_length, seq_length; lia).
  rewrite (map_nth (fun k => f (Z.of_nat k))). rewrite seq_nth by lia. f_equal. lia.
Qed.

Section WP.
Variable C : CRing.
Add Ring Cring_ring_wfp : (rth C).
Notation "a [+] b" := (radd a b). Notation "a [*] b" := (rmul a b).

(** The cascade without the factor sqrt 2. *)
Fixpoint sc (h : list C) (n : nat) (i : Z) : C :=
  match n with
  | O => pulse i
  | S n' => sumZ 0 (zlen h) (fun k => gz h k [*] sc h n' (i - 2 ^ Z.of_nat n' * k))
  end.

Lemma cascade_sc (s : C) (h : list C) n : forall i, cascade s h n i = cpow s n [*] sc h n i.
Proof.
  induction n as [|n IH]; intros i; cbn [cascade sc cpow]; [ring|].
  rewrite (sumZ_ext _ 0 (zlen h) _ (fun k => cpow s n [*] (gz h k [*] sc h n (i - 2 ^ Z.of_nat n * k)))).
  - rewrite sumZ_scal. ring.
  - intros k _. rewrite IH. ring.
Qed.

Definition scw (g h : list C) (n : nat) (i : Z) : C :=
  sumZ 0 (zlen g) (fun k => gz g k [*] sc h n (i - 2 ^ Z.of_nat n * k)).

Lemma cascade_with_sc (s : C) (g h : list C) n i : cascade_with s g h (S n) i = cpow s (S n) [*] scw g h n i.
Proof.
  unfold cascade_with, scw. replace (S n - 1)%nat with n by lia. cbn [cpow].
  rewrite (sumZ_ext _ 0 (zlen g) _ (fun k => cpow s n [*] (gz g k [*] sc h n (i - 2 ^ Z.of_nat n * k)))).
  - rewrite sumZ_scal. ring.
  - intros k _. rewrite cascade_sc. ring.
Qed.

Lemma cascade_self (s : C) (h : list C) L i : (1 <= L)%nat -> cascade_with s h h L i = cascade s h L i.
Proof. intros H. destruct L as [|n]; [lia|]. unfold cascade_with. cbn [cascade]. replace (S n - 1)%nat with n by lia. reflexivity. Qed.

(** The upsampled convolution as a sum over the coefficients. *)
Lemma up_conv_coeffs (g c : list C) n :
  up_conv g (gz c) n = sumZ 0 (zlen c) (fun k => gz c k [*] gz g (n - 2 * k)).
Proof.
  unfold up_conv.
  transitivity (sumZ 0 (zlen g) (fun m => sumZ 0 (zlen c) (fun k => if m =? n - 2 * k then gz g m [*] gz c k else r0))).
  - apply sumZ_ext. intros m Hm. destruct (Z.eqb_spec ((n - m) mod 2) 0) as [E|E].
    + destruct (Z.leb_spec 0 ((n - m) / 2)) as [H1|H1].
      2:{ rewrite (gz_neg c) by lia. rewrite sumZ_zero; [ring|].
          intros t Ht. destruct (Z.eqb_spec m (n - 2 * t)); [exfalso; lia|reflexivity]. }
      destruct (Z.ltb_spec ((n - m) / 2) (zlen c)) as [H2|H2].
      2:{ rewrite (gz_big c) by lia. rewrite sumZ_zero; [ring|].
          intros t Ht. destruct (Z.eqb_spec m (n - 2 * t)); [exfalso; lia|reflexivity]. }
      rewrite (sumZ_single _ 0 (zlen c) ((n - m) / 2)); [|lia|].
      * destruct (Z.eqb_spec m (n - 2 * ((n - m) / 2))); [reflexivity|exfalso; lia].
      * intros t Ht Hne. destruct (Z.eqb_spec m (n - 2 * t)); [exfalso; lia|reflexivity].
    + symmetry. apply sumZ_zero. intros t Ht. destruct (Z.eqb_spec m (n - 2 * t)); [exfalso; lia|reflexivity].
  - rewrite sumZ_swap. apply sumZ_ext. intros k Hk.
    destruct (Z.leb_spec 0 (n - 2 * k)) as [H1|H1].
    2:{ rewrite (gz_neg g) by lia. rewrite sumZ_zero; [ring|].
        intros t Ht. destruct (Z.eqb_spec t (n - 2 * k)); [exfalso; lia|reflexivity]. }
    destruct (Z.ltb_spec (n - 2 * k) (zlen g)) as [H2|H2].
    2:{ rewrite (gz_big g) by lia. rewrite sumZ_zero; [ring|].
        intros t Ht. destruct (Z.eqb_spec t (n - 2 * k)); [exfalso; lia|reflexivity]. }
    rewrite (sumZ_single _ 0 (zlen g) (n - 2 * k)); [|lia|].
    + rewrite Z.eqb_refl. ring.
    + intros t Ht Hne. destruct (Z.eqb_spec t (n - 2 * k)); [exfalso; lia|reflexivity].
Qed.

Lemma gz_full (g c : list C) n : 1 <= zlen c -> 2 <= zlen g -> gz (full_synthesis g c) n = up_conv g (gz c) n.
Proof.
  intros Hc Hg. unfold full_synthesis.
  destruct (Z.leb_spec 0 n) as [H1|H1].
  2:{ rewrite gz_neg by lia. rewrite up_conv_coeffs. symmetry. apply sumZ_zero. intros t Ht. rewrite (gz_neg g) by lia. ring. }
  destruct (Z.ltb_spec n (2 * zlen c + zlen g - 2)) as [H2|H2]; [apply gz_tab; lia|].
  rewrite gz_big by (rewrite zlen_tab; lia). rewrite up_conv_coeffs. symmetry. apply sumZ_zero. intros t Ht. rewrite (gz_big g) by lia. ring.
Qed.

(** Iterated synthesis is synthesis with the cascade as filter. *)
Lemma full_approx_sc (h : list C) n : 2 <= zlen h -> forall (c : list C) i, 1 <= zlen c ->
  gz (full_approx h n c) i = sumZ 0 (zlen c) (fun k => gz c k [*] sc h n (i - 2 ^ Z.of_nat n * k)).
Proof.
  intros Hh. induction n as [|n IH]; intros c i Hc.
  - cbn [full_approx sc]. change (2 ^ Z.of_nat 0) with 1.
    destruct (Z.leb_spec 0 i) as [H1|H1].
    2:{ rewrite gz_neg by lia. symmetry. apply sumZ_zero. intros t Ht. unfold pulse. destruct (Z.eqb_spec (i - 1 * t) 0); [exfalso; lia|ring]. }
    destruct (Z.ltb_spec i (zlen c)) as [H2|H2].
    2:{ rewrite gz_big by lia. symmetry. apply sumZ_zero. intros t Ht. unfold pulse. destruct (Z.eqb_spec (i - 1 * t) 0); [exfalso; lia|ring]. }
    rewrite (sumZ_single _ 0 (zlen c) i); [|lia|].
    + unfold pulse. replace (i - 1 * i =? 0) with true by lia. ring.
    + intros t Ht Hne. unfold pulse. destruct (Z.eqb_spec (i - 1 * t) 0); [exfalso; lia|ring].
  - cbn [full_approx]. rewrite IH by (rewrite zlen_full; lia).
    rewrite zlen_full by lia.
    set (p := 2 ^ Z.of_nat n).
    assert (Hp : 2 ^ Z.of_nat (S n) = 2 * p) by (unfold p; rewrite Nat2Z.inj_succ, Z.pow_succ_r by lia; reflexivity).
    rewrite (sumZ_ext _ 0 (2 * zlen c + zlen h - 2) _
      (fun j => sumZ 0 (zlen c) (fun k => gz c k [*] (gz h (j - 2 * k) [*] sc h n (i - p * j))))).
    2:{ intros j Hj. rewrite gz_full by lia. rewrite up_conv_coeffs. rewrite <- sumZ_scal_r. apply sumZ_ext. intros; ring. }
    rewrite sumZ_swap. apply sumZ_ext. intros k Hk. rewrite sumZ_scal. f_equal. cbn [sc]. fold p.
    rewrite (sumZ_shift _ 0 (zlen h) (2 * k)).
    rewrite (sumZ_widen _ (0 + 2 * k) (zlen h + 2 * k) 0 (2 * zlen c + zlen h - 2)); [|lia|lia|].
    + apply sumZ_ext. intros t Ht. f_equal. f_equal. rewrite Hp. ring.
    + intros t Ht Hne. destruct (Z.ltb_spec t (2 * k)).
      * rewrite gz_neg by lia. ring.
      * rewrite gz_big by lia. ring.
Qed.

Lemma zlen_full_approx (h : list C) n : 2 <= zlen h -> forall (c : list C), 1 <= zlen c ->
  zlen (full_approx h n c) = full_len (zlen h) n (zlen c).
Proof.
  intros Hh. induction n as [|n IH]; intros c Hc; cbn [full_approx full_len]; [reflexivity|].
  rewrite IH by (rewrite zlen_full; lia). rewrite zlen_full by lia. reflexivity.
Qed.

Lemma keep_loop_len F n : forall N, keep_loop (F - 2) n N = full_len F n N.
Proof. induction n as [|n IH]; intros N; cbn [keep_loop full_len]; [reflexivity|]. rewrite IH. f_equal. lia. Qed.

Lemma full_len_closed F n : forall N, full_len F n N = (N + F - 2) * 2 ^ Z.of_nat n - (F - 2).
Proof.
  induction n as [|n IH]; intros N; cbn [full_len]; [change (2 ^ Z.of_nat 0) with 1; lia|].
  rewrite IH. rewrite Nat2Z.inj_succ, Z.pow_succ_r by lia. ring.
Qed.

(** keep takes the middle; of an odd rest the larger part is cut at the end. *)
Theorem keep_middle A (l : list A) k : 0 <= k < zlen l ->
  exists a b, l = a ++ keep l k ++ b /\ zlen (keep l k) = k /\ (zlen b = zlen a \/ zlen b = zlen a + 1).
Proof.
  intros H. unfold keep. replace (k <? zlen l) with true by lia. cbv zeta. set (q := (zlen l - k) / 2). unfold zlen in *.
  exists (firstn (Z.to_nat q) l), (skipn (Z.to_nat k) (skipn (Z.to_nat q) l)). rewrite !firstn_skipn, !firstn_length, !skipn_length. split; [reflexivity|].
  assert (2 * q <= Z.of_nat (List.length l) - k <= 2 * q + 1) by (unfold q; clear; pose proof (Z.div_mod (Z.of_nat (List.length l) - k) 2); pose proof (Z.mod_pos_bound (Z.of_nat (List.length l) - k) 2); lia).
  split; lia.
Qed.
Lemma keep_all {A} (l : list A) k : zlen l <= k -> keep l k = l.
Proof. intros H. unfold keep. replace (k <? zlen l) with false by lia. reflexivity. Qed.

Variable fuel : nat.
Variable s : C.

(** One array. *)
Lemma wf_array_spec (b : bool) (q : C) w level right :
  wf_bank w -> 1 <= level -> 0 <= right <= dec_len w ->
  (dec_len w - 1) * 2 ^ level + 16 <= Z.of_nat fuel -> (dec_len w - 1) * 2 ^ level < max_alloc - 16 ->
  let K := get_keep_length level (dec_len w) in
  exists a, wf_array fuel b (q [*] cpow s (Z.to_nat level)) w level K right = Ok a /\ zlen a = 1 + K + right /\
    forall i, gz a i = q [*] cascade_with s (if b then rec_lo w else rec_hi w) (rec_lo w) (Z.to_nat level) (i - 1).
Proof.
  intros Hw HL Hr Hf Ha K. pose proof Hw as (H1 & H2 & H3 & H4 & H5).
  set (F := dec_len w) in *.
  assert (HK : K = (F - 1) * 2 ^ level - (F - 2)).
  { unfold K, get_keep_length. rewrite keep_loop_len, full_len_closed. rewrite Z2Nat.id by lia. replace (1 + F - 2) with (F - 1) by lia. reflexivity. }
  assert (HP : 2 <= 2 ^ level) by (replace level with (1 + (level - 1)) by lia; rewrite Z.pow_add_r by lia; pose proof (Z.pow_pos_nonneg 2 (level - 1)); lia).
  set (q' := q [*] cpow s (Z.to_nat level)).
  unfold wf_array.
  assert (HFL : full_len F (Z.to_nat level) (zlen [q']) = K) by (change (zlen [q']) with 1; unfold K, get_keep_length; rewrite keep_loop_len; reflexivity).
  rewrite upcoef_spec; auto; [|reflexivity|fold F; rewrite HFL; lia|fold F; rewrite HFL; lia].
  cbn [bind]. replace (right <? 0) with false by lia.
  assert (Hdl : F < max_alloc). { assert (F <= (F - 1) * 2 ^ level) by nia. lia. }
  destruct (np_zeros_ok C right) as (z & Hz & Hzl & Hze); [lia|]. rewrite Hz. cbn [bind].
  set (g := if b then rec_lo w else rec_hi w).
  assert (Hg : zlen g = F) by (unfold g; destruct b; auto).
  set (u := full_approx (rec_lo w) (Z.to_nat (level - 1)) (full_synthesis g [q'])).
  assert (Hfs : zlen (full_synthesis g [q']) = F) by (rewrite zlen_full; rewrite ?Hg; change (zlen [q']) with 1; lia).
  assert (Hu : zlen u = K).
  { unfold u. rewrite zlen_full_approx by lia. rewrite Hfs, H2. rewrite full_len_closed, HK. rewrite Z2Nat.id by lia.
    replace (2 ^ level) with (2 * 2 ^ (level - 1)); [ring|].
    replace level with (1 + (level - 1)) at 2 by lia. rewrite Z.pow_add_r by lia. reflexivity. }
  rewrite keep_all by lia. eexists. split; [reflexivity|]. split.
  { rewrite !zlen_app, Hu. change (zlen [r0]) with 1. rewrite Hzl. lia. }
  intros i. rewrite !gz_app. change (zlen [r0]) with 1.
  assert (E : gz u (i - 1) = q [*] cascade_with s g (rec_lo w) (Z.to_nat level) (i - 1)).
  { unfold u. rewrite full_approx_sc by lia. rewrite Hfs.
    replace (Z.to_nat level) with (S (Z.to_nat (level - 1))) by lia. rewrite cascade_with_sc.
    unfold scw. rewrite Hg. rewrite <- sumZ_scal. rewrite <- sumZ_scal. apply sumZ_ext. intros k Hk.
    rewrite gz_full by (rewrite ?Hg; change (zlen [q']) with 1; lia).
    rewrite up_conv_coeffs. change (zlen [q']) with 1. rewrite (sumZ_single _ 0 1 0) by lia.
    change (gz [q'] 0) with q'. replace (k - 2 * 0) with k by lia. unfold q'.
    replace (Z.to_nat level) with (S (Z.to_nat (level - 1))) by lia. ring. }
  destruct (Z.ltb_spec i 1) as [Hi|Hi].
  - rewrite <- E. rewrite (gz_neg u) by lia. destruct (Z.eq_dec i 0) as [->|]; [reflexivity|]. apply gz_neg; lia.
  - destruct (Z.ltb_spec (i - 1) (zlen u)) as [Hi2|Hi2]; [exact E|].
    rewrite <- E. rewrite (gz_big u) by lia. subst z. apply gz_repeat0.
Qed.

Lemma linspace_spec a n p i : 1 < n -> 0 < p -> 0 <= i < n -> a = (inject_Z (n - 1) / inject_Z p)%Q ->
  (nth (Z.to_nat i) (linspace 0 a n) 0 == inject_Z i / inject_Z p)%Q.
Proof.
  intros Hn Hp Hi ->. unfold linspace. rewrite qnth_tab by lia. field.
  split; intros E; apply (Qlt_irrefl 0).
  - rewrite <- E at 2. change 0%Q with (inject_Z 0). rewrite <- Zlt_Qlt. lia.
  - rewrite <- E at 2. change 0%Q with (inject_Z 0). rewrite <- Zlt_Qlt. lia.
Qed.

Lemma orth_lengths F level : 2 <= F -> F mod 2 = 0 -> 1 <= level ->
  let K := get_keep_length level F in
  forall (b : bool), let O := fix_output_length ((F - 1) * 2 ^ level + (if b then 1 else 0)) K in
  O = wavefun_len b F level /\ 0 <= get_right_extent_length O K <= F /\ 1 + K + get_right_extent_length O K = O /\ 2 < O.
Proof.
  intros HF He HL K b O.
  assert (HK : K = (F - 1) * 2 ^ level - (F - 2)).
  { unfold K, get_keep_length. rewrite keep_loop_len, full_len_closed. rewrite Z2Nat.id by lia. replace (1 + F - 2) with (F - 1) by lia. reflexivity. }
  assert (HP : 2 <= 2 ^ level) by (replace level with (1 + (level - 1)) by lia; rewrite Z.pow_add_r by lia; pose proof (Z.pow_pos_nonneg 2 (level - 1)); lia).
  assert (HKp : 1 <= K) by (rewrite HK; nia).
  unfold O, fix_output_length, get_right_extent_length, wavefun_len.
  destruct (Z.eqb_spec F 2) as [->|Hne].
  - destruct b; destruct (Z.ltb_spec ((2 - 1) * 2 ^ level + 1 - K - 2) 0); destruct (Z.ltb_spec ((2 - 1) * 2 ^ level + 0 - K - 2) 0); lia.
  - assert (F >= 4) by lia.
    destruct b.
    + replace ((F - 1) * 2 ^ level + 1 - K - 2 <? 0) with false by lia. lia.
    + replace ((F - 1) * 2 ^ level + 0 - K - 2 <? 0) with false by lia. lia.
Qed.

Definition wf_res (F level : Z) : Prop :=
  (F - 1) * 2 ^ level + 16 <= Z.of_nat fuel /\ (F - 1) * 2 ^ level < max_alloc - 16.

Theorem wavefun_orth (W : dwave C) level :
  wf_bank (w_bank W) -> w_orthogonal W = true -> 1 <= level -> wf_res (dec_len (w_bank W)) level ->
  let L := Z.to_nat level in let h := rec_lo (w_bank W) in let g := rec_hi (w_bank W) in
  let n := wavefun_len true (dec_len (w_bank W)) level in
  exists phi psi x, wavefun fuel s W level = Ok (WfOrth phi psi x) /\
    zlen phi = n /\ zlen psi = n /\ zlen x = n /\
    (forall i, gz phi i = cascade s h L (i - 1)) /\
    (forall i, gz psi i = cascade_with s g h L (i - 1)) /\
    (forall i, 0 <= i < n -> (nth (Z.to_nat i) x 0 == inject_Z i / inject_Z (2 ^ level))%Q).
Proof.
  intros Hw Ho HL (Hf & Ha) L h g n. pose proof Hw as (H1 & H2 & H3 & H4 & H5).
  unfold wavefun. rewrite Ho. cbv zeta.
  destruct (orth_lengths (dec_len (w_bank W)) level H5 H4 HL true) as (E1 & E2 & E3 & E4).
  set (K := get_keep_length level (dec_len (w_bank W))) in *.
  cbv zeta in E1, E2, E3, E4. rewrite E1 in *. fold n in E2, E3, E4 |- *.
  destruct (wf_array_spec true r1 (w_bank W) level _ Hw HL E2 Hf Ha) as (phi & P1 & P2 & P3).
  destruct (wf_array_spec false r1 (w_bank W) level _ Hw HL E2 Hf Ha) as (psi & Q1 & Q2 & Q3).
  fold K in P1, Q1, P2, Q2. replace (r1 [*] cpow s (Z.to_nat level)) with (cpow s (Z.to_nat level)) in P1, Q1 by ring.
  rewrite P1. cbn [bind]. rewrite Q1. cbn [bind].
  exists phi, psi. eexists. split; [reflexivity|].
  split; [lia|]. split; [lia|]. split; [unfold linspace; rewrite zlen_tab; lia|].
  split; [intros i; rewrite P3, cascade_self by lia; fold h; fold L; ring|].
  split; [intros i; rewrite Q3; fold h; fold g; fold L; ring|].
  intros i Hi. apply linspace_spec; [lia|apply Z.pow_pos_nonneg; lia|lia|reflexivity].
Qed.

Theorem wavefun_bior (W : dwave C) level :
  wf_bank (w_bank W) -> w_orthogonal W = false -> 1 <= level -> wf_res (dec_len (w_bank W)) level ->
  let L := Z.to_nat level in let w := w_bank W in
  let n := wavefun_len false (dec_len w) level in
  let sign := if w_biorthogonal W && negb (w_psi W mod 4 =? 1) then ropp r1 else r1 in
  exists phi_d psi_d phi_r psi_r x, wavefun fuel s W level = Ok (WfBior phi_d psi_d phi_r psi_r x) /\
    zlen phi_d = n /\ zlen psi_d = n /\ zlen phi_r = n /\ zlen psi_r = n /\ zlen x = n /\
    (forall i, gz phi_d i = cascade s (rev (dec_lo w)) L (i - 1)) /\
    (forall i, gz psi_d i = sign [*] cascade_with s (rev (dec_hi w)) (rev (dec_lo w)) L (i - 1)) /\
    (forall i, gz phi_r i = cascade s (rec_lo w) L (i - 1)) /\
    (forall i, gz psi_r i = sign [*] cascade_with s (rec_hi w) (rec_lo w) L (i - 1)) /\
    (forall i, 0 <= i < n -> (nth (Z.to_nat i) x 0 == inject_Z i / inject_Z (2 ^ level))%Q).
Proof.
  intros Hw Ho HL (Hf & Ha) L w n sign. pose proof Hw as (H1 & H2 & H3 & H4 & H5).
  unfold wavefun. rewrite Ho. cbv zeta.
  assert (Hn : (if w_biorthogonal W && negb (w_psi W mod 4 =? 1) then ropp (cpow s (Z.to_nat level)) else cpow s (Z.to_nat level)) = sign [*] cpow s (Z.to_nat level)).
  { unfold sign. destruct (w_biorthogonal W && negb (w_psi W mod 4 =? 1)); ring. }
  rewrite Hn.
  assert (Hoth : custom_wavelet (inverse_filter_bank (w_bank W)) =
     Ok (mkWavelet (rev (rec_lo w)) (rev (rec_hi w)) (rev (dec_lo w)) (rev (dec_hi w)))).
  { destruct (custom_spec C (inverse_filter_bank (w_bank W))) as [(F & HF & dl & dh & rl & rh & E & L1 & L2 & L3 & L4 & E2 & _)|(_ & E)].
    - unfold inverse_filter_bank in E. injection E as <- <- <- <-. rewrite E2.
      rewrite zlen_rev, H2 in L1. rewrite <- L1, H4. change (repeat r0 (Z.to_nat 0)) with (@nil C). rewrite !app_nil_r. reflexivity.
    - exfalso. apply E. exists (dec_len (w_bank W)). unfold inverse_filter_bank.
      split; [lia|]. split; [reflexivity|]. intros f Hfi. cbn [In] in Hfi. unfold dec_len in *.
      destruct Hfi as [<-|[<-|[<-|[<-|[]]]]]; rewrite zlen_rev; lia. }
  rewrite Hoth. cbn [bind].
  set (o := mkWavelet (rev (rec_lo w)) (rev (rec_hi w)) (rev (dec_lo w)) (rev (dec_hi w))).
  assert (Hod : dec_len o = dec_len (w_bank W)) by (unfold o, dec_len at 1; cbn [dec_lo]; rewrite zlen_rev; exact H2).
  assert (Ho' : wf_bank o).
  { unfold wf_bank. rewrite Hod. unfold o. cbn [dec_hi rec_lo rec_hi]. rewrite !zlen_rev. unfold w, dec_len in *. lia. }
  rewrite Hod.
  destruct (orth_lengths (dec_len (w_bank W)) level H5 H4 HL false) as (E1 & E2 & E3 & E4).
  rewrite Z.add_0_r in E1, E2, E3, E4.
  set (K := get_keep_length level (dec_len (w_bank W))) in *.
  cbv zeta in E1, E2, E3, E4. rewrite E1 in *. fold w in E2, E3, E4. fold n in E2, E3, E4 |- *.
  fold w in Hf, Ha, Hod.
  destruct (wf_array_spec true r1 o level (get_right_extent_length n K) Ho' HL) as (a1 & A1 & A2 & A3); [rewrite Hod; assumption..|].
  destruct (wf_array_spec false sign o level (get_right_extent_length n K) Ho' HL) as (b1 & B1 & B2 & B3); [rewrite Hod; assumption..|].
  destruct (wf_array_spec true r1 w level (get_right_extent_length n K) Hw HL) as (c1 & C1 & C2 & C3); [assumption..|].
  destruct (wf_array_spec false sign w level (get_right_extent_length n K) Hw HL) as (d1 & D1 & D2 & D3); [assumption..|].
  rewrite Hod in A1, A2, B1, B2. fold w in K. fold K in A1, A2, B1, B2, C1, C2, D1, D2.
  replace (r1 [*] cpow s (Z.to_nat level)) with (cpow s (Z.to_nat level)) in A1, C1 by ring.
  fold w. fold n. rewrite A1. cbn [bind]. rewrite B1. cbn [bind]. fold w. rewrite C1. cbn [bind]. rewrite D1. cbn [bind].
  exists a1, b1, c1, d1. eexists. split; [reflexivity|].
  split; [lia|]. split; [lia|]. split; [lia|]. split; [lia|]. split; [unfold linspace; rewrite zlen_tab; lia|].
  split; [intros i; rewrite A3, cascade_self by lia; fold L; cbn [o rec_lo]; ring|].
  split; [intros i; rewrite B3; reflexivity|].
  split; [intros i; rewrite C3, cascade_self by lia; fold L; ring|].
  split; [intros i; rewrite D3; reflexivity|].
  intros i Hi. apply linspace_spec; [lia|apply Z.pow_pos_nonneg; lia|lia|reflexivity].
Qed.

Theorem wavefun_level (W : dwave C) level : level < 1 -> wf_bank (w_bank W) -> wavefun fuel s W level = Err ValueError.
Proof.
  intros H Hw. unfold wavefun. cbv zeta. unfold wf_array.
  destruct (w_orthogonal W); [rewrite upcoef_level by auto; reflexivity|].
  destruct (inverse_accepted C _ Hw) as (w' & ->). cbn [bind]. rewrite upcoef_level by auto. reflexivity.
Qed.

End WP.
