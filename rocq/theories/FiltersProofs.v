(** Filter-bank construction: structure, perfect reconstruction from even-shift
    (bi)orthogonality, and the input-output response of dwt followed by idwt. *)
From Verif Require Import Base BaseLemmas CConv Spec ExtLemmas Lengths Dwt DwtProofs PR Swt SwtProofs FilterSpec Filters.

Section F.
Variable C : CRing.
Add Ring Cring_ring_fi : (rth C).

Lemma gz_rev_all (l : list C) i : gz (rev l) i = gz l (zlen l - 1 - i).
Proof.
  destruct (Z_lt_ge_dec i 0) as [H|H].
  - rewrite gz_neg, gz_big by lia. reflexivity.
  - destruct (Z_lt_ge_dec i (zlen l)) as [H'|H'].
    + apply gz_rev. lia.
    + rewrite gz_big by (rewrite zlen_rev; lia). rewrite gz_neg by lia. reflexivity.
Qed.

Lemma sgn_add i j : sgn (i + j) = (sgn i : C) [*] sgn j.
Proof. unfold sgn. destruct (Z.eqb_spec (i mod 2) 0), (Z.eqb_spec (j mod 2) 0), (Z.eqb_spec ((i + j) mod 2) 0); try ring; lia. Qed.
Lemma sgn_sq i : (sgn i : C) [*] sgn i = r1.
Proof. unfold sgn. destruct (i mod 2 =? 0); ring. Qed.
Lemma sgn_opp i : sgn (- i) = (sgn i : C).
Proof. unfold sgn. replace (- i mod 2) with (i mod 2) by lia. reflexivity. Qed.
Lemma sgn_even i : i mod 2 = 0 -> sgn i = (r1 : C).
Proof. intros H. unfold sgn. rewrite H. reflexivity. Qed.
Lemma sgn_odd i : i mod 2 = 1 -> sgn i = ([--] r1 : C).
Proof. intros H. unfold sgn. rewrite H. reflexivity. Qed.

Lemma signed_sgn i (v : C) : signed i v = sgn i [*] v.
Proof. unfold signed, sgn. destruct (i mod 2 =? 0); reflexivity. Qed.

Lemma zlen_flip (l : list C) : zlen (alt_flip l) = zlen l.
Proof. unfold alt_flip. apply zlen_tab. apply zlen_nonneg. Qed.

Lemma gz_flip (l : list C) i : gz (alt_flip l) i = sgn i [*] gz l (zlen l - 1 - i).
Proof.
  unfold alt_flip. destruct (Z_lt_ge_dec i 0) as [H|H].
  - rewrite gz_neg, gz_big by lia. ring.
  - destruct (Z_lt_ge_dec i (zlen l)) as [H'|H'].
    + rewrite gz_tab by lia. reflexivity.
    + pose proof (zlen_nonneg l). rewrite gz_big by (rewrite zlen_tab; lia). rewrite gz_neg by lia. ring.
Qed.

(** qmf is the alternating flip. *)
Lemma zlen_negate_odd (l : list C) : zlen (negate_odd l) = zlen l.
Proof.
  remember (length l) as n eqn:E. revert l E. induction n as [n IH] using lt_wf_ind.
  intros [|a [|b t]] E; try reflexivity. cbn [negate_odd]. rewrite !zlen_cons.
  rewrite (IH (length t)); cbn [length] in *; lia.
Qed.
Lemma gz_negate_odd (l : list C) i : gz (negate_odd l) i = sgn i [*] gz l i.
Proof.
  remember (length l) as n eqn:E. revert l i E. induction n as [n IH] using lt_wf_ind.
  intros [|a [|b t]] i E.
  - cbn [negate_odd]. unfold gz. destruct (0 <=? i); [|ring]. destruct (Z.to_nat i); cbn; ring.
  - cbn [negate_odd]. rewrite gz_cons. destruct (Z.eqb_spec i 0) as [->|H].
    + unfold sgn. cbn. ring.
    + unfold gz. destruct (0 <=? i - 1); [|ring]. destruct (Z.to_nat (i - 1)); cbn; ring.
  - cbn [negate_odd]. rewrite !gz_cons. destruct (Z.eqb_spec i 0) as [->|H].
    + unfold sgn. cbn. ring.
    + destruct (Z.eqb_spec (i - 1) 0) as [H1|H1].
      * rewrite sgn_odd by lia. ring.
      * rewrite (IH (length t)) by (cbn [length] in *; lia).
        replace (i - 1 - 1) with (i + - (2)) by lia. rewrite sgn_add. rewrite (sgn_even (-(2))) by lia. ring.
Qed.
Lemma qmf_flip (l : list C) : qmf l = alt_flip l.
Proof.
  unfold qmf. apply list_ext.
  - rewrite zlen_negate_odd, zlen_rev, zlen_flip. reflexivity.
  - intros i Hi. rewrite gz_negate_odd, gz_flip, gz_rev_all. reflexivity.
Qed.

Theorem qmf_twice (l : list C) : qmf (qmf l) = map (fun v => if zlen l mod 2 =? 0 then [--] v else v) l.
Proof.
  rewrite !qmf_flip. apply list_ext.
  - rewrite !zlen_flip, zlen_map. reflexivity.
  - intros i Hi. rewrite !gz_flip, !zlen_flip.
    rewrite gz_map by (destruct (zlen l mod 2 =? 0); [ring|reflexivity]).
    replace (zlen l - 1 - (zlen l - 1 - i)) with i by lia.
    transitivity (sgn (zlen l - 1) [*] gz l i).
    + replace (sgn (zlen l - 1) : C) with (sgn i [*] sgn (zlen l - 1 - i) : C); [ring|].
      rewrite <- sgn_add. f_equal. lia.
    + destruct (Z.eqb_spec (zlen l mod 2) 0).
      * rewrite sgn_odd by lia. ring.
      * rewrite sgn_even by lia. ring.
Qed.

(** * The fill loop *)
Lemma signed_lin (mul : C -> C) i v : (forall c u : C, mul (c [*] u) = c [*] mul u) -> mul (signed i v) = sgn i [*] mul v.
Proof. intros H. rewrite signed_sgn. apply H. Qed.

Lemma fill_spec (t0 tm : list C) n mul F :
  (forall c u : C, mul (c [*] u) = c [*] mul u) -> mul r0 = r0 ->
  2 <= F -> F mod 2 = 0 -> 0 <= n -> n + F <= zlen t0 -> zlen tm = F ->
  fill t0 tm n mul (blank_filters F) =
  Ok (bi_bank (map mul (window t0 n F)) (map mul tm)).
Proof.
  intros Hmul Hmul0 HF HF2 Hn H0 Hm. unfold fill, blank_filters.
  replace ((0 <? F) && negb (F mod 2 =? 0)) with false by lia.
  unfold rec_flen. cbn [rec_lo]. rewrite zlen_repeat, Z2Nat.id by lia.
  set (z := repeat r0 (Z.to_nat F)).
  assert (Hz : zlen z = F) by (unfold z; rewrite zlen_repeat; lia).
  destruct (foldM_tab (fun K (w : wavelet C) =>
     zlen (rec_lo w) = F /\ zlen (dec_lo w) = F /\ zlen (rec_hi w) = F /\ zlen (dec_hi w) = F /\
     forall i, 0 <= i < K -> gz (rec_lo w) i = mul (gz t0 (i + n)) /\ gz (dec_lo w) i = mul (gz tm (F - 1 - i)) /\
        gz (rec_hi w) i = sgn i [*] mul (gz tm (F - 1 - i)) /\ gz (dec_hi w) i = sgn (F - 1 - i) [*] mul (gz t0 (i + n)))
     (fill_step t0 tm n mul) F (fun i => i) (mkWavelet z z z z)) as (w & E & I).
  - lia.
  - cbn. repeat (split; [assumption|]). intros; lia.
  - intros K w HK (L1 & L2 & L3 & L4 & I). unfold fill_step, dec_len. rewrite L2.
    rewrite rd_ok by lia. cbn [bind]. rewrite wr_ok by lia. cbn [bind].
    rewrite rd_ok by lia. cbn [bind]. rewrite !wr_ok by lia. cbn [bind].
    rewrite !(signed_lin mul) by exact Hmul.
    eexists; split; [reflexivity|]. cbn [rec_lo dec_lo rec_hi dec_hi]. rewrite !zlen_upd.
    repeat (split; [assumption|]). intros i Hi. rewrite !gz_upd by lia.
    destruct (Z.eqb_spec i K) as [->|Hne]; [auto|]. apply I. lia.
  - rewrite E. f_equal. destruct w as [dl dh rl rh]. cbn [rec_lo dec_lo rec_hi dec_hi] in I.
    destruct I as (L1 & L2 & L3 & L4 & I). unfold bi_bank.
    assert (Hw : zlen (window t0 n F) = F) by (unfold window; apply zlen_tab; lia).
    f_equal; apply list_ext; rewrite ?zlen_rev, ?zlen_flip, ?zlen_map; try lia; intros i Hi;
      rewrite ?gz_rev_all, ?gz_flip, ?zlen_flip, ?zlen_map, !gz_map by assumption; destruct (I i) as (I1 & I2 & I3 & I4); try lia.
    + rewrite I2, Hm. reflexivity.
    + rewrite Hw. rewrite I4. unfold window. rewrite gz_tab by lia. replace (F - 1 - (F - 1 - i)) with i by lia. rewrite (Z.add_comm n i). reflexivity.
    + rewrite I1. unfold window. rewrite gz_tab by lia. rewrite (Z.add_comm n i). reflexivity.
    + rewrite I3, Hm. reflexivity.
Qed.

Lemma window_all (l : list C) : window l 0 (zlen l) = l.
Proof. unfold window. transitivity (tab (zlen l) (gz l)); [apply tab_ext; reflexivity|apply tab_gz]. Qed.

Lemma swap_loop_spec fuel (l : list C) L : zlen l = L -> L + 2 < Z.of_nat fuel -> swap_loop fuel l L = Ok (rev l).
Proof.
  intros HL Hf. unfold swap_loop. pose proof (zlen_nonneg l).
  set (Inv := fun '(a, i, j) => zlen (a : list C) = L /\ 0 <= i /\ i + j = L - 1 /\ i <= j + 1 + 1 /\
      forall t, 0 <= t < L -> gz a t = if (i <=? t) && (t <=? j) then gz l t else gz l (L - 1 - t)).
  edestruct (while_inv Inv (fun '(_, i, _) => L - i)) with (fuel := fuel) (s := (l, 0, L - 1)) as (s' & E & I & Hc);
    [ | | | | rewrite E ].
  - intros ((a & i) & j) (La & Hi & Hij & Hle & I) Hc. cbv beta iota in Hc. rewrite Z.ltb_lt in Hc.
    rewrite !rd_ok by lia. cbn [bind]. rewrite wr_ok by lia. cbn [bind].
    rewrite wr_ok by (rewrite zlen_upd; lia). cbn [bind]. eexists; split; [reflexivity|].
    split; [|lia]. unfold Inv. rewrite !zlen_upd. repeat (split; [lia|]).
    intros t Ht. rewrite !gz_upd by (rewrite ?zlen_upd; lia).
    pose proof (I t Ht) as It. pose proof (I i ltac:(lia)) as Ii. pose proof (I j ltac:(lia)) as Ij.
    destruct (Z.eqb_spec t j) as [->|Hj].
    + rewrite Ii. replace ((i <=? i) && (i <=? j)) with true by lia.
      replace ((i + 1 <=? j) && (j <=? j - 1)) with false by lia. f_equal. lia.
    + destruct (Z.eqb_spec t i) as [->|Hti].
      * rewrite Ij. replace ((i <=? j) && (j <=? j)) with true by lia.
        replace ((i + 1 <=? i) && (i <=? j - 1)) with false by lia. f_equal. lia.
      * rewrite It. destruct ((i <=? t) && (t <=? j)) eqn:E1; destruct ((i + 1 <=? t) && (t <=? j - 1)) eqn:E2; try reflexivity; lia.
  - unfold Inv. repeat (split; [lia|]). intros t Ht. destruct ((0 <=? t) && (t <=? L - 1)) eqn:E1; [reflexivity|lia].
  - lia.
  - lia.
  - destruct s' as ((a & i) & j). cbn [bind]. f_equal. destruct I as (La & Hi & Hij & Hle & I).
    apply list_ext; [rewrite zlen_rev; lia|]. intros t Ht. rewrite I by lia. rewrite gz_rev by lia. rewrite HL.
    destruct ((i <=? t) && (t <=? j)) eqn:E1; [|reflexivity]. f_equal. lia.
Qed.

Lemma reverse_bior_spec fuel (w : wavelet C) : wf_bank w -> dec_len w + 2 < Z.of_nat fuel ->
  reverse_bior fuel w = Ok (mkWavelet (rev (rec_lo w)) (rev (rec_hi w)) (rev (dec_lo w)) (rev (dec_hi w))).
Proof.
  intros (H1 & H2 & H3 & _) Hf. unfold reverse_bior.
  rewrite !swap_loop_spec by (unfold dec_len in *; lia). reflexivity.
Qed.

(** * Responses *)
Lemma gz_mul_corr_window (a b : list C) (u lo hi : Z) (P : Z -> bool) :
  zlen a = zlen b -> lo <= 0 -> zlen a <= hi ->
  sumZ 0 (zlen a) (fun n => if P n then gz a n [*] gz b (n + u) else r0)
  = sumZ lo hi (fun n => if P n then gz a n [*] gz b (n + u) else r0).
Proof.
  intros Hl H1 H2. apply sumZ_widen; try lia. intros t Ht Hn. destruct (P t); [|reflexivity].
  destruct (Z_lt_ge_dec t 0).
  - rewrite gz_neg by lia. ring.
  - rewrite gz_big by lia. ring.
Qed.

Lemma bi_response (a b : list C) p s :
  zlen b = zlen a -> zlen a mod 2 = 0 -> p = 0 \/ p = 1 ->
  let w := bi_bank a b in let u := zlen a - 1 - s in
  sumZ 0 (zlen a) (fun m => if m mod 2 =? p
      then gz (rec_lo w) m [*] gz (dec_lo w) (s - m) [+] gz (rec_hi w) m [*] gz (dec_hi w) (s - m) else r0)
  = if u mod 2 =? 0 then corr a b u else r0.
Proof.
  intros Hl HF Hp w u. set (F := zlen a) in *. pose proof (zlen_nonneg a) as HF0. fold F in HF0.
  transitivity (sumZ 0 F (fun m => if m mod 2 =? p then gz a m [*] gz b (m + u) else r0)
            [+] sgn u [*] sumZ 0 F (fun m => if m mod 2 =? (1 + u + p) mod 2 then gz a m [*] gz b (m + u) else r0)).
  - rewrite (sumZ_ext _ 0 F _ (fun m => (if m mod 2 =? p then gz a m [*] gz b (m + u) else r0)
       [+] sgn u [*] (if m mod 2 =? p then gz b (F - 1 - m) [*] gz a (F - 1 - m - u) else r0))).
    + rewrite sumZ_add, sumZ_scal. f_equal. f_equal.
      destruct (Z_le_gt_dec F 0) as [H0|H0]; [rewrite !sumZ_empty by lia; reflexivity|].
      rewrite sumZ_rev.
      rewrite (sumZ_ext _ 0 F _ (fun m => if (F - 1 - m) mod 2 =? p then gz b m [*] gz a (m - u) else r0)).
      2:{ intros m Hm. cbv beta. replace (0 + F - 1 - m) with (F - 1 - m) by lia.
          replace (F - 1 - (F - 1 - m)) with m by lia. reflexivity. }
      rewrite (sumZ_shift _ 0 F (- u)).
      rewrite (sumZ_ext _ _ _ _ (fun n => if n mod 2 =? (1 + u + p) mod 2 then gz a n [*] gz b (n + u) else r0)).
      2:{ intros n Hn. cbv beta. replace (n - - u) with (n + u) by lia. replace (n + u - u) with n by lia.
          replace ((F - 1 - (n + u)) mod 2 =? p) with (n mod 2 =? (1 + u + p) mod 2) by lia.
          destruct (n mod 2 =? (1 + u + p) mod 2); ring. }
      set (lo := Z.min 0 (- u)). set (hi := Z.max F (F - u)).
      transitivity (sumZ lo hi (fun n => if n mod 2 =? (1 + u + p) mod 2 then gz a n [*] gz b (n + u) else r0)).
      * apply sumZ_widen; try (unfold lo, hi; lia). intros t Ht Hn. destruct (_ =? _); [|reflexivity].
        assert (t + u < 0 \/ F <= t + u) as [Hb|Hb] by lia.
        -- rewrite (gz_neg b) by lia. ring.
        -- rewrite (gz_big b) by lia. ring.
      * symmetry. apply (gz_mul_corr_window a b u lo hi (fun n => n mod 2 =? (1 + u + p) mod 2)); fold F; unfold lo, hi; lia.
    + intros m Hm. destruct (m mod 2 =? p); [|ring]. unfold w, bi_bank. cbn [rec_lo dec_lo rec_hi dec_hi].
      rewrite !gz_rev_all, !gz_flip, !zlen_flip, Hl. fold F.
      replace (F - 1 - (s - m)) with (m + u) by (unfold u; lia).
      replace (F - 1 - (m + u)) with (F - 1 - m - u) by lia.
      rewrite sgn_add. transitivity (gz a m [*] gz b (m + u) [+] (sgn m [*] sgn m) [*] sgn u [*] (gz b (F - 1 - m) [*] gz a (F - 1 - m - u))); [ring|].
      rewrite sgn_sq. ring.
  - unfold corr. fold F. destruct (Z.eqb_spec (u mod 2) 0) as [Hu|Hu].
    + rewrite sgn_even by auto. transitivity (sumZ 0 F (fun m => if m mod 2 =? p then gz a m [*] gz b (m + u) else r0)
         [+] sumZ 0 F (fun m => if m mod 2 =? (1 + u + p) mod 2 then gz a m [*] gz b (m + u) else r0)); [ring|].
      rewrite <- sumZ_add. apply sumZ_ext. intros m Hm.
      destruct (Z.eqb_spec (m mod 2) p), (Z.eqb_spec (m mod 2) ((1 + u + p) mod 2)); try ring; lia.
    + rewrite sgn_odd by lia.
      rewrite (sumZ_ext _ 0 F (fun m => if m mod 2 =? (1 + u + p) mod 2 then gz a m [*] gz b (m + u) else r0)
          (fun m => if m mod 2 =? p then gz a m [*] gz b (m + u) else r0)); [ring|].
      intros m Hm. replace ((1 + u + p) mod 2) with p by lia. reflexivity.
Qed.

Lemma bi_wf (a b : list C) : zlen b = zlen a -> zlen a mod 2 = 0 -> 2 <= zlen a -> wf_bank (bi_bank a b).
Proof.
  intros Hl HF H2. unfold wf_bank, dec_len, bi_bank. cbn [rec_lo dec_lo rec_hi dec_hi].
  rewrite !zlen_rev, !zlen_flip. lia.
Qed.

(** Biorthogonality to even shifts gives perfect reconstruction. *)
Theorem bi_bank_pr (a b : list C) :
  zlen b = zlen a -> zlen a mod 2 = 0 -> 2 <= zlen a -> even_shift_dual a b -> pr_wavelet (bi_bank a b).
Proof.
  intros Hl HF H2 Hd. destruct (bi_wf a b Hl HF H2) as (W1 & W2 & W3 & W4 & W5).
  unfold pr_wavelet, pr_bank. cbv zeta. unfold dec_len in *. repeat (split; [assumption|]).
  assert (E : zlen (dec_lo (bi_bank a b)) = zlen a) by (unfold bi_bank; cbn [dec_lo]; rewrite zlen_rev; lia).
  intros p s Hp. rewrite E. rewrite (bi_response a b p s Hl HF Hp).
  destruct (Z.eqb_spec ((zlen a - 1 - s) mod 2) 0) as [Hu|Hu].
  - rewrite Hd by auto. destruct (Z.eqb_spec (zlen a - 1 - s) 0), (Z.eqb_spec s (zlen a - 1)); auto; lia.
  - destruct (Z.eqb_spec s (zlen a - 1)); auto; lia.
Qed.

(** What idwt after dwt computes, for any pair of filters. *)
Lemma response_core (a b : list C) (e : Z -> C) (c0 c1 : Z -> C) n d :
  zlen b = zlen a -> zlen a mod 2 = 0 -> 2 <= zlen a -> let F := zlen a in let w := bi_bank a b in
  (forall m, 0 <= m < F -> (n - m) mod 2 = 0 -> c0 ((n - m) / 2) = conv (dec_lo w) e (n - m + d)) ->
  (forall m, 0 <= m < F -> (n - m) mod 2 = 0 -> c1 ((n - m) / 2) = conv (dec_hi w) e (n - m + d)) ->
  up_conv (rec_lo w) c0 n [+] up_conv (rec_hi w) c1 n = even_response a b e (n + d - (F - 1)).
Proof.
  intros Hl HF HF2 F w H0 H1. destruct (bi_wf a b Hl HF HF2) as (W1 & W2 & W3 & W4 & W5).
  assert (E : dec_len w = F) by (unfold w, dec_len, bi_bank; cbn [dec_lo]; rewrite zlen_rev; unfold F; lia).
  fold w in W1, W2, W3. unfold dec_len in *.
  rewrite (up_conv_conv C (rec_lo w) (dec_lo w) e c0 F n d), (up_conv_conv C (rec_hi w) (dec_hi w) e c1 F n d) by (lia || auto).
  rewrite <- sumZ_add.
  transitivity (sumZ 0 (2 * F) (fun s => (if (F - 1 - s) mod 2 =? 0 then corr a b (F - 1 - s) else r0) [*] e (n + d - s))).
  - apply sumZ_ext. intros s Hs. rewrite <- rdistr, <- sumZ_add. f_equal.
    pose proof (bi_response a b (n mod 2) s Hl HF ltac:(lia)) as R. cbv zeta in R. fold F w in R. rewrite <- R.
    apply sumZ_ext. intros m Hm. destruct (m mod 2 =? n mod 2); ring.
  - unfold even_response. fold F.
    (* s = F - 1 - u with u in [-F, F) *)
    rewrite sumZ_rev.
    rewrite (sumZ_shift _ 0 (2 * F) (- F)).
    replace (0 + - F) with (- F) by lia. replace (2 * F + - F) with F by lia.
    rewrite (sumZ_ext _ (- F) F _ (fun u => if u mod 2 =? 0 then corr a b u [*] e (n + d - (F - 1) + u) else r0)).
    + assert (HFe : F = 2 * (F / 2)) by (fold F in HF; lia).
      set (K := F / 2) in *.
      rewrite (sumZ_shift _ (- F) F F). replace (- F + F) with 0 by lia. replace (F + F) with (2 * F) by lia.
      rewrite sumZ_even_odd.
      transitivity (sumZ 0 F (fun k => corr a b (2 * k - F) [*] e (n + d - (F - 1) + (2 * k - F))) [+] r0).
      * f_equal.
        { apply sumZ_ext. intros k Hk. replace ((2 * k - F) mod 2 =? 0) with true by lia. reflexivity. }
        apply sumZ_zero. intros k Hk. replace ((2 * k + 1 - F) mod 2 =? 0) with false by lia. reflexivity.
      * transitivity (sumZ 0 F (fun k => corr a b (2 * k - F) [*] e (n + d - (F - 1) + (2 * k - F)))); [ring|].
        rewrite (sumZ_shift _ 0 F (- K)). replace (0 + - K) with (- K) by lia. replace (F + - K) with K by lia.
        apply sumZ_ext. intros k Hk. replace (2 * (k - - K) - F) with (2 * k) by lia. reflexivity.
      * lia.
    + intros u Hu. replace (F - 1 - (0 + 2 * F - 1 - (u - - F))) with u by lia.
      replace (n + d - (0 + 2 * F - 1 - (u - - F))) with (n + d - (F - 1) + u) by lia.
      destruct (u mod 2 =? 0); ring.
Qed.

Theorem analysis_synthesis_response (a b : list C) m (x : list C) :
  zlen b = zlen a -> zlen a mod 2 = 0 -> 2 <= zlen a -> min_len m <= zlen x ->
  let w := bi_bank a b in
  vadd (synthesis m (rec_lo w) (analysis m (dec_lo w) x)) (synthesis m (rec_hi w) (analysis m (dec_hi w) x))
  = tab (zlen x + zlen x mod 2) (even_response a b (ext m x)).
Proof.
  intros Hl HF2 HF Hx w. destruct (bi_wf a b Hl HF2 HF) as (W1 & W2 & W3 & _ & _).
  assert (E : zlen (dec_lo w) = zlen a) by (unfold w, bi_bank; cbn [dec_lo]; rewrite zlen_rev; lia).
  fold w in W1, W2, W3. unfold dec_len in *. rewrite E in W1, W2, W3.
  pose proof (fun e c0 c1 n d => response_core a b e c0 c1 n d Hl HF2 HF) as RC. cbv zeta in RC. fold w in RC.
  set (F := zlen a) in *. set (N := zlen x) in *.
  assert (HN : 1 <= N) by (destruct m; cbn in Hx; lia).
  set (h0 := dec_lo w) in *. set (h1 := dec_hi w) in *. set (g0 := rec_lo w) in *. set (g1 := rec_hi w) in *.
  assert (Hl0 : zlen (analysis m h0 x) = coeff_len m N F) by (rewrite zlen_analysis by (fold N; lia); rewrite E; reflexivity).
  assert (Hl1 : zlen (analysis m h1 x) = coeff_len m N F) by (rewrite zlen_analysis by (fold N; lia); rewrite W1; reflexivity).
  pose proof (rec_coeff_len m N F HN HF HF2) as Hr.
  assert (Hd : m = PERIODIZATION \/ m <> PERIODIZATION) by (destruct m; auto; right; discriminate).
  destruct Hd as [->|Hm].
  - cbn [synthesis]. cbn [rec_len] in Hr. rewrite Hl0, Hl1, Hr.
    rewrite vadd_tab. apply tab_ext. intros n Hn. rewrite W2, W3.
    rewrite (RC (ext PERIODIZATION x)
       (fun k => gz (analysis PERIODIZATION h0 x) (k mod coeff_len PERIODIZATION N F))
       (fun k => gz (analysis PERIODIZATION h1 x) (k mod coeff_len PERIODIZATION N F)) (n + F / 2 - 1) (F / 2)).
    + f_equal. lia.
    + intros t Ht Hp. rewrite <- Hl0. rewrite gz_analysis_per by auto. f_equal. rewrite E. lia.
    + intros t Ht Hp. rewrite <- Hl1. rewrite gz_analysis_per by auto. f_equal. rewrite W1. lia.
  - assert (Hsy : forall g c : list C, synthesis m g c = synthesis ZEROPAD g c) by (intros; destruct m; reflexivity || congruence).
    rewrite !Hsy. cbn [synthesis].
    assert (Hr' : 2 * coeff_len m N F - F + 2 = N + N mod 2) by (rewrite <- Hr; destruct m; reflexivity || congruence).
    assert (Hc : coeff_len m N F = (N + F - 1) / 2) by (destruct m; reflexivity || congruence).
    assert (Hfp : first_pos m F = 1) by (destruct m; reflexivity || congruence).
    rewrite Hl0, Hl1, W2, W3, Hr'. rewrite vadd_tab. apply tab_ext. intros n Hn.
    rewrite (RC (ext m x) (gz (analysis m h0 x)) (gz (analysis m h1 x)) (n + F - 2) 1).
    + f_equal. lia.
    + intros t Ht Hp. unfold analysis. rewrite E. fold N. rewrite Hc, Hfp. rewrite gz_tab by lia. f_equal. lia.
    + intros t Ht Hp. unfold analysis. rewrite W1. fold N. rewrite Hc, Hfp. rewrite gz_tab by lia. f_equal. lia.
Qed.

Theorem idwt_dwt_response fuel (a b x : list C) m :
  zlen b = zlen a -> zlen a mod 2 = 0 -> 2 <= zlen a -> min_len m <= zlen x -> resources fuel (zlen x) (zlen a) ->
  let w := bi_bank a b in
  exists cA cD, dwt fuel x w m = Ok (cA, cD) /\
    idwt fuel (Some cA) (Some cD) w m = Ok (tab (zlen x + zlen x mod 2) (even_response a b (ext m x))).
Proof.
  intros Hl HF2 HF Hx Hr w. pose proof (bi_wf a b Hl HF2 HF) as Hw. pose proof Hw as (H1 & H2 & H3 & H4 & H5).
  fold w in Hw, H1, H2, H3, H4, H5.
  assert (E : dec_len w = zlen a) by (unfold w, dec_len, bi_bank; cbn [dec_lo]; rewrite zlen_rev; lia).
  assert (HN : 1 <= zlen x) by (destruct m; cbn in Hx; lia).
  rewrite <- E in Hr.
  eexists _, _. split; [apply dwt_single_spec; auto|].
  cbn [idwt].
  assert (Hl0 : zlen (analysis m (dec_lo w) x) = coeff_len m (zlen x) (dec_len w))
    by (apply zlen_analysis; unfold dec_len in *; lia).
  assert (Hl1 : zlen (analysis m (dec_hi w) x) = coeff_len m (zlen x) (dec_len w))
    by (rewrite zlen_analysis by lia; rewrite H1; reflexivity).
  pose proof (coeff_len_bounds m (zlen x) (dec_len w) HN H5).
  rewrite idwt_single_spec; auto; try lia.
  - f_equal. apply analysis_synthesis_response; auto.
  - rewrite Hl0, rec_coeff_len by auto. lia.
  - rewrite Hl0. unfold resources in *. lia.
Qed.

End F.
