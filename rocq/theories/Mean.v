(** Sums of coefficients: periodization mode and the stationary transform. *)
From Verif Require Import Base BaseLemmas CConv Spec ExtLemmas Lengths Dwt DwtProofs PR LengthsProofs Linear Multilevel MultilevelProofs Facts1 CyclicMain CyclicNd Swt SwtSpec SwtProofs FactsSwt Denoise MeanSpec.
Open Scope list_scope. Open Scope Z_scope.

Section M.
Variable C : CRing.
Add Ring Cring_ring_mean : (rth C).

(** Sum over one period. *)
Lemma period_shift p (f : Z -> C) : 0 <= p -> f p = f 0 -> sumZ 0 p (fun k => f (k + 1)) = sumZ 0 p f.
Proof.
  intros Hp E. destruct (Z.eq_dec p 0) as [->|Hn]; [reflexivity|].
  assert (H : sumZ 0 (p + 1) f = f 0 [+] sumZ 0 p (fun k => f (k + 1))).
  { rewrite (sumZ_first C 0 (p + 1)) by lia. f_equal. rewrite (sumZ_shift C 0 p 1). apply sumZ_ext. intros i Hi. f_equal. lia. }
  rewrite (sumZ_last C 0 p f) in H by lia. rewrite E in H.
  assert (G : forall a b c : C, a [+] c = c [+] b -> a = b) by (intros a b c Hc; assert (a = (a [+] c) [-] c) as -> by ring; rewrite Hc; ring).
  symmetry. apply (G _ _ (f 0)). exact H.
Qed.
Lemma period_any (u : Z -> C) q t : 0 < q -> (forall t, u (t + q) = u t) -> u t = u (t mod q).
Proof.
  intros Hq H. assert (G : forall k t, 0 <= k -> u (t + q * k) = u t).
  { intros k s Hk. revert k Hk s. apply (natlike_ind (fun k => forall s, u (s + q * k) = u s)); [intros s; f_equal; lia|]. intros k Hk IH s. replace (s + q * Z.succ k) with ((s + q * k) + q) by lia. rewrite H. apply IH. }
  pose proof (Z_div_mod_eq_full t q). destruct (Z_le_gt_dec 0 (t / q)) as [Hk|Hk].
  - rewrite <- (G (t / q) (t mod q) Hk). f_equal. lia.
  - rewrite <- (G (- (t / q)) t ltac:(lia)). f_equal. nia.
Qed.
Lemma period_sum p (f : Z -> C) t : 0 < p -> (forall t, f (t + p) = f t) -> sumZ 0 p (fun k => f (k + t)) = sumZ 0 p f.
Proof.
  intros Hp H. rewrite (period_any (fun t => sumZ 0 p (fun k => f (k + t))) 1 t); [|lia|].
  - rewrite Z.mod_1_r. apply sumZ_ext. intros. f_equal. lia.
  - intros s. cbv beta. etransitivity; [|apply (period_shift p (fun k => f (k + s))); [lia|rewrite <- (H (0 + s)); f_equal; lia]]. apply sumZ_ext. intros. f_equal. lia.
Qed.

(** * Periodization *)
Lemma half_sum p (e : Z -> C) t : 0 < p -> (forall n, e (n + 2 * p) = e n) ->
  sumZ 0 p (fun k => e (2 * k + t)) = if t mod 2 =? 0 then sumZ 0 p (fun k => e (2 * k)) else sumZ 0 p (fun k => e (2 * k + 1)).
Proof.
  intros Hp He. rewrite (period_any (fun t => sumZ 0 p (fun k => e (2 * k + t))) 2 t); [|lia|].
  - destruct (Z.eqb_spec (t mod 2) 0) as [->|Hn]; [apply sumZ_ext; intros; f_equal; lia|]. replace (t mod 2) with 1 by lia. reflexivity.
  - intros s. cbv beta. etransitivity; [|apply (period_shift p (fun k => e (2 * k + s))); [lia|rewrite <- (He (2 * 0 + s)); f_equal; lia]]. apply sumZ_ext. intros. f_equal. lia.
Qed.
Lemma ext_sum (x : list C) : zlen x mod 2 = 0 -> sumZ 0 (zlen x / 2) (fun k => ext PERIODIZATION x (2 * k)) [+] sumZ 0 (zlen x / 2) (fun k => ext PERIODIZATION x (2 * k + 1)) = total x.
Proof.
  intros H. pose proof (zlen_nonneg x). rewrite <- (sumZ_even_odd C (zlen x / 2) (ext PERIODIZATION x)) by lia. unfold total. replace (2 * (zlen x / 2)) with (zlen x) by lia.
  apply sumZ_ext. intros i Hi. cbn [ext]. unfold pext. rewrite H, Z.add_0_r, Z.mod_small by lia. f_equal. lia.
Qed.
(** The two sums of every second tap, the two sums of every second sample. *)
Lemma analysis_total (h x : list C) : 2 <= zlen x -> zlen x mod 2 = 0 ->
  let c := zlen h / 2 in
  total (analysis PERIODIZATION h x) = taps_sum (c mod 2) h [*] sumZ 0 (zlen x / 2) (fun k => ext PERIODIZATION x (2 * k)) [+]
    taps_sum (1 - c mod 2) h [*] sumZ 0 (zlen x / 2) (fun k => ext PERIODIZATION x (2 * k + 1)).
Proof.
  intros Hx H2 c. set (p := zlen x / 2). set (e := ext PERIODIZATION x). set (E := sumZ 0 p (fun k => e (2 * k))). set (O := sumZ 0 p (fun k => e (2 * k + 1))).
  assert (He : forall n, e (n + 2 * p) = e n).
  { intros n. unfold e. rewrite <- (ext_per_periodic C x n 1) by lia. f_equal. unfold p. lia. }
  unfold total, analysis. cbn [coeff_len first_pos]. replace ((zlen x + 1) / 2) with p by (unfold p; lia). rewrite zlen_tab by (unfold p; lia).
  transitivity (sumZ 0 p (fun k => sumZ 0 (zlen h) (fun j => gz h j [*] e (2 * k + c - j)))).
  { apply sumZ_ext. intros k Hk. rewrite gz_tab by lia. reflexivity. }
  rewrite sumZ_swap. unfold taps_sum. rewrite <- !sumZ_scal_r, <- sumZ_add. apply sumZ_ext. intros j _. rewrite sumZ_scal.
  replace (sumZ 0 p (fun k => e (2 * k + c - j))) with (sumZ 0 p (fun k => e (2 * k + (c - j)))) by (apply sumZ_ext; intros; f_equal; lia).
  rewrite (half_sum p e (c - j)) by (auto; unfold p; lia). fold E O.
  destruct (Z.eqb_spec ((c - j) mod 2) 0); destruct (Z.eqb_spec (j mod 2) (c mod 2)); destruct (Z.eqb_spec (j mod 2) (1 - c mod 2)); try lia; ring.
Qed.
Lemma analysis_mean (h x : list C) s : 2 <= zlen x -> zlen x mod 2 = 0 -> taps_sum 0 h = s -> taps_sum 1 h = s -> total (analysis PERIODIZATION h x) = s [*] total x.
Proof.
  intros Hx H2 H0 H1. rewrite analysis_total by auto. rewrite <- (ext_sum x H2).
  assert (E : taps_sum (zlen h / 2 mod 2) h = s /\ taps_sum (1 - zlen h / 2 mod 2) h = s).
  { assert (zlen h / 2 mod 2 = 0 \/ zlen h / 2 mod 2 = 1) as [->| ->] by lia; auto. }
  destruct E as (-> & ->). ring.
Qed.

Theorem wavedec_mean fuel (x : list C) w N s : pr_wavelet w -> 1 <= zlen x -> (2 ^ Z.of_nat N | zlen x) -> resources fuel (zlen x) (dec_len w) ->
  taps_sum 0 (dec_lo w) = s -> taps_sum 1 (dec_lo w) = s ->
  exists a ds, wavedec fuel x w PERIODIZATION (Some (Z.of_nat N)) = Ok (a :: ds) /\ total a = power s N [*] total x.
Proof.
  intros Hpr Hx Hdiv Hr H0 H1. pose proof (pr_wf w Hpr) as Hw. pose proof Hw as (W1 & W2 & W3 & W4 & W5).
  assert (Hlev : levels_ok PERIODIZATION (dec_len w) N (zlen x)) by (apply levels_ok_intro; auto).
  eexists _, _. split; [apply wavedec_spec; auto; rewrite ?Nat2Z.id; auto; lia|]. rewrite Nat2Z.id.
  clear Hlev Hr. revert Hdiv. induction N as [|n IH]; intros Hdiv; [cbn [approx power]; ring|].
  assert (Hd' : (2 ^ Z.of_nat n | zlen x)).
  { apply Z.divide_trans with (2 ^ Z.of_nat (S n)); auto. exists 2. rewrite Nat2Z.inj_succ, Z.pow_succ_r by lia. lia. }
  pose proof (half_len (dec_len w) (zlen x) n Hd') as E0. pose proof (half_len (dec_len w) (zlen x) (S n) Hdiv) as E1.
  rewrite Nat2Z.inj_succ, Z.pow_succ_r in E1 by lia. assert (0 < 2 ^ Z.of_nat n) by (apply Z.pow_pos_nonneg; lia).
  pose proof (approx_len_pos PERIODIZATION (dec_len w) (S n) (zlen x) Hx ltac:(unfold dec_len in *; lia)) as Hq.
  set (q := approx_len PERIODIZATION (dec_len w) (S n) (zlen x)) in *. assert (K : approx_len PERIODIZATION (dec_len w) n (zlen x) = 2 * q) by nia.
  cbn [approx power]. rewrite (analysis_mean _ _ s); auto.
  - rewrite IH by auto. ring.
  - rewrite zlen_approx by (unfold dec_len in *; lia). change (zlen (dec_lo w)) with (dec_len w). rewrite K. lia.
  - rewrite zlen_approx by (unfold dec_len in *; lia). change (zlen (dec_lo w)) with (dec_len w). rewrite K. replace (2 * q) with (q * 2) by lia. apply Z_mod_mult.
Qed.

(** * Stationary transform *)
Lemma circular_total (g x y : list C) st c : 1 <= zlen x -> zlen y = zlen x ->
  (forall n, 0 <= n < zlen x -> gz y n = sumZ 0 (zlen g) (fun m => gz g m [*] gz x ((n + st * (c - m)) mod zlen x))) -> total y = total g [*] total x.
Proof.
  intros Hx Hy H. unfold total at 1. rewrite Hy.
  transitivity (sumZ 0 (zlen x) (fun n => sumZ 0 (zlen g) (fun m => gz g m [*] gz x ((n + st * (c - m)) mod zlen x)))); [apply sumZ_ext; auto|].
  rewrite sumZ_swap. unfold total at 1. rewrite <- sumZ_scal_r. apply sumZ_ext. intros m _. rewrite sumZ_scal. f_equal.
  rewrite (period_sum (zlen x) (fun n => gz x (n mod zlen x)) (st * (c - m))); [|lia|intros t; f_equal; rewrite <- (Z_mod_plus_full t 1); f_equal; lia].
  unfold total. apply sumZ_ext. intros i Hi. rewrite Z.mod_small by lia. reflexivity.
Qed.
Lemma total_scale c (g : list C) : total (map (fun v => v [*] c) g) = c [*] total g.
Proof. unfold total. rewrite zlen_map, <- sumZ_scal. apply sumZ_ext. intros. rewrite gz_scale. ring. Qed.

Theorem swt_mean fuel w (x : list C) level s norm : wf_bank w -> 1 <= zlen x -> 0 <= s -> 1 <= level ->
  (2 ^ (s + level) | zlen x) -> swt_resources fuel (zlen x) (dec_len w) (s + level) ->
  exists a d : nat -> list C,
    swt fuel x w (Some level) s false norm = Ok (map (fun j => SPair (a j) (d j)) (rev (seq 1 (Z.to_nat level)))) /\
    swt fuel x w (Some level) s true norm = Ok (SArr (a (Z.to_nat level)) :: map (fun j => SArr (d j)) (rev (seq 1 (Z.to_nat level)))) /\
    forall j, let g := norm_factor norm [*] total (dec_lo w) in
    total (a j) = power g j [*] total x /\ total (d (S j)) = norm_factor norm [*] total (dec_hi w) [*] power g j [*] total x.
Proof.
  intros Hw Hx Hs Hl Hd Hr. destruct (swt_values C fuel w x level s norm Hw Hx Hs Hl Hd Hr) as (a & d & E1 & E2 & A0 & V). exists a, d. split; auto. split; auto.
  intros j g. assert (S1 : forall i, total (a (S i)) = g [*] total (a i) /\ total (d (S i)) = norm_factor norm [*] total (dec_hi w) [*] total (a i)).
  { intros i. destruct (V i) as (L1 & _ & V1). destruct (V (S i)) as (L2 & L3 & _). destruct Hw as (W1 & W2 & _). cbn zeta in V1. split.
    - unfold g. rewrite <- (total_scale (norm_factor norm) (dec_lo w)). apply (circular_total _ _ _ (2 ^ (s + Z.of_nat i)) (dec_len w / 2)); try congruence; try lia.
      intros n Hn. rewrite (proj1 (V1 n ltac:(lia))), zlen_map, L1. apply sumZ_ext. intros m _. rewrite gz_scale. ring.
    - rewrite <- (total_scale (norm_factor norm) (dec_hi w)). apply (circular_total _ _ _ (2 ^ (s + Z.of_nat i)) (dec_len w / 2)); try congruence; try lia.
      intros n Hn. rewrite (proj2 (V1 n ltac:(lia))), zlen_map, L1. unfold dec_len in *. replace (zlen (dec_hi w)) with (zlen (dec_lo w)) by lia. apply sumZ_ext. intros m _. rewrite gz_scale. ring. }
  assert (S2 : total (a j) = power g j [*] total x).
  { induction j as [|j IH]; [rewrite A0; cbn [power]; ring|]. rewrite (proj1 (S1 j)), IH. cbn [power]. ring. }
  split; auto. rewrite (proj2 (S1 j)), S2. ring.
Qed.
End M.
