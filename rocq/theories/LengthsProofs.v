(** Maximum levels. *)
From Verif Require Import Base BaseLemmas CConv Lengths Dwt.

(** dwt_max_level is the largest L with (F-1)*2^L <= N. *)
Lemma dwt_max_level_largest N F : 2 <= F -> F - 1 <= N ->
  0 <= dwt_max_level_c N F /\
  forall L, 0 <= L -> ((F - 1) * 2 ^ L <= N <-> L <= dwt_max_level_c N F).
Proof.
  intros HF HN. unfold dwt_max_level_c, size_log2.
  replace ((F <=? 1) || (N <? F - 1)) with false by lia.
  assert (Hq : 1 <= N / (F - 1)) by (apply Z.div_le_lower_bound; lia).
  split; [apply Z.log2_nonneg|]. intros L HL. split; intros H.
  - apply Z.log2_le_pow2; [lia|]. apply Z.div_le_lower_bound; lia.
  - apply Z.log2_le_pow2 in H; [|lia].
    assert ((F - 1) * (N / (F - 1)) <= N) by (apply Z.mul_div_le; lia). nia.
Qed.

Lemma dwt_max_level_zero N F : F < 2 \/ N < F - 1 -> dwt_max_level_c N F = 0.
Proof. intros H. unfold dwt_max_level_c. replace ((F <=? 1) || (N <? F - 1)) with true by lia. reflexivity. Qed.

Lemma dwt_max_level_nonneg N F : 0 <= dwt_max_level_c N F.
Proof. unfold dwt_max_level_c, size_log2. destruct (_ || _); [lia|apply Z.log2_nonneg]. Qed.

Lemma dwt_max_level_mono N N' F F' : 2 <= F' <= F -> N <= N' ->
  dwt_max_level_c N F <= dwt_max_level_c N' F'.
Proof.
  intros HF HN. destruct (Z.le_gt_cases (F - 1) N).
  - destruct (dwt_max_level_largest N F) as [H0 H1]; try lia.
    destruct (dwt_max_level_largest N' F') as [H0' H1']; try lia.
    apply H1'; auto. assert ((F - 1) * 2 ^ dwt_max_level_c N F <= N) by (apply H1; lia).
    assert (0 <= 2 ^ dwt_max_level_c N F) by (apply Z.pow_nonneg; lia). nia.
  - rewrite dwt_max_level_zero by lia. apply dwt_max_level_nonneg.
Qed.

(** swt_max_level is the exponent of the highest power of two dividing N. *)
Lemma swt_max_level_spec N : 1 <= N ->
  exists j, swt_max_level_c N = Ok j /\ 0 <= j /\ (2 ^ j | N) /\ ~ (2 ^ (j + 1) | N).
Proof.
  intros HN. unfold swt_max_level_c.
  destruct (while_inv (fun '(n, j) => 1 <= n /\ 0 <= j /\ N = n * 2 ^ j)
    (fun '(n, j) => Z.log2 n) (fun '(n, j) => (0 <? n) && (n mod 2 =? 0))
    (fun '(n, j) => Ok (n / 2, j + 1))) with (fuel := Z.to_nat (Z.log2 N + 3)) (s := (N, 0))
    as ([n j] & Hw & (Hn & Hj & E) & Hc).
  - intros [n j] (Hn & Hj & E) Hc. eexists; split; [reflexivity|].
    assert (Hn2 : n = 2 * (n / 2)) by lia. split; [|].
    + split; [lia|]. split; [lia|]. rewrite E, Hn2 at 1. rewrite Z.pow_add_r by lia. ring.
    + rewrite Hn2 at 2 3. rewrite Z.log2_double by lia. pose proof (Z.log2_nonneg (n / 2)). lia.
  - rewrite Z.pow_0_r. lia.
  - pose proof (Z.log2_nonneg N). lia.
  - pose proof (Z.log2_nonneg N). lia.
  - rewrite Hw. exists j. split; [reflexivity|]. split; [auto|]. split; [exists n; auto|].
    intros [q Hq]. rewrite Z.pow_add_r in Hq by lia.
    assert (0 < 2 ^ j) by (apply Z.pow_pos_nonneg; lia). assert (n = 2 * q) by nia. lia.
Qed.

Lemma swt_max_level_0 : swt_max_level_c 0 = Ok 0.
Proof. reflexivity. Qed.

(** Characterisation used by the swt guards: level L is possible iff 2^L divides N. *)
Lemma swt_max_level_iff N j L : 1 <= N -> swt_max_level_c N = Ok j -> 0 <= L ->
  (L <= j <-> (2 ^ L | N)).
Proof.
  intros HN Hj HL. destruct (swt_max_level_spec N HN) as (j' & Hj' & H0 & Hd & Hnd).
  rewrite Hj in Hj'. injection Hj' as <-. split; intros H.
  - apply Z.divide_trans with (2 ^ j); auto. exists (2 ^ (j - L)). rewrite <- Z.pow_add_r by lia. f_equal. lia.
  - destruct (Z.le_gt_cases L j); auto. exfalso. apply Hnd. apply Z.divide_trans with (2 ^ L); auto.
    exists (2 ^ (L - (j + 1))). rewrite <- Z.pow_add_r by lia. f_equal. lia.
Qed.
