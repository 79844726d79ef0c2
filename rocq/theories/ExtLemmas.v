(** Facts about the signal extensions of [Spec]. *)
From Verif Require Import Base BaseLemmas Spec.

Lemma mod_div_add M p r : 0 <= r < M -> (M | p) -> (p + r) mod M = r.
Proof.
  intros Hr [q ->]. rewrite Z.add_comm, Z_mod_plus_full. apply Z.mod_small; lia.
Qed.
Lemma div_div_add M p r : 0 <= r < M -> (M | p) -> (p + r) / M = p / M.
Proof.
  intros Hr [q ->]. rewrite Z.div_mul by lia.
  rewrite Z.add_comm, Z_div_plus_full by lia. rewrite Z.div_small by lia. lia.
Qed.

Section ExtLemmas.
Variable C : CRing.
Add Ring Cring_ring_e : (rth C).
Variable x : list C.
Let N := zlen x.

(** Inside the data every extension is the data. *)
Lemma ext_in m n : 0 <= n < N -> ext m x n = gz x n.
Proof.
  intros H. destruct m; unfold ext; fold N.
  - replace _ with true by lia. reflexivity.
  - rewrite Z.mod_small by lia. replace (n <? N) with true by lia. reflexivity.
  - f_equal. lia.
  - destruct (Z.ltb_spec N 2).
    + f_equal. lia.
    + replace (n <? 0) with false by lia. replace (n <? N) with true by lia. reflexivity.
  - rewrite Z.mod_small by lia. reflexivity.
  - unfold pext. fold N. rewrite Z.mod_small by lia. f_equal. lia.
  - destruct (Z.eq_dec N 1).
    + replace (2 * (N - 1)) with 0 by lia. rewrite Zmod_0_r. replace n with 0 by lia.
      replace (0 <=? N - 1) with true by lia. reflexivity.
    + rewrite Z.mod_small by lia. replace (n <=? N - 1) with true by lia. reflexivity.
  - rewrite Z.mod_small by lia. replace (n <? N) with true by lia. reflexivity.
  - destruct (Z.eq_dec N 1).
    + replace (2 * (N - 1)) with 0 by lia. rewrite Zmod_0_r, Zdiv_0_r. replace n with 0 by lia.
      replace (0 <=? N - 1) with true by lia. cbn [Z.mul rz]. ring.
    + rewrite Z.mod_small by lia. replace (n <=? N - 1) with true by lia.
      rewrite Z.div_small by lia. cbn [Z.mul rz]. ring.
Qed.

Lemma ext_zero n : n < 0 \/ N <= n -> ext ZEROPAD x n = r0.
Proof. intros H. unfold ext; fold N. replace _ with false by lia. reflexivity. Qed.

Lemma ext_const_l n : 0 < N -> n <= 0 -> ext CONSTANT_EDGE x n = gz x 0.
Proof. intros. unfold ext; fold N. f_equal. lia. Qed.
Lemma ext_const_r n : 0 < N -> N - 1 <= n -> ext CONSTANT_EDGE x n = gz x (N - 1).
Proof. intros. unfold ext; fold N. f_equal. lia. Qed.

Lemma ext_sym p k : (2 * N | p) -> 0 <= k < N ->
  ext SYMMETRIC x (p + k) = gz x k /\ ext SYMMETRIC x (p - 1 - k) = gz x k.
Proof.
  intros Hp Hk. unfold ext; fold N. split.
  - rewrite mod_div_add by (auto; lia). replace (k <? N) with true by lia. reflexivity.
  - replace (p - 1 - k) with ((p - 2 * N) + (2 * N - 1 - k)) by lia.
    rewrite mod_div_add; [|lia|apply Z.divide_sub_r; [auto|apply Z.divide_refl]].
    replace (2 * N - 1 - k <? N) with false by lia. f_equal. lia.
Qed.

Lemma ext_asym p k : (2 * N | p) -> 0 <= k < N ->
  ext ANTISYMMETRIC x (p + k) = gz x k /\ ext ANTISYMMETRIC x (p - 1 - k) = [--] gz x k.
Proof.
  intros Hp Hk. unfold ext; fold N. split.
  - rewrite mod_div_add by (auto; lia). replace (k <? N) with true by lia. reflexivity.
  - replace (p - 1 - k) with ((p - 2 * N) + (2 * N - 1 - k)) by lia.
    rewrite mod_div_add; [|lia|apply Z.divide_sub_r; [auto|apply Z.divide_refl]].
    replace (2 * N - 1 - k <? N) with false by lia. f_equal. f_equal. lia.
Qed.

Lemma ext_per p k : (N | p) -> 0 <= k < N -> ext PERIODIC x (p + k) = gz x k.
Proof. intros Hp Hk. unfold ext; fold N. rewrite mod_div_add by (auto; lia). reflexivity. Qed.

Lemma ext_refl p k : 2 <= N -> (2 * (N - 1) | p) -> 0 <= k < N ->
  ext REFLECT x (p + k) = gz x k /\ ext REFLECT x (p - k) = gz x k.
Proof.
  intros HN Hp Hk. unfold ext; fold N.
  assert (H1 : forall p' , (2 * (N - 1) | p') -> 
     (let r := (p' + k) mod (2 * (N - 1)) in if r <=? N - 1 then gz x r else gz x (2 * (N - 1) - r)) = gz x k).
  { intros p' Hp'. rewrite mod_div_add by (auto; lia). cbv zeta.
    replace (k <=? N - 1) with true by lia. reflexivity. }
  split; [apply H1; auto|].
  destruct (Z.eq_dec k 0) as [->|Hk0].
  { replace (p - 0) with (p + 0) by lia. apply H1; auto. }
  destruct (Z.eq_dec k (N - 1)) as [->|Hk1].
  { replace (p - (N - 1)) with ((p - 2 * (N - 1)) + (N - 1)) by lia. apply H1.
    apply Z.divide_sub_r; [auto|apply Z.divide_refl]. }
  replace (p - k) with ((p - 2 * (N - 1)) + (2 * (N - 1) - k)) by lia.
  rewrite mod_div_add; [|lia|apply Z.divide_sub_r; [auto|apply Z.divide_refl]].
  replace (2 * (N - 1) - k <=? N - 1) with false by lia. f_equal. lia.
Qed.

(** The running-edge identities used by the antireflect loops. *)
Let L := N - 1.
Lemma ext_arefl_base p k : 2 <= N -> (2 * L | p) -> 0 <= k <= L ->
  ext ANTIREFLECT x (p + k) = gz x k [+] rz (2 * (p / (2 * L))) [*] (gz x L [-] gz x 0).
Proof.
  intros HN Hp Hk. unfold ext; fold N; fold L.
  rewrite mod_div_add, div_div_add by (auto; lia). replace (k <=? L) with true by lia. reflexivity.
Qed.

Lemma ext_arefl_base_neg p k : 2 <= N -> (2 * L | p) -> 0 <= k <= L ->
  ext ANTIREFLECT x (p - k) = gz x 0 [+] gz x 0 [-] gz x k
     [+] rz (2 * (p / (2 * L))) [*] (gz x L [-] gz x 0).
Proof.
  intros HN Hp Hk.
  destruct (Z.eq_dec k 0) as [->|Hk0].
  { replace (p - 0) with (p + 0) by lia. rewrite ext_arefl_base by (auto; lia). ring. }
  assert (Hp' : (2 * L | p - 2 * L)) by (apply Z.divide_sub_r; [auto|apply Z.divide_refl]).
  assert (Hq : p / (2 * L) = (p - 2 * L) / (2 * L) + 1).
  { destruct Hp as [q ->]. replace (q * (2 * L) - 2 * L) with ((q - 1) * (2 * L)) by lia.
    rewrite !Z.div_mul by lia. lia. }
  rewrite Hq. set (q := (p - 2 * L) / (2 * L)) in *.
  replace (2 * (q + 1)) with (2 * q + 1 + 1) by lia. rewrite !rz_succ.
  destruct (Z.eq_dec k L) as [->|Hk1].
  - replace (p - L) with ((p - 2 * L) + L) by lia. rewrite ext_arefl_base by (auto; lia).
    fold q. ring.
  - replace (p - k) with ((p - 2 * L) + (2 * L - k)) by lia.
    unfold ext; fold N; fold L. rewrite mod_div_add, div_div_add by (auto; lia).
    replace (2 * L - k <=? L) with false by lia. replace (2 * L - (2 * L - k)) with k by lia.
    fold q. ring.
Qed.

Lemma ext_arefl_left1 p k : 2 <= N -> (2 * L | p) -> 0 <= k <= L ->
  ext ANTIREFLECT x (p - k) = ext ANTIREFLECT x p [-] (gz x k [-] gz x 0).
Proof.
  intros HN Hp Hk. rewrite ext_arefl_base_neg by (auto; lia).
  replace p with (p + 0) at 2 by lia. rewrite ext_arefl_base by (auto; lia). ring.
Qed.
Lemma ext_arefl_left2 p k : 2 <= N -> (2 * L | p) -> 0 <= k <= L ->
  ext ANTIREFLECT x (p + L - k) = ext ANTIREFLECT x (p + L) [+] (gz x (L - k) [-] gz x L).
Proof.
  intros HN Hp Hk. replace (p + L - k) with (p + (L - k)) by lia.
  rewrite !ext_arefl_base by (auto; lia). ring.
Qed.
Lemma ext_arefl_right1 p k : 2 <= N -> (2 * L | p) -> 0 <= k <= L ->
  ext ANTIREFLECT x (p + L + k) = ext ANTIREFLECT x (p + L) [-] (gz x (L - k) [-] gz x L).
Proof.
  intros HN Hp Hk.
  assert (Hp' : (2 * L | p + 2 * L)) by (apply Z.divide_add_r; [auto|apply Z.divide_refl]).
  replace (p + L + k) with ((p + 2 * L) - (L - k)) by lia.
  rewrite ext_arefl_base_neg, ext_arefl_base by (auto; lia).
  assert (Hq : (p + 2 * L) / (2 * L) = p / (2 * L) + 1).
  { destruct Hp as [q ->]. replace (q * (2 * L) + 2 * L) with ((q + 1) * (2 * L)) by lia.
    rewrite !Z.div_mul by lia. lia. }
  rewrite Hq. set (q := p / (2 * L)). replace (2 * (q + 1)) with (2 * q + 1 + 1) by lia.
  rewrite !rz_succ. ring.
Qed.
Lemma ext_arefl_right2 p k : 2 <= N -> (2 * L | p) -> 0 <= k <= L ->
  ext ANTIREFLECT x (p + k) = ext ANTIREFLECT x p [+] (gz x k [-] gz x 0).
Proof.
  intros HN Hp Hk. rewrite ext_arefl_base by (auto; lia).
  replace p with (p + 0) at 2 by lia. rewrite ext_arefl_base by (auto; lia). ring.
Qed.

Lemma ext_smooth_l k : 2 <= N -> 0 < k ->
  ext SMOOTH x (- k) = gz x 0 [+] rz k [*] (gz x 0 [-] gz x 1).
Proof.
  intros HN Hk. unfold ext; fold N. replace (N <? 2) with false by lia.
  replace (- k <? 0) with true by lia. rewrite Z.opp_involutive. reflexivity.
Qed.
Lemma ext_smooth_r k : 2 <= N -> 0 < k ->
  ext SMOOTH x (N - 1 + k) = gz x (N - 1) [+] rz k [*] (gz x (N - 1) [-] gz x (N - 2)).
Proof.
  intros HN Hk. unfold ext; fold N. replace (N <? 2) with false by lia.
  replace (N - 1 + k <? 0) with false by lia. replace (N - 1 + k <? N) with false by lia.
  replace (N - 1 + k - (N - 1)) with k by lia. reflexivity.
Qed.

Lemma ext_smooth_short n : N = 1 -> ext SMOOTH x n = ext CONSTANT_EDGE x n.
Proof.
  intros H. unfold ext; fold N. replace (N <? 2) with true by lia. f_equal. lia.
Qed.

End ExtLemmas.
