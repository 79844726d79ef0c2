(** The lengths of the two calls of arange in double precision. *)
From Coq Require Import String QArith Qround Qreals ZArith List Reals Lia Lra.
Import ListNotations.
From Verif Require Import Base BaseLemmas Demo DemoSpec DemoProofs.
Open Scope R_scope.

Definition p2 (e : Z) : R := powerRZ 2 e.
Lemma p2_pos e : 0 < p2 e.
Proof. apply powerRZ_lt. lra. Qed.
Lemma p2_add a b : p2 (a + b) = p2 a * p2 b.
Proof. apply powerRZ_add. lra. Qed.
Lemma p2_Z e : (0 <= e)%Z -> p2 e = IZR (2 ^ e).
Proof. intros H. unfold p2. rewrite <- (Z2Nat.id e) by auto. rewrite <- pow_powerRZ. apply pow_IZR. Qed.
Lemma p2_neg e : p2 (- e) * p2 e = 1.
Proof. rewrite <- p2_add. replace (- e + e)%Z with 0%Z by lia. reflexivity. Qed.

Lemma rne_R a b : (0 < b)%Z -> Rabs (IZR (rne a b) - IZR a / IZR b) <= 1 / 2.
Proof.
  intros Hb. pose proof (rne_bounds a b Hb) as (L & U). apply IZR_le in L, U. rewrite minus_IZR, !mult_IZR in L. rewrite plus_IZR, !mult_IZR in U.
  assert (B : 0 < IZR b) by (apply IZR_lt; auto). set (x := IZR (rne a b)) in *. set (u := IZR a) in *. set (v := IZR b) in *.
  assert (E : x - u / v = (v * x - u) / v) by (field; lra). rewrite E. unfold Rdiv. rewrite Rabs_mult, (Rabs_right (/ v)) by (left; apply Rinv_0_lt_compat; auto).
  apply (Rmult_le_reg_r v); auto. rewrite Rmult_assoc, Rinv_l, Rmult_1_r by lra. apply Rabs_le. lra.
Qed.

Lemma Q2R_frac n d : (0 < d)%Z -> Q2R (Qmake n (Z.to_pos d)) = IZR n / IZR d.
Proof. intros H. unfold Q2R. cbn [Qnum Qden]. rewrite Z2Pos.id by auto. reflexivity. Qed.

(** The relative error of rounding to 53 bits. *)
Theorem rnd64_err q : 0 < Q2R q -> Rabs (Q2R (rnd64 q) - Q2R q) <= Q2R q * p2 (-53).
Proof.
  intros Hq. destruct q as [n dp]. unfold rnd64. cbn [Qnum Qden]. set (d := Zpos dp).
  assert (E : Q2R (n # dp) = IZR n / IZR d) by reflexivity. rewrite E in Hq |- *. clear E.
  assert (D : 0 < IZR d) by (apply IZR_lt; unfold d; lia).
  assert (N : 0 < IZR n). { replace (IZR n) with (IZR n / IZR d * IZR d) by (field; lra). apply Rmult_lt_0_compat; auto. }
  assert (HN : (0 < n)%Z) by (apply lt_IZR; auto). assert (HD : (0 < d)%Z) by (unfold d; lia). clearbody d.
  replace (n =? 0)%Z with false by lia. cbv zeta.
  set (k := (Z.log2 n - Z.log2 d)%Z).
  assert (K : p2 k * IZR d < 2 * IZR n /\ IZR n < 2 * (p2 k * IZR d)).
  { pose proof (Z.log2_spec n HN) as (N1 & N2). pose proof (Z.log2_spec d HD) as (D1 & D2). pose proof (Z.log2_nonneg n). pose proof (Z.log2_nonneg d).
    apply IZR_le in N1, D1. apply IZR_lt in N2, D2. rewrite <- p2_Z in N1, N2, D1, D2 by lia.
    rewrite <- Z.add_1_r, p2_add in N2, D2. change (p2 1) with (2 * 1) in *.
    assert (P : p2 k * p2 (Z.log2 d) = p2 (Z.log2 n)) by (rewrite <- p2_add; f_equal; unfold k; lia).
    pose proof (p2_pos k). split; nra. }
  set (c := if (0 <=? k)%Z then (d * 2 ^ k <=? n)%Z else (d <=? n * 2 ^ (- k))%Z).
  assert (Hc : if c then p2 k * IZR d <= IZR n else IZR n < p2 k * IZR d).
  { unfold c. pose proof (p2_pos k). destruct (Z.leb_spec 0 k) as [X|X].
    - destruct (Z.leb_spec (d * 2 ^ k) n) as [Y|Y]; [apply IZR_le in Y|apply IZR_lt in Y]; rewrite mult_IZR, <- p2_Z in Y by lia; lra.
    - pose proof (p2_neg k). pose proof (p2_pos (- k)). destruct (Z.leb_spec d (n * 2 ^ (- k))) as [Y|Y]; [apply IZR_le in Y|apply IZR_lt in Y]; rewrite mult_IZR, <- p2_Z in Y by lia; nra. }
  set (j := if c then k else (k - 1)%Z).
  assert (J : p2 j * IZR d <= IZR n).
  { unfold j. destruct c; [lra|]. replace (k - 1)%Z with (k + -1)%Z by lia. rewrite p2_add. change (p2 (-1)) with (/ (2 * 1)). lra. }
  clear K Hc. clearbody j. clear c k.
  assert (E2 : Rabs (Q2R (if (0 <=? j - 52)%Z then inject_Z (rne n (d * 2 ^ (j - 52)) * 2 ^ (j - 52)) else rne (n * 2 ^ (- (j - 52))) d # Z.to_pos (2 ^ (- (j - 52)))) - IZR n / IZR d) <= 1 / 2 * p2 (j - 52)).
  { set (e := (j - 52)%Z). clearbody e. pose proof (p2_pos e) as Pe. destruct (Z.leb_spec 0 e) as [X|X].
    - unfold inject_Z, Q2R. cbn [Qnum Qden]. assert (0 < 2 ^ e)%Z by (apply Z.pow_pos_nonneg; lia).
      pose proof (rne_R n (d * 2 ^ e) ltac:(nia)) as B. rewrite !mult_IZR, <- !p2_Z in * by lia. set (r := IZR (rne n (d * 2 ^ e))) in *.
      replace (r * p2 e * / 1 - IZR n / IZR d) with ((r - IZR n / (IZR d * p2 e)) * p2 e) by (field; lra).
      rewrite Rabs_mult, (Rabs_right (p2 e)) by lra. apply Rmult_le_compat_r; lra.
    - assert (0 < 2 ^ (- e))%Z by (apply Z.pow_pos_nonneg; lia). rewrite Q2R_frac by auto.
      pose proof (rne_R (n * 2 ^ (- e)) d HD) as B. rewrite !mult_IZR, <- !p2_Z in * by lia. set (r := IZR (rne (n * 2 ^ (- e)) d)) in *.
      pose proof (p2_pos (- e)). pose proof (p2_neg e).
      assert (E1 : p2 e = / p2 (- e)). { apply (Rmult_eq_reg_l (p2 (- e))); [|lra]. rewrite Rinv_r by lra. auto. }
      replace (r / p2 (- e) - IZR n / IZR d) with ((r - IZR n * p2 (- e) / IZR d) * / p2 (- e)) by (field; lra). rewrite <- E1.
      rewrite Rabs_mult, (Rabs_right (p2 e)) by lra. apply Rmult_le_compat_r; lra. }
  eapply Rle_trans; [exact E2|]. clear E2.
  assert (G : 1 / 2 * p2 (j - 52) = p2 j * p2 (-53)).
  { replace (j - 52)%Z with (j + -53 + 1)%Z by lia. rewrite !p2_add. change (p2 1) with (2 * 1). field. }
  rewrite G. pose proof (p2_pos (-53)). apply Rmult_le_compat_r; [lra|]. apply (Rmult_le_reg_r (IZR d)); auto. unfold Rdiv. rewrite Rmult_assoc, Rinv_l by lra. lra.
Qed.

Lemma ceil_between q n : IZR n - 1 < Q2R q < IZR n + 1 -> (n <= Qceiling q <= n + 1)%Z.
Proof.
  intros (A & B). pose proof (Qle_ceiling q) as C1. pose proof (Qceiling_lt q) as C2. apply Qle_Rle in C1. apply Qlt_Rlt in C2.
  assert (I : forall z, Q2R (inject_Z z) = IZR z) by (intros z; unfold Q2R, inject_Z; cbn; field). rewrite I in C1, C2.
  assert (n - 1 < Qceiling q)%Z by (apply lt_IZR; rewrite minus_IZR; lra). assert (Qceiling q - 1 < n + 1)%Z by (apply lt_IZR; rewrite plus_IZR; lra). lia.
Qed.
Lemma p2_53 : p2 (-53) = / 9007199254740992.
Proof. change (p2 (-53)) with (/ p2 53). rewrite p2_Z by lia. reflexivity. Qed.
Definition u : R := p2 (-53).
Lemma rnd x : 0 < Q2R x -> Q2R x * (1 - u) <= Q2R (rnd64 x) <= Q2R x * (1 + u).
Proof. intros H. pose proof (rnd64_err x H) as E. fold u in E. apply Rabs_le_inv in E || (unfold Rabs in E; destruct (Rcase_abs _) in E); lra. Qed.
Lemma u_val : u = / 9007199254740992.
Proof. exact p2_53. Qed.
Lemma Q2R_Z z : Q2R (inject_Z z) = IZR z.
Proof. unfold Q2R, inject_Z. cbn. field. Qed.
Lemma Q2R_neq q : 0 < Q2R q -> ~ (q == 0)%Q.
Proof. intros H E. apply Qeq_eqR in E. rewrite E in H. unfold Q2R in H. cbn in H. lra. Qed.

Lemma count_max a b s n : IZR n - 1 < Q2R (rnd64 (rnd64 (b - a) / s)) < IZR n + 1 -> (0 <= n)%Z -> (n <= arange_len64 a b s <= n + 1)%Z.
Proof. intros H Hn. unfold arange_len64. apply ceil_between in H. lia. Qed.

Theorem tcount64_bounds n : (1 <= n <= 2 ^ 49)%Z -> (n <= tcount64 n <= n + 1)%Z.
Proof.
  intros (H1 & H2). apply IZR_le in H1 as R1. apply IZR_le in H2 as R2. change (IZR (2 ^ 49)) with 562949953421312 in R2.
  unfold tcount64. cbv zeta. set (s := rnd64 (1 / inject_Z n)).
  pose proof u_val as U.
  assert (Ps : IZR n * Q2R s >= 1 - u /\ IZR n * Q2R s <= 1 + u).
  { assert (E : Q2R (1 / inject_Z n) = 1 / IZR n) by (rewrite Q2R_div; [rewrite Q2R_Z; unfold Q2R; cbn; field; lra|apply Q2R_neq; rewrite Q2R_Z; lra]).
    assert (P : 0 < Q2R (1 / inject_Z n)) by (rewrite E; apply Rdiv_lt_0_compat; lra). pose proof (rnd _ P) as B. fold s in B. rewrite E in B.
    assert (X : IZR n * (1 / IZR n) = 1) by (field; lra). set (w := 1 / IZR n) in *. split; nra. }
  clearbody s. set (S := Q2R s) in *.
  assert (S0 : 0 < S) by nra. assert (S1 : S <= 2) by nra.
  set (b := rnd64 (1 + s)).
  assert (Pb : (1 + S) * (1 - u) <= Q2R b <= (1 + S) * (1 + u)).
  { assert (E : Q2R (1 + s) = 1 + S) by (rewrite Q2R_plus; replace (Q2R 1) with 1 by (unfold Q2R; cbn; field); reflexivity). rewrite <- E. apply rnd. rewrite E. lra. }
  clearbody b. set (B := Q2R b) in *.
  set (d := rnd64 (b - s)).
  assert (Pd : (B - S) * (1 - u) <= Q2R d <= (B - S) * (1 + u)).
  { assert (E : Q2R (b - s) = B - S) by (rewrite Q2R_minus; auto). rewrite <- E. apply rnd. rewrite E. nra. }
  assert (Pd2 : 1 - 5 * u <= Q2R d <= 1 + 5 * u). { assert (- (3 * u) <= B - S - 1 <= 3 * u) by nra. nra. }
  apply count_max; [|lia]. fold d.
  assert (Ed : Q2R (d / s) = Q2R d / S) by (apply Q2R_div; apply Q2R_neq; auto).
  assert (Px : IZR n * (1 - 7 * u) <= Q2R d / S <= IZR n * (1 + 7 * u)).
  { set (x := Q2R d / S). assert (X : x * S = Q2R d) by (unfold x; field; lra). split.
    - apply (Rmult_le_reg_r S); auto. rewrite X. nra.
    - apply (Rmult_le_reg_r S); auto. rewrite X. nra. }
  assert (P0 : 0 < Q2R (d / s)) by (rewrite Ed; nra). pose proof (rnd _ P0) as Bx. rewrite Ed in Bx. set (x := Q2R d / S) in *. split; nra.
Qed.
Theorem hcount64_bounds n : (1 <= n <= 2 ^ 49)%Z -> (n <= hcount64 n <= n + 1)%Z.
Proof.
  intros (H1 & H2). apply IZR_le in H1 as R1. apply IZR_le in H2 as R2. change (IZR (2 ^ 49)) with 562949953421312 in R2.
  unfold hcount64. cbv zeta. pose proof u_val as U.
  set (c := rnd64 (1 # 1000)).
  assert (Pc : 1 / 1000 - u <= Q2R c <= 1 / 1000 + u).
  { assert (E : Q2R (1 # 1000) = 1 / 1000) by (unfold Q2R; cbn [Qnum Qden]; lra). assert (P : 0 < Q2R (1 # 1000)) by (rewrite E; lra). pose proof (rnd (1 # 1000) P) as B. rewrite E in B. fold c in B. (rewrite U in *; lra). }
  clearbody c. set (C := Q2R c) in *.
  set (a := rnd64 (1001 # 1000)).
  assert (Pa : 1001 / 1000 - 2 * u <= Q2R a <= 1001 / 1000 + 2 * u).
  { assert (E : Q2R (1001 # 1000) = 1001 / 1000) by (unfold Q2R; cbn [Qnum Qden]; lra). assert (P : 0 < Q2R (1001 # 1000)) by (rewrite E; lra). pose proof (rnd (1001 # 1000) P) as B. rewrite E in B. fold a in B. (rewrite U in *; lra). }
  clearbody a. set (A := Q2R a) in *.
  set (e := rnd64 (inject_Z n + c)).
  assert (Pe : (IZR n + C) * (1 - u) <= Q2R e <= (IZR n + C) * (1 + u)).
  { assert (E : Q2R (inject_Z n + c) = IZR n + C) by (rewrite Q2R_plus, Q2R_Z; auto). rewrite <- E. apply rnd. rewrite E. lra. }
  clearbody e. set (X := Q2R e) in *.
  set (b := rnd64 (e + 1)).
  assert (Pb : (X + 1) * (1 - u) <= Q2R b <= (X + 1) * (1 + u)).
  { assert (E : Q2R (e + 1) = X + 1) by (rewrite Q2R_plus; replace (Q2R 1) with 1 by (unfold Q2R; cbn; field); reflexivity). rewrite <- E. apply rnd. rewrite E. (rewrite U in *; lra). }
  clearbody b. set (B := Q2R b) in *.
  apply count_max; [|lia].
  assert (Q : IZR n - 3 / 10 <= B - A <= IZR n + 3 / 10). { assert (IZR n + 1 / 1000 - 1 / 10 <= X <= IZR n + 1 / 1000 + 0.1) by (rewrite U in *; lra). (rewrite U in *; lra). }
  set (d := rnd64 (b - a)).
  assert (Pd : (B - A) * (1 - u) <= Q2R d <= (B - A) * (1 + u)).
  { assert (E : Q2R (b - a) = B - A) by (rewrite Q2R_minus; auto). rewrite <- E. apply rnd. rewrite E. lra. }
  clearbody d. assert (Ed : Q2R (d / 1) = Q2R d) by (unfold Qdiv; rewrite Q2R_mult; replace (Q2R (/ 1)) with 1 by (unfold Q2R; cbn; field); apply Rmult_1_r).
  assert (Qd : IZR n - 1 / 2 <= Q2R d <= IZR n + 1 / 2) by ((rewrite U in *; lra)).
  assert (P0 : 0 < Q2R (d / 1)) by (rewrite Ed; lra). pose proof (rnd _ P0) as Bx. rewrite Ed in Bx. split; (rewrite U in *; lra).
Qed.
(** Powers of two are counted right, and so are most other lengths; some are not. *)
Lemma counts_pow2 k : (0 <= k <= 45)%Z -> tcount64 (2 ^ k) = (2 ^ k)%Z.
Proof.
  intros H. assert (B : forallb (fun k => Z.eqb (tcount64 (2 ^ Z.of_nat k)) (2 ^ Z.of_nat k)) (seq 0 46) = true) by (vm_compute; reflexivity).
  rewrite forallb_forall in B. specialize (B (Z.to_nat k)). rewrite Z2Nat.id in B by lia. apply Z.eqb_eq, B, in_seq. lia.
Qed.
