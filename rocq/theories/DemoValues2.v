(** The values of the demo signals: chirps, pieces and sums of waves. *)
From Coq Require Import Ascii String QArith Qround ZArith List Lia.
Import ListNotations.
From Verif Require Import Base BaseLemmas CConv Dwt Swt Names CwtReal Demo DemoSpec DemoProofs DemoMain DemoValuesSpec DemoValues.
From Coq Require Import Reals Lra.
Open Scope list_scope. Open Scope Z_scope.

Open Scope R_scope.

(** ** Chirps *)
Definition plus_ (a b : list (option R)) := map (fun '(x, y) => match x, y with Some x, Some y => Some (x + y) | _, _ => None end) (combine a b).
Lemma plus_at a b : zlen a = zlen b -> zlen (plus_ a b) = zlen a /\ forall k x y, (0 <= k < zlen a)%Z -> at_ a None k = Some x -> at_ b None k = Some y -> at_ (plus_ a b) None k = Some (x + y).
Proof.
  intros H. unfold plus_. split; [rewrite zl_map; apply zl_combine; auto|].
  intros k x y Hk Ea Eb. rewrite (at_map _ _ _ (None, None)) by (rewrite zl_combine; auto). rewrite at_combine by auto. rewrite Ea, Eb. reflexivity.
Qed.
Lemma at_some {A} (l : list A) d k : (0 <= k < zlen l)%Z -> at_ (map Some l) None k = Some (at_ l d k).
Proof. intros. apply (at_map Some). auto. Qed.
Lemma chirps_values_eq q : (2 <= q)%Z -> let n := (8 * q)%Z in exists f, chirps n = Ok f /\ samples f n (fun m => four_chirps n m * envelope n q (m - 1)).
Proof.
  intros Hq n. assert (E8 : (n / 8 = q)%Z) by (unfold n; rewrite Z.mul_comm; apply Z.div_mul; lia).
  assert (E2 : (n / 2 = 4 * q)%Z) by (unfold n; replace (8 * q)%Z with (4 * q * 2)%Z by ring; apply Z.div_mul; lia).
  assert (E7 : (7 * n / 8 = n - q)%Z) by (unfold n; replace (7 * (8 * q))%Z with (7 * q * 8)%Z by ring; rewrite Z.div_mul; lia).
  assert (ER : IZR n = 8 * IZR q) by (unfold n; rewrite mult_IZR; auto). assert (Q0 : IZR q <> 0) by (apply IZR_neq; lia).
  unfold chirps. cbv zeta. rewrite E8, E2, E7.
  replace (IZR n / 8 - 1) with (IZR (q - 1)) by (rewrite minus_IZR, ER; field). replace (n =? 8)%Z with false by lia.
  match goal with |- context [times (map Some ?a) (map Some ?b)] => destruct (times_at (map Some a) (map Some b)) as (f3 & -> & Z3 & K3); [len|] end; cbn [bind]. rewrite zl_map, zl_cut in Z3, K3 by len.
  match goal with |- context [times (map Some ?a) (map Some ?b)] => destruct (times_at (map Some a) (map Some b)) as (f4 & -> & Z4 & K4); [len|] end; cbn [bind]. rewrite zl_map, zl_cut in Z4, K4 by len.
  assert (Hq2 : (q <= n - q)%Z) by (unfold n; lia).
  destruct (envelope_ok n q q Hq Hq2 eq_refl) as (g & h & -> & E & Hz & He). cbn [bind]. rewrite E. cbn [bind]. clear E g.
  set (a1 := map Some _). set (a2 := map Some (rev _)).
  change (exists f, times (plus_ (plus_ (plus_ a1 a2) f3) f4) h = Ok f /\ samples f n (fun m => four_chirps n m * envelope n q (m - 1))).
  assert (L1 : zlen a1 = n) by (subst a1; len). assert (L2 : zlen a2 = n) by (subst a2; rewrite zl_map, zl_rev, zl_tab; lia).
  destruct (plus_at a1 a2 ltac:(lia)) as (P1 & Q1). destruct (plus_at (plus_ a1 a2) f3 ltac:(lia)) as (P2 & Q2). destruct (plus_at (plus_ (plus_ a1 a2) f3) f4 ltac:(lia)) as (P3 & Q3).
  destruct (times_at (plus_ (plus_ (plus_ a1 a2) f3) f4) h ltac:(lia)) as (f & -> & Zf & Kf). exists f. split; auto. split; [lia|]. intros m Hm.
  change (at_ f None (m - 1) = Some (four_chirps n m * envelope n q (m - 1))).
  apply Kf; [lia| |apply He; lia].
  unfold four_chirps. cbv zeta. assert (EM : IZR (m - 1) + 1 = IZR m) by (rewrite minus_IZR; ring). assert (EM2 : IZR (m - 1) = IZR m - 1) by (rewrite minus_IZR; ring).
  apply Q3; [lia|apply Q2; [lia|apply Q1; [lia| |]|]|].
  - subst a1. rewrite (at_some _ 0) by len. rewrite at_tab by lia. rewrite EM. f_equal. f_equal. rewrite ER. field. auto.
  - subst a2. rewrite (at_some _ 0) by (rewrite zl_rev, zl_tab; lia). rewrite at_rev by (rewrite zl_tab; lia). rewrite zl_tab by lia. rewrite at_tab by lia. f_equal. f_equal.
    replace (IZR (n - 1 - (m - 1)) + 1) with (IZR n + 1 - IZR m) by (rewrite !minus_IZR; ring). rewrite ER. field. auto.
  - apply K3; [lia| |].
    + rewrite (at_some _ 0) by len. rewrite at_cut by lia. rewrite at_tab by lia. f_equal. unfold bell. f_equal. rewrite !minus_IZR, plus_IZR, mult_IZR, EM2, ER. field. auto.
    + rewrite (at_some _ 0) by len. rewrite at_tab by lia. rewrite EM. f_equal. f_equal. rewrite ER. field. auto.
  - apply K4; [lia| |].
    + rewrite (at_some _ 0) by len. rewrite at_cut by lia. rewrite at_tab by lia. f_equal. unfold bell. f_equal. rewrite !minus_IZR, plus_IZR, EM2, ER. field. auto.
    + rewrite (at_some _ 0) by len. rewrite at_tab by lia. rewrite EM. f_equal. f_equal. rewrite ER. field. auto.
Qed.
Section D.
Variables tcount hcount : Z -> Z.
Notation ds := (demo_signal tcount hcount).
Theorem chirps_values s n : lower s = "chirps"%string -> (16 <= n)%Z -> (8 | n)%Z -> exists f, ds s (Some n) = Ok (DReal f) /\ samples f n (fun m => four_chirps n m * envelope n (n / 8) (m - 1)).
Proof.
  intros Hs Hn (q & ->). rewrite Z.div_mul by lia. unfold demo_signal. rewrite Hs. cbv zeta. replace (_ <? 1)%Z with false by lia. cbn -[IZR pow chirps envelope four_chirps Z.mul].
  rewrite Z.mul_comm. destruct (chirps_values_eq q ltac:(lia)) as (f & -> & S). cbn [bind]. eauto.
Qed.
Theorem linchirps_values s n : lower s = "linchirps"%string -> (1 <= n)%Z -> exists f, ds s (Some n) = Ok (DReal f) /\ samples f n (lin_chirps n).
Proof.
  intros Hs Hn. pose proof (nz n Hn) as N0. unfold demo_signal. rewrite Hs. cbv zeta. replace (_ <? 1)%Z with false by lia. cbn -[IZR pow linchirps lin_chirps].
  eexists. split; [reflexivity|]. unfold linchirps. cbv zeta. split; [apply zl_tab; lia|]. intros m Hm.
  match goal with |- nth (Z.to_nat (m - 1)) ?l None = _ => change (at_ l None (m - 1) = Some (lin_chirps n m)) end. rewrite at_tab by lia.
  replace (IZR (m - 1) + 1) with (IZR m) by (rewrite minus_IZR; ring). assert (P : 0 < IZR n) by (apply IZR_lt; lia). assert (I : 0 < / IZR n) by (apply Rinv_0_lt_compat; auto).
  assert (M : 0 <= (IZR m - 1) * (IZR n - IZR m)) by (apply Rmult_le_pos; [assert (1 <= IZR m) by (apply IZR_le; lia)|assert (IZR m <= IZR n) by (apply IZR_le; lia)]; lra).
  assert (E : (IZR m / IZR n - 1 / IZR n) * (1 - IZR m / IZR n) = (IZR m - 1) * (IZR n - IZR m) * (/ IZR n * / IZR n)) by (field; auto).
  rewrite E. unfold nsqrt. destruct (Rlt_dec _ 0) as [X|X]; [exfalso; apply (Rle_not_lt _ _ (Rmult_le_pos _ _ M (Rlt_le _ _ (Rmult_lt_0_compat _ _ I I)))); exact X|].
  rewrite sqrt_mult_alt by auto. rewrite sqrt_square by lra. unfold lin_chirps. cbv zeta. f_equal. unfold Rdiv at 5. f_equal. f_equal; f_equal; field; auto.
Qed.

(** ** Gabor and the sine of 1/x *)
Theorem gabor_values s : lower s = "gabor"%string -> exists f, ds s None = Ok (DComplex f) /\ zlen f = 512%Z /\ forall m, (1 <= m <= 512)%Z -> nth (Z.to_nat (m - 1)) f (0, 0) = gabors m.
Proof.
  intros Hs. unfold demo_signal. rewrite Hs. cbv zeta. cbn -[IZR pow gabor gabors]. exists gabor. split; auto. unfold gabor. cbv zeta.
  change (2 * 512 / 4)%Z with 256%Z. change (512 / 16)%Z with 32%Z. change (512 / 4)%Z with 128%Z. change (2 * 512 + 1)%Z with 1025%Z. change (256 + 512)%Z with 768%Z. change (128 + 512)%Z with 640%Z.
  set (g := tab 1025 _). pose (part := fun (a c : Z) => map (fun '(u, (x, y)) => (3 * u * x, 3 * u * y)) (combine (cut_ g a (a + 512)) (tab 512 (fun k => let x := IZR c * PI * ((IZR k + 1) / 512) in (cos x, sin x))))).
  assert (Lg : zlen g = 1025%Z) by (subst g; apply zl_tab; lia).
  assert (PL : forall a c, (0 <= a <= 256)%Z -> zlen (part a c) = 512%Z) by (intros a c Ha; unfold part; rewrite zl_map, zl_combine; rewrite zl_cut by lia; rewrite ?zl_tab; lia).
  assert (PV : forall a c k, (0 <= a <= 256)%Z -> (0 <= k < 512)%Z -> at_ (part a c) (0, 0) k =
    (3 * exp (- (20 * (5 / 512 * (IZR k - (512 - IZR a))) ^ 2)) * cos (IZR c * PI * ((IZR k + 1) / 512)), 3 * exp (- (20 * (5 / 512 * (IZR k - (512 - IZR a))) ^ 2)) * sin (IZR c * PI * ((IZR k + 1) / 512)))).
  { intros a c k Ha Hk. unfold part. rewrite (at_map _ _ _ (0, (0, 0))) by (rewrite zl_combine; rewrite zl_cut by lia; rewrite ?zl_tab; lia).
    rewrite at_combine by (rewrite zl_cut by lia; rewrite zl_tab; lia). rewrite at_cut by lia. unfold g. rewrite !at_tab by lia.
    assert (EE : exp (- (IZR (a + k - 512) * 5 / 512) ^ 2 * 20) = exp (- (20 * (5 / 512 * (IZR k - (512 - IZR a))) ^ 2))) by (f_equal; rewrite minus_IZR, plus_IZR; field).
    rewrite EE. reflexivity. }
  change (zlen (map (fun '((x, y), (x', y')) => (x + x', y + y')) (combine (part 256%Z 32%Z) (part 128%Z 128%Z))) = 512%Z /\
    forall m, (1 <= m <= 512)%Z -> at_ (map (fun '((x, y), (x', y')) => (x + x', y + y')) (combine (part 256%Z 32%Z) (part 128%Z 128%Z))) (0, 0) (m - 1) = gabors m).
  assert (LC : zlen (combine (part 256%Z 32%Z) (part 128%Z 128%Z)) = 512%Z) by (rewrite zl_combine; rewrite !PL by lia; auto).
  split; [rewrite zl_map; auto|]. intros m Hm. rewrite (at_map _ _ _ ((0, 0), (0, 0))) by lia. rewrite at_combine by (rewrite !PL by lia; auto). rewrite !PV by lia.
  unfold gabors. cbv zeta. rewrite minus_IZR. replace (512 - 256) with 256 by lra. replace (512 - 128) with 384 by lra.
  replace (32 * PI * ((IZR m - 1 + 1) / 512)) with (PI * IZR m / 16) by field. replace (128 * PI * ((IZR m - 1 + 1) / 512)) with (PI * IZR m / 4) by field. reflexivity.
Qed.
Theorem sine_values s : lower s = "sineoneoverx"%string -> exists f, ds s None = Ok (DReal f) /\ samples f 1024 one_over.
Proof.
  intros Hs. unfold demo_signal. rewrite Hs. cbv zeta. cbn -[IZR pow sineoneoverx]. eexists. split; [reflexivity|].
  assert (L : zlen sineoneoverx = 1024%Z) by (unfold sineoneoverx; cbv zeta; rewrite zl_cut; rewrite ?zl_tab by lia; lia).
  split; [rewrite zl_map; auto|]. intros m Hm. change (at_ (map Some sineoneoverx) None (m - 1) = Some (one_over m)). rewrite (at_some _ 0) by lia. f_equal.
  unfold sineoneoverx. cbv zeta. rewrite at_cut by lia. rewrite at_tab by lia. change (1024 - 1)%Z with 1023%Z. replace (512 + (m - 1) - 1024 + 1)%Z with (m - 512)%Z by lia.
  unfold one_over. replace 1.5 with (15 / 10) by lra. destruct (Z.eqb_spec (m - 512) 0), (Z.eqb_spec m 512); try lia; f_equal; [field|].
  rewrite minus_IZR. assert (IZR m - 512 <> 0) by (rewrite <- minus_IZR; apply IZR_neq; lia). field. auto.
Qed.
End D.
