(** Forward error bounds of the transforms in rounded arithmetic. *)
From Coq Require Import Reals Lra Psatz.
From Verif Require Import Base BaseLemmas CConv Spec ExtLemmas Lengths Dwt DwtProofs Multilevel Instances CwtReal RawConv RawRel HomRing Rounding.
Open Scope R_scope.

(** * Powers of [1 + u] *)
Section Pow.
Variable u : R.
Hypothesis Hu : 0 <= u.
Lemma pow1_ge n : 1 <= (1 + u) ^ n.
Proof. apply pow_R1_Rle. lra. Qed.
Lemma pow1_mono a b : (a <= b)%nat -> (1 + u) ^ a <= (1 + u) ^ b.
Proof. intros. apply Rle_pow; [lra|exact H]. Qed.
End Pow.

(** * The pair of a rounded and an exact computation *)
Section Fl.
Variable fl : flarith.
Notation u := (fu fl).
Notation eta := (feta fl).
Variable pf px : nat.
Let p := (pf + px)%nat.

Definition pair_ops : Ops := mkOps (fl * R)%type (o0, 0)
  (fun a b => (oadd (fst a) (fst b), snd a + snd b))
  (fun a b => (omul (fst a) (fst b), snd a * snd b))
  (fun a b => (osub (fst a) (fst b), snd a - snd b))
  (fun z => (oz z, IZR z)).
Definition cnt : CRing := Prod Rring Zring.

(** Error of a sum of [k] rounded products of total size [a]. *)
Definition bnd (a : R) (k : nat) : R := ((1 + u) ^ (k + p) - 1) * a + INR k * (1 + u) ^ (k + p) * eta.
Definition rel_s (s : pair_ops) (b : ops_of cnt) : Prop :=
  (0 <= snd b)%Z /\ Rabs (snd s) <= fst b /\ (snd b = 0%Z -> fst b = 0 /\ val (fst s) = 0) /\
  ((0 < snd b)%Z -> Rabs (val (fst s) - snd s) <= bnd (fst b) (Z.to_nat (snd b))).
Definition rel_in (q : nat) (s : pair_ops) (b : ops_of cnt) : Prop :=
  rounded fl q (fst s) (snd s) /\ b = (Rabs (snd s), 1%Z).

Lemma u_nn : 0 <= u. Proof. apply fu_nonneg. Qed.
Lemma eta_nn : 0 <= eta. Proof. apply feta_nonneg. Qed.

Lemma rel_s_0 : rel_s o0 o0.
Proof.
  unfold rel_s. cbn. repeat split; try lra; try lia; intros; try apply val_zero. rewrite Rabs_R0. lra.
Qed.

Lemma bnd_add a1 k1 a2 k2 v1 v2 e1 e2 v : (1 <= k1)%nat -> (1 <= k2)%nat -> 0 <= a1 -> 0 <= a2 ->
  Rabs e1 <= a1 -> Rabs e2 <= a2 -> Rabs (v1 - e1) <= bnd a1 k1 -> Rabs (v2 - e2) <= bnd a2 k2 ->
  Rabs (v - (v1 + v2)) <= u * Rabs (v1 + v2) -> Rabs (v - (e1 + e2)) <= bnd (a1 + a2) (k1 + k2).
Proof.
  intros K1 K2 A1 A2 E1 E2 V1 V2 V. pose proof u_nn as U. pose proof eta_nn as H.
  assert (S1 : (1 + u) * (1 + u) ^ (k1 + p) <= (1 + u) ^ (k1 + k2 + p)).
  { change ((1 + u) ^ (S (k1 + p)) <= (1 + u) ^ (k1 + k2 + p)). apply pow1_mono; [exact U|lia]. }
  assert (S2 : (1 + u) * (1 + u) ^ (k2 + p) <= (1 + u) ^ (k1 + k2 + p)).
  { change ((1 + u) ^ (S (k2 + p)) <= (1 + u) ^ (k1 + k2 + p)). apply pow1_mono; [exact U|lia]. }
  unfold bnd in *. rewrite plus_INR.
  assert (I1 : 0 <= INR k1) by apply pos_INR. assert (I2 : 0 <= INR k2) by apply pos_INR.
  set (P1 := (1 + u) ^ (k1 + p)) in *. set (P2 := (1 + u) ^ (k2 + p)) in *. set (P := (1 + u) ^ (k1 + k2 + p)) in *.
  assert (G1 : 1 <= P1) by apply pow1_ge, U. assert (G2 : 1 <= P2) by apply pow1_ge, U. clearbody P1 P2 P.
  assert (T : Rabs (v - (e1 + e2)) <= (1 + u) * (Rabs (v1 - e1) + Rabs (v2 - e2)) + u * (a1 + a2)).
  { assert (T1 : Rabs (v1 + v2) <= Rabs (v1 - e1) + Rabs (v2 - e2) + (a1 + a2)) by (unfold Rabs in *; repeat destruct (Rcase_abs _); lra).
    assert (T2 : Rabs (v - (e1 + e2)) <= Rabs (v - (v1 + v2)) + Rabs (v1 - e1) + Rabs (v2 - e2)) by (unfold Rabs in *; repeat destruct (Rcase_abs _); lra).
    assert (u * Rabs (v1 + v2) <= u * (Rabs (v1 - e1) + Rabs (v2 - e2) + (a1 + a2))) by (apply Rmult_le_compat_l; lra). lra. }
  eapply Rle_trans; [exact T|].
  assert (Q1 : (1 + u) * Rabs (v1 - e1) <= (1 + u) * ((P1 - 1) * a1 + INR k1 * P1 * eta)) by (apply Rmult_le_compat_l; lra).
  assert (Q2 : (1 + u) * Rabs (v2 - e2) <= (1 + u) * ((P2 - 1) * a2 + INR k2 * P2 * eta)) by (apply Rmult_le_compat_l; lra).
  assert (W1 : ((1 + u) * P1) * a1 <= P * a1) by (apply Rmult_le_compat_r; assumption).
  assert (W2 : ((1 + u) * P2) * a2 <= P * a2) by (apply Rmult_le_compat_r; assumption).
  assert (X1 : ((1 + u) * P1) * (INR k1 * eta) <= P * (INR k1 * eta)) by (apply Rmult_le_compat_r; [apply Rmult_le_pos; assumption|assumption]).
  assert (X2 : ((1 + u) * P2) * (INR k2 * eta) <= P * (INR k2 * eta)) by (apply Rmult_le_compat_r; [apply Rmult_le_pos; assumption|assumption]).
  lra.
Qed.

Lemma rel_s_add s s' b b' : rel_s s b -> rel_s s' b' -> rel_s (oadd s s') (oadd b b').
Proof.
  destruct s as [v e], s' as [v' e'], b as [a k], b' as [a' k']. unfold rel_s. cbn.
  intros (K & A & Z0 & V) (K' & A' & Z0' & V').
  assert (0 <= a) by (pose proof (Rabs_pos e); lra). assert (0 <= a') by (pose proof (Rabs_pos e'); lra).
  split; [lia|]. split; [pose proof (Rabs_triang e e'); lra|].
  destruct (Z.eq_dec k 0) as [->|Nk].
  - destruct (Z0 eq_refl) as [-> Ev]. rewrite (val_add_0_l fl v v' Ev). rewrite Z.add_0_l, Rplus_0_l.
    assert (e = 0) by (unfold Rabs in A; destruct (Rcase_abs e); lra). subst e. rewrite Rplus_0_l. split; assumption.
  - destruct (Z.eq_dec k' 0) as [->|Nk'].
    + destruct (Z0' eq_refl) as [-> Ev]. rewrite (val_add_0_r fl v v' Ev). rewrite Z.add_0_r, Rplus_0_r.
      assert (e' = 0) by (unfold Rabs in A'; destruct (Rcase_abs e'); lra). subst e'. rewrite Rplus_0_r. split; assumption.
    + split; [lia|]. intros _. replace (Z.to_nat (k + k')) with (Z.to_nat k + Z.to_nat k')%nat by lia.
      apply (bnd_add a _ a' _ (val v) (val v') e e'); try lia; try assumption; try (apply V; lia); try (apply V'; lia). apply val_add.
Qed.

Lemma rel_s_sub s s' b b' : rel_s s b -> rel_s s' b' -> rel_s (osub s s') (oadd b b').
Proof.
  destruct s as [v e], s' as [v' e'], b as [a k], b' as [a' k']. unfold rel_s. cbn.
  intros (K & A & Z0 & V) (K' & A' & Z0' & V').
  assert (0 <= a) by (pose proof (Rabs_pos e); lra). assert (0 <= a') by (pose proof (Rabs_pos e'); lra).
  split; [lia|]. split; [unfold Rabs in *; repeat destruct (Rcase_abs _); lra|].
  destruct (Z.eq_dec k 0) as [->|Nk].
  - destruct (Z0 eq_refl) as [-> Ev]. rewrite (val_sub_0_l fl v v' Ev). rewrite Z.add_0_l, Rplus_0_l.
    assert (e = 0) by (unfold Rabs in A; destruct (Rcase_abs e); lra). subst e. split; [intros Hk; destruct (Z0' Hk); split; lra|].
    intros Hk. replace (- val v' - (0 - e')) with (- (val v' - e')) by ring. rewrite Rabs_Ropp. apply V', Hk.
  - destruct (Z.eq_dec k' 0) as [->|Nk'].
    + destruct (Z0' eq_refl) as [-> Ev]. rewrite (val_sub_0_r fl v v' Ev). rewrite Z.add_0_r, Rplus_0_r.
      assert (e' = 0) by (unfold Rabs in A'; destruct (Rcase_abs e'); lra). subst e'. rewrite Rminus_0_r. split; assumption.
    + split; [lia|]. intros _. replace (Z.to_nat (k + k')) with (Z.to_nat k + Z.to_nat k')%nat by lia.
      replace (e - e') with (e + - e') by ring.
      apply (bnd_add a _ a' _ (val v) (- val v') e (- e')); try lia; try assumption; try (apply V; lia).
      * rewrite Rabs_Ropp. exact A'.
      * replace (- val v' - - e') with (- (val v' - e')) by ring. rewrite Rabs_Ropp. apply V'; lia.
      * apply val_sub.
Qed.

Lemma rel_s_mul f x b b' : rel_in pf f b -> rel_in px x b' -> rel_s (omul f x) (omul b b').
Proof.
  destruct f as [f ef], x as [x ex]. intros [Rf ->] [Rx ->]. unfold rel_s, rounded in *. cbn in *.
  split; [lia|]. split; [rewrite Rabs_mult; apply Rle_refl|]. split; [intros E; discriminate|]. intros _.
  change (Pos.to_nat 1) with 1%nat. unfold bnd. pose proof u_nn as U. pose proof eta_nn as H.
  replace (1 + p)%nat with (1 + (pf + px))%nat by reflexivity. rewrite !pow_add. cbn [INR]. rewrite pow_1.
  set (P := (1 + u) ^ pf) in *. set (Q := (1 + u) ^ px) in *.
  assert (GP : 1 <= P) by apply pow1_ge, U. assert (GQ : 1 <= Q) by apply pow1_ge, U. clearbody P Q.
  pose proof (val_mul fl f x) as M. rewrite Rabs_mult in M.
  set (vf := val f) in *. set (vx := val x) in *. set (w := val (omul f x)) in *.
  assert (Bf : Rabs vf <= P * Rabs ef) by (unfold Rabs in *; repeat destruct (Rcase_abs _); lra).
  assert (Bx : Rabs vx <= Q * Rabs ex) by (unfold Rabs in *; repeat destruct (Rcase_abs _); lra).
  assert (T : Rabs (w - ef * ex) <= Rabs (w - vf * vx) + (Rabs (vf - ef) * Rabs vx + Rabs ef * Rabs (vx - ex))).
  { replace (w - ef * ex) with ((w - vf * vx) + ((vf - ef) * vx + ef * (vx - ex))) by ring.
    eapply Rle_trans; [apply Rabs_triang|]. apply Rplus_le_compat_l. eapply Rle_trans; [apply Rabs_triang|]. rewrite !Rabs_mult. lra. }
  pose proof (Rabs_pos ef) as Pe. pose proof (Rabs_pos ex) as Px. pose proof (Rabs_pos vf). pose proof (Rabs_pos vx).
  pose proof (Rabs_pos (vf - ef)). pose proof (Rabs_pos (vx - ex)).
  assert (B1 : Rabs vf * Rabs vx <= (P * Rabs ef) * (Q * Rabs ex)) by (apply Rmult_le_compat; assumption).
  assert (B2 : Rabs (vf - ef) * Rabs vx <= ((P - 1) * Rabs ef) * (Q * Rabs ex)) by (apply Rmult_le_compat; assumption).
  assert (B3 : Rabs ef * Rabs (vx - ex) <= Rabs ef * ((Q - 1) * Rabs ex)) by (apply Rmult_le_compat_l; assumption).
  assert (B4 : u * (Rabs vf * Rabs vx) <= u * ((P * Rabs ef) * (Q * Rabs ex))) by (apply Rmult_le_compat_l; assumption).
  assert (B5 : 1 * eta <= (1 + u) * (P * Q) * eta).
  { apply Rmult_le_compat_r; [exact H|]. assert (1 * 1 <= P * Q) by (apply Rmult_le_compat; lra).
    assert (1 * 1 <= (1 + u) * (P * Q)) by (apply Rmult_le_compat; lra). lra. }
  lra.
Qed.

(** * Counting the terms *)
Lemma sumZ_le_Z a b (f g : Z -> Zring) : (forall t, (a <= t < b)%Z -> (f t <= g t)%Z) -> (sumZ a b f <= sumZ a b g)%Z.
Proof.
  unfold sumZ. intros H. assert (G : forall n : nat, (Z.of_nat n <= b - a)%Z -> (sumn n f a <= sumn n g a)%Z).
  { induction n as [|n IH]; intros Hn; cbn [sumn]; [apply Z.le_refl|]. change (sumn n f a + f (a + Z.of_nat n) <= sumn n g a + g (a + Z.of_nat n))%Z.
    assert (f (a + Z.of_nat n)%Z <= g (a + Z.of_nat n)%Z)%Z by (apply H; lia). specialize (IH ltac:(lia)). lia. }
  destruct (Z_le_gt_dec 0 (b - a)); [apply G; lia|]. replace (Z.to_nat (b - a)) with 0%nat by lia. apply Z.le_refl.
Qed.
Lemma sumZ_one_Z a b : (a <= b)%Z -> sumZ (C := Zring) a b (fun _ => 1%Z) = (b - a)%Z.
Proof.
  unfold sumZ. intros H. replace (b - a)%Z with (Z.of_nat (Z.to_nat (b - a))) at 2 by lia. induction (Z.to_nat (b - a)) as [|n IH]; [reflexivity|].
  cbn [sumn]. change (radd (c := Zring)) with Z.add. rewrite IH. lia.
Qed.
Lemma ones_le {X} (l : list X) i : (0 <= gz (C := Zring) (map (fun _ => 1%Z) l) i <= 1)%Z.
Proof.
  unfold gz. destruct (0 <=? i)%Z; [|cbn; lia]. generalize (Z.to_nat i). induction l as [|a l IH]; intros [|n]; cbn; try lia. apply IH.
Qed.
Lemma le_one (a b : Zring) : (0 <= a <= 1)%Z -> (0 <= b <= 1)%Z -> (a [*] b <= 1)%Z.
Proof. change (car Zring) with Z in *. change (rmul (c := Zring)) with Z.mul. nia. Qed.
Definition ones {X} (l : list X) : list Zring := map (fun _ => 1%Z : Zring) l.
Lemma count_analysis {X Y} m (h : list X) (x : list Y) k : copying m = true -> abs_mode m = m -> 
  (gz (analysis m (ones h) (ones x)) k <= zlen h)%Z.
Proof.
  intros Hm Ha. destruct (Z_le_gt_dec 0 k) as [K|K]; [|rewrite gz_neg by lia; unfold zlen; cbn; lia].
  destruct (Z_lt_ge_dec k (coeff_len m (zlen (ones x)) (zlen (ones h)))) as [K'|K'].
  2:{ rewrite gz_big; [unfold zlen; cbn; lia|]. unfold analysis. rewrite zlen_tab_max. lia. }
  unfold analysis. rewrite gz_tab by lia. unfold conv. assert (El : zlen (ones h) = zlen h) by apply zlen_map. rewrite El.
  assert (E : zlen h = sumZ (C := Zring) 0 (zlen h) (fun _ => 1%Z)) by (rewrite sumZ_one_Z; unfold zlen; lia). rewrite E at 2.
  apply sumZ_le_Z. intros t _. pose proof (ones_le h t) as P. fold (ones h) in P.
  set (i := (2 * k + first_pos m (zlen h) - t)%Z).
  assert (Q : (0 <= ext m (ones x) i <= 1)%Z).
  { assert (Q0 : forall j, (0 <= gz (ones x) j <= 1)%Z) by (intros; apply ones_le).
    destruct m; try discriminate; cbn [ext]; unfold pext; repeat match goal with |- context [if ?c then _ else _] => destruct c end; try apply Q0; cbn; lia. }
  apply le_one; assumption.
Qed.
Lemma count_parity q n : (0 <= q)%Z -> sumZ (C := Zring) 0 (2 * q) (fun t => if ((n - t) mod 2 =? 0)%Z then 1%Z else 0%Z) = q.
Proof.
  intros Hq. rewrite sumZ_even_odd by exact Hq. change (radd (c := Zring)) with Z.add. destruct (Z.eq_dec (n mod 2) 0) as [E|E].
  - rewrite (sumZ_ext Zring 0 q _ (fun _ => 1%Z)), sumZ_one_Z, (sumZ_zero Zring); [change (r0 : Zring) with 0%Z; lia| |lia|].
    + intros t _. replace ((n - (2 * t + 1)) mod 2 =? 0)%Z with false by lia. reflexivity.
    + intros t _. replace ((n - 2 * t) mod 2 =? 0)%Z with true by lia. reflexivity.
  - rewrite (sumZ_zero Zring), (sumZ_ext Zring 0 q _ (fun _ => 1%Z)), sumZ_one_Z; [change (r0 : Zring) with 0%Z; lia|lia| |].
    + intros t _. replace ((n - (2 * t + 1)) mod 2 =? 0)%Z with true by lia. reflexivity.
    + intros t _. replace ((n - 2 * t) mod 2 =? 0)%Z with false by lia. reflexivity.
Qed.
Lemma count_up {X} (g : list X) (c : Z -> Zring) n : (zlen g mod 2 = 0)%Z -> (forall k, (0 <= c k <= 1)%Z) ->
  (up_conv (ones g) c n <= zlen g / 2)%Z.
Proof.
  intros He Hc. unfold up_conv. assert (El : zlen (ones g) = zlen g) by apply zlen_map. rewrite El.
  assert (E : zlen g = (2 * (zlen g / 2))%Z) by lia. rewrite E at 1.
  assert (0 <= zlen g)%Z by (unfold zlen; lia). rewrite <- (count_parity (zlen g / 2) n) at 2 by lia. apply sumZ_le_Z. intros t _.
  destruct (_ =? 0)%Z; [|cbn; lia]. pose proof (ones_le g t) as P. fold (ones g) in P. specialize (Hc ((n - t) / 2)%Z).
  apply le_one; assumption.
Qed.
Lemma count_synthesis {X Y} m (g : list X) (c : list Y) k : (zlen g mod 2 = 0)%Z -> (gz (synthesis m (ones g) (ones c)) k <= zlen g / 2)%Z.
Proof.
  intros He. assert (Z0 : (0 <= zlen g / 2)%Z) by (unfold zlen; lia).
  assert (Q0 : forall j, (0 <= gz (ones c) j <= 1)%Z) by (intros; apply ones_le).
  assert (G : forall (f : Z -> Zring) n i, (forall j, (f j <= zlen g / 2)%Z) -> (gz (tab n f) i <= zlen g / 2)%Z).
  { intros f n i Hf. destruct (Z_le_gt_dec 0 i) as [K|K]; [|rewrite gz_neg by lia; exact Z0].
    destruct (Z_lt_ge_dec i n) as [K'|K']; [rewrite gz_tab by lia; apply Hf|]. rewrite gz_big; [exact Z0|]. rewrite zlen_tab_max. lia. }
  destruct m; cbn [synthesis]; apply G; intros j; apply count_up; auto.
Qed.

(** * Elements of related lists *)
Lemma F2_nth {X Y} (R : X -> Y -> Prop) l l' d d' i : Forall2 R l l' -> (i < length l)%nat -> R (nth i l d) (nth i l' d').
Proof. intros H. revert i. induction H; intros [|i] Hi; cbn in *; try lia; auto. apply IHForall2. lia. Qed.
Lemma F2_fst {X Y} (l : list (X * Y)) : Forall2 (fun q v => fst q = v) l (map fst l).
Proof. induction l; cbn; constructor; auto. Qed.
Lemma F2_snd {X Y} (l : list (X * Y)) : Forall2 (fun q v => snd q = v) l (map snd l).
Proof. induction l; cbn; constructor; auto. Qed.
Lemma F2_eq_map {X Y} (g : X -> Y) l l' : Forall2 (fun q v => g q = v) l l' -> l' = map g l.
Proof. induction 1; cbn; congruence. Qed.
Lemma F2_pair {X Y} (P : X -> Y -> Prop) x y : Forall2 P x y -> exists z, map fst z = x /\ map snd z = y /\ Forall (fun q => P (fst q) (snd q)) z.
Proof.
  induction 1 as [|a b l l' H _ (z & E1 & E2 & E3)]; [exists []; auto|]. exists ((a, b) :: z). cbn. rewrite E1, E2. auto.
Qed.

Definition emb (r : R) : cnt := (Rabs r, 1%Z).
Lemma map_fst_emb l : map fst (map emb l) = absl l.
Proof. rewrite map_map. reflexivity. Qed.
Lemma map_snd_emb l : map snd (map emb l) = ones l.
Proof. rewrite map_map. reflexivity. Qed.
Lemma F2_emb q (z : list (fl * R)) : Forall (fun t => rounded fl q (fst t) (snd t)) z -> Forall2 (rel_in q) z (map emb (map snd z)).
Proof. induction 1; cbn; constructor; auto. split; auto. Qed.

Definition emb_bank (b : wavelet Rring) : wavelet cnt :=
  mkWavelet (C := cnt) (map emb (dec_lo b)) (map emb (dec_hi b)) (map emb (rec_lo b)) (map emb (rec_hi b)).
Definition fbnd (F : Z) (a : R) : R := bnd a (Z.to_nat F).

Lemma rel_s_bnd s b F : rel_s s b -> (0 <= F)%Z -> (snd b <= F)%Z -> Rabs (val (fst s) - snd s) <= fbnd F (fst b).
Proof.
  destruct s as [v e], b as [a k]. unfold rel_s, fbnd. cbn. intros (K & A & Z0 & V) HF HF'.
  assert (0 <= a) by (pose proof (Rabs_pos e); lra). pose proof u_nn as U. pose proof eta_nn as H0.
  unfold bnd in *. assert (G : 1 <= (1 + u) ^ (Z.to_nat F + p)) by apply pow1_ge, U. pose proof (pos_INR (Z.to_nat F)) as I.
  destruct (Z.eq_dec k 0) as [->|Nk].
  - destruct (Z0 eq_refl) as [-> ->]. assert (e = 0) by (unfold Rabs in A; destruct (Rcase_abs e); lra). subst e.
    rewrite Rminus_0_r, Rabs_R0, Rmult_0_r, Rplus_0_l. apply Rmult_le_pos; [apply Rmult_le_pos; lra|exact H0].
  - eapply Rle_trans; [apply V; lia|].
    assert (M : (1 + u) ^ (Z.to_nat k + p) <= (1 + u) ^ (Z.to_nat F + p)) by (apply pow1_mono; [exact U|lia]).
    assert (N : INR (Z.to_nat k) <= INR (Z.to_nat F)) by (apply le_INR; lia).
    assert (G' : 1 <= (1 + u) ^ (Z.to_nat k + p)) by apply pow1_ge, U. pose proof (pos_INR (Z.to_nat k)) as I'.
    apply Rplus_le_compat; [apply Rmult_le_compat_r; lra|]. apply Rmult_le_compat_r; [exact H0|]. apply Rmult_le_compat; lra.
Qed.

(** Elements of a computed list against the exact ones. *)
Lemma rel_list_bnd (l : list pair_ops) (lb : list cnt) F i : Forall2 rel_s l lb -> (0 <= F)%Z ->
  (forall k, (snd (gz lb k) <= F)%Z) ->
  (0 <= i < zlen l)%Z -> Rabs (gz (C := Rring) (map val (map fst l)) i - gz (C := Rring) (map snd l) i) <= fbnd F (fst (gz lb i)).
Proof.
  intros H HF Hc Hi. unfold zlen in Hi. assert (Hn : (Z.to_nat i < length l)%nat) by lia. specialize (Hc i). unfold gz in *. destruct (Z.leb_spec 0 i); [|lia].
  rewrite (nth_indep (map val (map fst l)) _ (val (fst (o0 : pair_ops)))) by (rewrite !map_length; exact Hn). rewrite !map_nth.
  rewrite (nth_indep (map snd l) _ (snd (o0 : pair_ops))) by (rewrite !map_length; exact Hn). rewrite map_nth.
  apply rel_s_bnd; [|exact HF|exact Hc]. apply F2_nth; [exact H|exact Hn].
Qed.

(** * One level *)
Definition pair_bank (z1 z2 z3 z4 : list (fl * R)) : owavelet pair_ops := mkOwavelet (O := pair_ops) z1 z2 z3 z4.

Section Level.
Variable fuel : nat.
Variables (w : owavelet fl) (b : wavelet Rring).
Hypothesis Hb : wf_bank b.
Hypothesis Hw : rounded_bank fl pf w b.
Let F := dec_len b.

Lemma pair_of_bank : exists z1 z2 z3 z4,
  w = mkOwavelet (map fst z1) (map fst z2) (map fst z3) (map fst z4) /\
  b = mkWavelet (C := Rring) (map snd z1) (map snd z2) (map snd z3) (map snd z4) /\
  rel_wavelet (B := ops_of cnt) (rel_in pf) (pair_bank z1 z2 z3 z4) (raw_wavelet (emb_bank b)).
Proof.
  destruct Hw as (H1 & H2 & H3 & H4).
  destruct (F2_pair _ _ _ H1) as (z1 & A1 & B1 & C1). destruct (F2_pair _ _ _ H2) as (z2 & A2 & B2 & C2).
  destruct (F2_pair _ _ _ H3) as (z3 & A3 & B3 & C3). destruct (F2_pair _ _ _ H4) as (z4 & A4 & B4 & C4).
  exists z1, z2, z3, z4. split; [destruct w; cbn in *; congruence|]. split; [destruct b; cbn in *; congruence|].
  unfold rel_wavelet, pair_bank, raw_wavelet, emb_bank. cbn. rewrite <- B1, <- B2, <- B3, <- B4.
  repeat split; apply F2_emb; assumption.
Qed.
Lemma emb_wf : wf_bank (emb_bank b).
Proof. unfold wf_bank, dec_len, emb_bank in *. cbn. rewrite !zlen_map. exact Hb. Qed.
Lemma emb_len : dec_len (emb_bank b) = F.
Proof. unfold dec_len, emb_bank. cbn. rewrite zlen_map. reflexivity. Qed.

(** Two lists of results against the exact ones. *)
Definition within (F : Z) (v : list fl) (r a : list Rring) : Prop :=
  zlen v = zlen r /\ forall k, (0 <= k < zlen r)%Z -> Rabs (gz (C := Rring) (map val v) k - gz r k) <= fbnd F (gz a k).

Theorem dwt_rounded (x : list fl) (X : list Rring) m : copying m = true -> Forall2 (rounded fl px) x X ->
  (min_len m <= zlen X)%Z -> resources fuel (zlen X) F ->
  exists cA cD, o_dwt_single fuel x w m = Ok (cA, cD) /\
    within F cA (analysis m (dec_lo b) X) (analysis (abs_mode m) (absl (dec_lo b)) (absl X)) /\
    within F cD (analysis m (dec_hi b) X) (analysis (abs_mode m) (absl (dec_hi b)) (absl X)).
Proof.
  intros Hm Hx Hl Hr. destruct (F2_pair _ _ _ Hx) as (z & Ax & Bx & Cx).
  destruct pair_of_bank as (z1 & z2 & z3 & z4 & Ew & Eb & Erel).
  pose proof (rr_dwt (A := pair_ops) (B := ops_of cnt) fuel (rel_in pf) (rel_in px) rel_s true rel_s_0
    (fun s s' f f' x x' Hs Hf Hx => rel_s_add s _ s' _ Hs (rel_s_mul f x f' x' Hf Hx))
    (fun s s' f f' x x' Hs Hf Hx => rel_s_sub s _ s' _ Hs (rel_s_mul f x f' x' Hf Hx))
    z (map emb X) (pair_bank z1 z2 z3 z4) (raw_wavelet (emb_bank b)) m Hm) as G.
  rewrite <- Bx in G. specialize (G (F2_emb px z Cx) Erel). cbn [negb] in G. rewrite Bx in G.
  pose proof (rr_dwt (A := pair_ops) (B := ops_of Rring) fuel (fun q v => snd q = v) (fun q v => snd q = v) (fun q v => snd q = v) false eq_refl) as Gr.
  specialize (Gr ltac:(intros; cbn in *; subst; reflexivity) ltac:(intros; cbn in *; subst; reflexivity)
    z X (pair_bank z1 z2 z3 z4) (raw_wavelet b) m Hm).
  pose proof (rr_dwt (A := pair_ops) (B := fl) fuel (fun q v => fst q = v) (fun q v => fst q = v) (fun q v => fst q = v) false eq_refl) as Gf.
  specialize (Gf ltac:(intros; cbn in *; subst; reflexivity) ltac:(intros; cbn in *; subst; reflexivity)
    z x (pair_bank z1 z2 z3 z4) w m Hm).
  assert (L1 : Forall2 (fun (q : pair_ops) (v : ops_of Rring) => snd q = v) z X) by (rewrite <- Bx; apply F2_snd).
  assert (L2 : Forall2 (fun (q : pair_ops) (v : fl) => fst q = v) z x) by (rewrite <- Ax; apply F2_fst).
  specialize (Gr L1). specialize (Gf L2).
  assert (L3 : rel_wavelet (A := pair_ops) (B := ops_of Rring) (fun q v => snd q = v) (pair_bank z1 z2 z3 z4) (raw_wavelet b))
    by (rewrite Eb; repeat split; cbn; apply F2_snd).
  assert (L4 : rel_wavelet (A := pair_ops) (B := fl) (fun q v => fst q = v) (pair_bank z1 z2 z3 z4) w)
    by (rewrite Ew; repeat split; cbn; apply F2_fst).
  specialize (Gr L3). specialize (Gf L4). cbv beta iota in Gr, Gf.
  rewrite (o_dwt_ring Rring fuel X b m), (dwt_single_spec Rring fuel X b m Hb Hl Hr) in Gr.
  rewrite (o_dwt_ring cnt fuel (map emb X) (emb_bank b)) in G.
  rewrite (dwt_single_spec cnt fuel (map emb X) (emb_bank b) (abs_mode m) emb_wf) in G.
  2:{ rewrite zlen_map. destruct m; exact Hl. } 2:{ rewrite zlen_map, emb_len. exact Hr. }
  destruct (o_dwt_single (O := pair_ops) fuel z (pair_bank z1 z2 z3 z4) m) as [[pA pD]| | |]; cbn in Gr; try contradiction.
  destruct Gr as [GrA GrD]. destruct G as [GA GD]. cbn [fst snd] in *.
  destruct (o_dwt_single fuel x w m) as [[cA cD]| | |]; cbn in Gf; try contradiction. destruct Gf as [GfA GfD]. cbn [fst snd] in *.
  exists cA, cD. split; [reflexivity|].
  apply F2_eq_map in GrA, GrD, GfA, GfD. subst cA cD.
  assert (HF0 : (0 <= F)%Z) by (unfold F, dec_len, zlen; lia).
  assert (W : forall (pl : list pair_ops) (h : list Rring) r, zlen h = F -> Forall2 rel_s pl (analysis (C := cnt) (abs_mode m) (map emb h) (map emb X)) ->
    r = map snd pl -> within F (map fst pl) r (analysis (abs_mode m) (absl h) (absl X))).
  { intros pl h r Hh Hp ->. split; [rewrite !zlen_map; reflexivity|]. intros k Hk. rewrite zlen_map in Hk.
    assert (Ab : abs_mode (abs_mode m) = abs_mode m) by (destruct m; reflexivity). assert (Cp : copying (abs_mode m) = true) by (destruct m; auto).
    eapply Rle_trans; [apply (rel_list_bnd pl _ F k Hp HF0)|].
    - intros j. change (snd (gz (analysis (C := cnt) (abs_mode m) (map emb h) (map emb X)) j)) with
        ((fun t : cnt => snd t : Zring) (gz (analysis (C := cnt) (abs_mode m) (map emb h) (map emb X)) j)).
      rewrite <- (gz_map (D := Zring) (fun t : cnt => snd t) _ j) by reflexivity.
      rewrite (analysis_hom (C := cnt) (D := Zring) (fun t : cnt => snd t)) by (auto; reflexivity).
      rewrite !map_snd_emb. rewrite <- Hh. apply (count_analysis (abs_mode m) h X j Cp Ab).
    - exact Hk.
    - change (fst (gz (analysis (C := cnt) (abs_mode m) (map emb h) (map emb X)) k)) with
        ((fun t : cnt => fst t : Rring) (gz (analysis (C := cnt) (abs_mode m) (map emb h) (map emb X)) k)).
      rewrite <- (gz_map (D := Rring) (fun t : cnt => fst t) _ k) by reflexivity.
      rewrite (analysis_hom (C := cnt) (D := Rring) (fun t : cnt => fst t)) by (auto; reflexivity).
      rewrite !map_fst_emb. apply Rle_refl. }
  destruct Hb as (Hd & _). split; apply W; auto.
Qed.

Theorem idwt_rounded (a d : list fl) (A D : list Rring) m : Forall2 (rounded fl px) a A -> Forall2 (rounded fl px) d D ->
  zlen A = zlen D -> (1 <= zlen A)%Z -> (1 <= rec_len m (zlen A) F)%Z -> resources fuel (zlen A) F ->
  exists y, o_idwt_single fuel a d w m = Ok y /\
    within F y (vadd (synthesis m (rec_lo b) A) (synthesis m (rec_hi b) D))
      (vadd (synthesis m (absl (rec_lo b)) (absl A)) (synthesis m (absl (rec_hi b)) (absl D))).
Proof.
  intros Ha Hd Hl H1 Hrl Hr. destruct (F2_pair _ _ _ Ha) as (za & Aa & Ba & Ca). destruct (F2_pair _ _ _ Hd) as (zd & Ad & Bd & Cd).
  destruct pair_of_bank as (z1 & z2 & z3 & z4 & Ew & Eb & Erel).
  pose proof (rr_idwt (A := pair_ops) (B := ops_of cnt) fuel (rel_in pf) (rel_in px) rel_s false rel_s_0
    (fun s s' f f' x x' Hs Hf Hx => rel_s_add s _ s' _ Hs (rel_s_mul f x f' x' Hf Hx))
    (fun s s' t t' Hs Ht => rel_s_add s t s' t' Hs Ht)) as G.
  pose proof (G za (map emb A) zd (map emb D) (pair_bank z1 z2 z3 z4) (raw_wavelet (emb_bank b)) m) as G'. clear G. rename G' into G.
  rewrite <- Ba, <- Bd in G. specialize (G (F2_emb px za Ca) (F2_emb px zd Cd) Erel). rewrite Ba, Bd in G. cbv beta iota in G.
  pose proof (rr_idwt (A := pair_ops) (B := ops_of Rring) fuel (fun q v => snd q = v) (fun q v => snd q = v) (fun q v => snd q = v) false eq_refl) as Gr.
  specialize (Gr ltac:(intros; cbn in *; subst; reflexivity) ltac:(intros; cbn in *; subst; reflexivity)
    za A zd D (pair_bank z1 z2 z3 z4) (raw_wavelet b) m).
  pose proof (rr_idwt (A := pair_ops) (B := fl) fuel (fun q v => fst q = v) (fun q v => fst q = v) (fun q v => fst q = v) false eq_refl) as Gf.
  specialize (Gf ltac:(intros; cbn in *; subst; reflexivity) ltac:(intros; cbn in *; subst; reflexivity)
    za a zd d (pair_bank z1 z2 z3 z4) w m).
  assert (L1 : Forall2 (fun (q : pair_ops) (v : ops_of Rring) => snd q = v) za A) by (rewrite <- Ba; apply F2_snd).
  assert (L2 : Forall2 (fun (q : pair_ops) (v : fl) => fst q = v) za a) by (rewrite <- Aa; apply F2_fst).
  assert (L1' : Forall2 (fun (q : pair_ops) (v : ops_of Rring) => snd q = v) zd D) by (rewrite <- Bd; apply F2_snd).
  assert (L2' : Forall2 (fun (q : pair_ops) (v : fl) => fst q = v) zd d) by (rewrite <- Ad; apply F2_fst).
  specialize (Gr L1 L1'). specialize (Gf L2 L2').
  assert (L3 : rel_wavelet (A := pair_ops) (B := ops_of Rring) (fun q v => snd q = v) (pair_bank z1 z2 z3 z4) (raw_wavelet b))
    by (rewrite Eb; repeat split; cbn; apply F2_snd).
  assert (L4 : rel_wavelet (A := pair_ops) (B := fl) (fun q v => fst q = v) (pair_bank z1 z2 z3 z4) w)
    by (rewrite Ew; repeat split; cbn; apply F2_fst).
  specialize (Gr L3). specialize (Gf L4). cbv beta iota in Gr, Gf.
  rewrite (o_idwt_ring Rring fuel A D b m), (idwt_single_spec Rring fuel A D b m Hb Hl H1 Hrl Hr) in Gr.
  rewrite (o_idwt_ring cnt fuel (map emb A) (map emb D) (emb_bank b)) in G.
  rewrite (idwt_single_spec cnt fuel (map emb A) (map emb D) (emb_bank b) m emb_wf) in G by (rewrite ?zlen_map, ?emb_len; assumption).
  destruct (o_idwt_single (O := pair_ops) fuel za zd (pair_bank z1 z2 z3 z4) m) as [py| | |]; cbn in Gr; try contradiction.
  destruct (o_idwt_single fuel a d w m) as [y| | |]; cbn in Gf; try contradiction. cbn in G.
  exists y. split; [reflexivity|]. apply F2_eq_map in Gr, Gf. subst y. rewrite Gr.
  destruct Hb as (Hd0 & Hd1 & Hd2 & Hev & HF2). fold F in Hd0, Hd1, Hd2, Hev, HF2.
  split; [rewrite !zlen_map; reflexivity|]. intros k Hk. rewrite zlen_map in Hk.
  assert (HF0 : (0 <= F)%Z) by lia.
  assert (Hs : forall (C : CRing) (h1 h2 c1 c2 : list C), zlen h1 = F -> zlen h2 = F -> zlen c1 = zlen A -> zlen c2 = zlen A ->
    zlen (synthesis m h1 c1) = zlen (synthesis m h2 c2)).
  { intros C h1 h2 c1 c2 E1 E2 E3 E4. rewrite !zlen_synthesis by (rewrite ?E1, ?E2, ?E3, ?E4; lia). congruence. }
  eapply Rle_trans; [apply (rel_list_bnd py _ F k G HF0)|].
  - intros j. change (snd (gz (vadd (C := cnt) (synthesis m (rec_lo (emb_bank b)) (map emb A)) (synthesis m (rec_hi (emb_bank b)) (map emb D))) j)) with
        ((fun t : cnt => snd t : Zring) (gz (vadd (C := cnt) (synthesis m (rec_lo (emb_bank b)) (map emb A)) (synthesis m (rec_hi (emb_bank b)) (map emb D))) j)).
    rewrite <- (gz_map (D := Zring) (fun t : cnt => snd t) _ j) by reflexivity.
    rewrite (vadd_hom (C := cnt) (D := Zring) (fun t : cnt => snd t)) by (intros; reflexivity).
    rewrite !(synthesis_hom (C := cnt) (D := Zring) (fun t : cnt => snd t)) by (intros; reflexivity).
    unfold emb_bank. cbn [rec_lo rec_hi]. rewrite !map_snd_emb.
    rewrite gz_vadd by (apply Hs; unfold ones; rewrite ?zlen_map; first [exact Hd1|exact Hd2|reflexivity|exact (eq_sym Hl)]). change (radd (c := Zring)) with Z.add.
    pose proof (count_synthesis m (rec_lo b) A j ltac:(rewrite Hd1; exact Hev)) as P1. pose proof (count_synthesis m (rec_hi b) D j ltac:(rewrite Hd2; exact Hev)) as P2.
    rewrite Hd1 in P1. rewrite Hd2 in P2. eapply Z.le_trans; [apply Z.add_le_mono; [exact P1|exact P2]|clear -Hev; lia].
  - exact Hk.
  - change (fst (gz (vadd (C := cnt) (synthesis m (rec_lo (emb_bank b)) (map emb A)) (synthesis m (rec_hi (emb_bank b)) (map emb D))) k)) with
        ((fun t : cnt => fst t : Rring) (gz (vadd (C := cnt) (synthesis m (rec_lo (emb_bank b)) (map emb A)) (synthesis m (rec_hi (emb_bank b)) (map emb D))) k)).
    rewrite <- (gz_map (D := Rring) (fun t : cnt => fst t) _ k) by reflexivity.
    rewrite (vadd_hom (C := cnt) (D := Rring) (fun t : cnt => fst t)) by (intros; reflexivity).
    rewrite !(synthesis_hom (C := cnt) (D := Rring) (fun t : cnt => fst t)) by (intros; reflexivity).
    unfold emb_bank. cbn [rec_lo rec_hi]. rewrite !map_fst_emb. apply Rle_refl.
Qed.
End Level.
End Fl.
