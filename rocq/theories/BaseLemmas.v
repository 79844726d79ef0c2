(** Facts about [Base]: loops, buffers, sums. *)
From Verif Require Import Base.

(** * while *)
Lemma while_inv {S : Type} (I : S -> Prop) (m : S -> Z) (c : S -> bool) (b : S -> res S) :
  (forall s, I s -> c s = true -> exists s', b s = Ok s' /\ I s' /\ m s' < m s /\ 0 <= m s) ->
  forall fuel s, I s -> m s + 1 < Z.of_nat fuel -> (0 < fuel)%nat ->
  exists s', while fuel c b s = Ok s' /\ I s' /\ c s' = false.
Proof.
  intros Hb. induction fuel as [|n IH]; intros s Hs Hm Hf; [lia|].
  cbn [while]. destruct (c s) eqn:Hc.
  - destruct (Hb s Hs Hc) as (s' & Hbs & Hs' & Hdec & Hnn).
    rewrite Hbs. cbn [bind].
    destruct n as [|n].
    + lia.
    + apply IH; [exact Hs' | lia | lia].
  - exists s. auto.
Qed.

(** * Buffers *)
Lemma zlen_nonneg {A} (l : list A) : 0 <= zlen l.
Proof. unfold zlen; lia. Qed.

Lemma rd_ok {C : CRing} (l : list C) i : 0 <= i < zlen l -> rd l i = Ok (gz l i).
Proof.
  unfold rd, gz, zlen. intros H. destruct (Z.leb_spec 0 i); [|lia].
  rewrite (nth_error_nth' l r0) by lia. reflexivity.
Qed.

Lemma rd_oob {A} (l : list A) i : i < 0 \/ zlen l <= i -> rd l i = OOB.
Proof.
  unfold rd, zlen. intros H. destruct (Z.leb_spec 0 i); [|reflexivity].
  destruct (nth_error l (Z.to_nat i)) eqn:E; [|reflexivity].
  assert (Z.to_nat i < length l)%nat by (apply nth_error_Some; congruence). lia.
Qed.

Lemma upd_nat_length {A} (l : list A) i v : length (upd_nat l i v) = length l.
Proof. revert i; induction l; intros [|i]; simpl; auto. Qed.

Lemma wr_ok {A} (l : list A) i v : 0 <= i < zlen l -> wr l i v = Ok (upd_nat l (Z.to_nat i) v).
Proof. unfold wr, inb, zlen. intros H. replace _ with true by lia. reflexivity. Qed.

Lemma wr_oob {A} (l : list A) i v : i < 0 \/ zlen l <= i -> wr l i v = OOB.
Proof. unfold wr, inb, zlen. intros H. replace _ with false by lia. reflexivity. Qed.

Lemma upd_nat_nth {A} (l : list A) i v j d :
  (i < length l)%nat -> nth j (upd_nat l i v) d = if Nat.eqb j i then v else nth j l d.
Proof.
  revert i j; induction l as [|h t IH]; simpl; intros i j H; [lia|].
  destruct i, j; simpl; auto. rewrite IH by lia. reflexivity.
Qed.

Lemma zlen_upd {A} (l : list A) i v : zlen (upd_nat l i v) = zlen l.
Proof. unfold zlen; rewrite upd_nat_length; reflexivity. Qed.

Lemma gz_upd {C : CRing} (l : list C) i v j :
  0 <= i < zlen l -> gz (upd_nat l (Z.to_nat i) v) j = if j =? i then v else gz l j.
Proof.
  unfold gz, zlen. intros H. destruct (Z.leb_spec 0 j).
  - rewrite upd_nat_nth by lia.
    destruct (Nat.eqb_spec (Z.to_nat j) (Z.to_nat i)); destruct (Z.eqb_spec j i); try lia; reflexivity.
  - destruct (Z.eqb_spec j i); [lia|reflexivity].
Qed.

Lemma gz_neg {C : CRing} (l : list C) i : i < 0 -> gz l i = r0.
Proof. unfold gz. intros. destruct (Z.leb_spec 0 i); [lia|reflexivity]. Qed.

Lemma gz_big {C : CRing} (l : list C) i : zlen l <= i -> gz l i = r0.
Proof.
  unfold gz, zlen. intros. destruct (Z.leb_spec 0 i); [|reflexivity].
  apply nth_overflow. lia.
Qed.

Lemma gz_map {C D : CRing} (f : C -> D) l i : f r0 = r0 -> gz (map f l) i = f (gz l i).
Proof.
  intros H. unfold gz. destruct (0 <=? i); [|auto].
  rewrite <- H at 1. apply map_nth.
Qed.

Lemma gz_app {C : CRing} (l1 l2 : list C) i :
  gz (l1 ++ l2) i = if i <? zlen l1 then gz l1 i else gz l2 (i - zlen l1).
Proof.
  unfold gz, zlen. destruct (Z.ltb_spec i (Z.of_nat (length l1))).
  - destruct (Z.leb_spec 0 i); auto. apply app_nth1. lia.
  - destruct (Z.leb_spec 0 i); [|lia].
    destruct (Z.leb_spec 0 (i - Z.of_nat (length l1))); [|lia].
    rewrite app_nth2 by lia. f_equal. lia.
Qed.

Lemma gz_cons {C : CRing} (x : C) l i : gz (x :: l) i = if i =? 0 then x else gz l (i - 1).
Proof.
  unfold gz. destruct (Z.eqb_spec i 0); [subst; reflexivity|].
  destruct (Z.leb_spec 0 i).
  - destruct (Z.leb_spec 0 (i-1)); [|lia].
    replace (Z.to_nat i) with (S (Z.to_nat (i-1))) by lia. reflexivity.
  - destruct (Z.leb_spec 0 (i-1)); [lia|]. reflexivity.
Qed.

Lemma gz_repeat0 {C : CRing} n i : gz (repeat (r0 : C) n) i = r0.
Proof.
  unfold gz. destruct (0 <=? i); auto.
  generalize (Z.to_nat i). induction n; intros [|k]; simpl; auto.
Qed.

Lemma gz_rev {C : CRing} (l : list C) i : 0 <= i < zlen l -> gz (rev l) i = gz l (zlen l - 1 - i).
Proof.
  unfold gz, zlen. intros H.
  destruct (Z.leb_spec 0 i); [|lia].
  destruct (Z.leb_spec 0 (Z.of_nat (length l) - 1 - i)); [|lia].
  rewrite rev_nth by lia. f_equal. lia.
Qed.

Lemma zlen_app {A} (l1 l2 : list A) : zlen (l1 ++ l2) = zlen l1 + zlen l2.
Proof. unfold zlen. rewrite app_length. lia. Qed.
Lemma zlen_rev {A} (l : list A) : zlen (rev l) = zlen l.
Proof. unfold zlen. rewrite rev_length. lia. Qed.
Lemma zlen_map {A B} (f : A -> B) (l : list A) : zlen (map f l) = zlen l.
Proof. unfold zlen. rewrite map_length. lia. Qed.
Lemma zlen_repeat {A} (x : A) n : zlen (repeat x n) = Z.of_nat n.
Proof. unfold zlen. rewrite repeat_length. lia. Qed.
Lemma zlen_cons {A} (x : A) l : zlen (x :: l) = zlen l + 1.
Proof. unfold zlen. cbn [length]. lia. Qed.
Lemma zlen_nil {A} : zlen (@nil A) = 0.
Proof. reflexivity. Qed.
Lemma zlen_nil_inv {A} (l : list A) : zlen l = 0 -> l = [].
Proof. destruct l; auto. unfold zlen; cbn [length]; lia. Qed.

Lemma list_ext {C : CRing} (l1 l2 : list C) :
  zlen l1 = zlen l2 -> (forall i, 0 <= i < zlen l1 -> gz l1 i = gz l2 i) -> l1 = l2.
Proof.
  unfold zlen. intros Hl H. apply (nth_ext _ _ r0 r0); [lia|].
  intros n Hn. specialize (H (Z.of_nat n)).
  unfold gz in H. rewrite Nat2Z.id in H.
  destruct (Z.leb_spec 0 (Z.of_nat n)); [|lia]. apply H. lia.
Qed.

Lemma zlen_tab {A} n (f : Z -> A) : 0 <= n -> zlen (tab n f) = n.
Proof. intros. unfold tab. rewrite zlen_map. unfold zlen. rewrite seq_length. lia. Qed.
Lemma zlen_tab_max {A} n (f : Z -> A) : zlen (tab n f) = Z.max 0 n.
Proof. intros. unfold tab. rewrite zlen_map. unfold zlen. rewrite seq_length. lia. Qed.

Lemma gz_tab {C : CRing} n (f : Z -> C) i : 0 <= i < n -> gz (tab n f) i = f i.
Proof.
  intros H. unfold gz, tab. destruct (Z.leb_spec 0 i); [|lia].
  rewrite nth_indep with (d' := (fun k => f (Z.of_nat k)) O) by (rewrite map_length, seq_length; lia).
  rewrite (map_nth (fun k => f (Z.of_nat k))), seq_nth by lia. f_equal. lia.
Qed.

Lemma tab_ext {A} n (f g : Z -> A) : (forall i, 0 <= i < n -> f i = g i) -> tab n f = tab n g.
Proof.
  intros H. unfold tab. apply map_ext_in. intros a Ha. apply in_seq in Ha. apply H. lia.
Qed.

Lemma firstn_tab {A} k n (f : Z -> A) : 0 <= k <= n -> firstn (Z.to_nat k) (tab n f) = tab k f.
Proof.
  intros H. unfold tab. replace (Z.to_nat n) with (Z.to_nat k + Z.to_nat (n - k))%nat by lia.
  rewrite seq_app, map_app, firstn_app, map_length, seq_length, Nat.sub_diag. cbn [firstn].
  rewrite app_nil_r. rewrite firstn_all2; [reflexivity|]. rewrite map_length, seq_length. lia.
Qed.

Lemma tab_gz {C : CRing} (l : list C) : tab (zlen l) (gz l) = l.
Proof.
  apply list_ext.
  - rewrite zlen_tab; auto using zlen_nonneg.
  - intros i Hi. rewrite zlen_tab in Hi by apply zlen_nonneg. apply gz_tab; lia.
Qed.

(** * Rings and sums *)
Section Sums.
Variable C : CRing.
Add Ring Cring_ring : (rth C).

Lemma sumn_ext n (f g : Z -> C) a :
  (forall t, a <= t < a + Z.of_nat n -> f t = g t) -> sumn n f a = sumn n g a.
Proof.
  induction n as [|n IH]; intros H; cbn [sumn]; auto.
  rewrite IH; [rewrite H by lia; reflexivity|]. intros t Ht. apply H. lia.
Qed.

Lemma sumZ_ext a b (f g : Z -> C) :
  (forall t, a <= t < b -> f t = g t) -> sumZ a b f = sumZ a b g.
Proof. intros H. unfold sumZ. apply sumn_ext. intros t Ht. apply H. lia. Qed.

Lemma sumZ_empty a b (f : Z -> C) : b <= a -> sumZ a b f = r0.
Proof. intros H. unfold sumZ. replace (Z.to_nat (b - a)) with O by lia. reflexivity. Qed.

Lemma sumZ_last a b (f : Z -> C) : a <= b -> sumZ a (b + 1) f = sumZ a b f [+] f b.
Proof.
  intros H. unfold sumZ. replace (Z.to_nat (b + 1 - a)) with (S (Z.to_nat (b - a))) by lia.
  cbn [sumn]. f_equal. f_equal. lia.
Qed.

Lemma sumZ_last' a b (f : Z -> C) : a < b -> sumZ a b f = sumZ a (b - 1) f [+] f (b - 1).
Proof. intros H. rewrite <- sumZ_last by lia. f_equal. lia. Qed.

Lemma sumZ_split a m b (f : Z -> C) :
  a <= m <= b -> sumZ a b f = sumZ a m f [+] sumZ m b f.
Proof.
  intros H. replace b with (m + Z.of_nat (Z.to_nat (b - m))) by lia.
  generalize (Z.to_nat (b - m)). induction n as [|n IH].
  - rewrite Z.add_0_r. rewrite (sumZ_empty m m) by lia. ring.
  - replace (m + Z.of_nat (S n)) with (m + Z.of_nat n + 1) by lia.
    rewrite !sumZ_last by lia. rewrite IH. ring.
Qed.

Lemma sumZ_first a b (f : Z -> C) : a < b -> sumZ a b f = f a [+] sumZ (a + 1) b f.
Proof.
  intros H. rewrite (sumZ_split a (a+1) b) by lia. rewrite sumZ_last by lia.
  rewrite sumZ_empty by lia. ring.
Qed.

Lemma sumZ_shift a b d (f : Z -> C) : sumZ a b f = sumZ (a + d) (b + d) (fun t => f (t - d)).
Proof.
  unfold sumZ. replace (b + d - (a + d)) with (b - a) by lia.
  induction (Z.to_nat (b - a)) as [|n IH]; cbn [sumn]; auto.
  rewrite IH. f_equal. f_equal. lia.
Qed.

Lemma sumZ_0 a b : sumZ a b (fun _ => r0) = (r0 : C).
Proof.
  unfold sumZ. induction (Z.to_nat (b - a)) as [|n IH]; cbn [sumn]; auto. rewrite IH. ring.
Qed.

Lemma sumZ_zero a b (f : Z -> C) : (forall t, a <= t < b -> f t = r0) -> sumZ a b f = r0.
Proof. intros H. rewrite (sumZ_ext _ _ f (fun _ => r0)) by exact H. apply sumZ_0. Qed.

Lemma sumZ_add a b (f g : Z -> C) : sumZ a b (fun t => f t [+] g t) = sumZ a b f [+] sumZ a b g.
Proof.
  unfold sumZ. induction (Z.to_nat (b - a)) as [|n IH]; cbn [sumn]; [ring|]. rewrite IH. ring.
Qed.

Lemma sumZ_scal a b c (f : Z -> C) : sumZ a b (fun t => c [*] f t) = c [*] sumZ a b f.
Proof.
  unfold sumZ. induction (Z.to_nat (b - a)) as [|n IH]; cbn [sumn]; [ring|]. rewrite IH. ring.
Qed.

Lemma sumZ_scal_r a b c (f : Z -> C) : sumZ a b (fun t => f t [*] c) = sumZ a b f [*] c.
Proof.
  unfold sumZ. induction (Z.to_nat (b - a)) as [|n IH]; cbn [sumn]; [ring|]. rewrite IH. ring.
Qed.

Lemma sumZ_opp a b (f : Z -> C) : sumZ a b (fun t => [--] f t) = [--] sumZ a b f.
Proof.
  unfold sumZ. induction (Z.to_nat (b - a)) as [|n IH]; cbn [sumn]; [ring|]. rewrite IH. ring.
Qed.

Lemma sumZ_sub a b (f g : Z -> C) : sumZ a b (fun t => f t [-] g t) = sumZ a b f [-] sumZ a b g.
Proof.
  unfold sumZ. induction (Z.to_nat (b - a)) as [|n IH]; cbn [sumn]; [ring|]. rewrite IH. ring.
Qed.

Lemma sumZ_swap a b c d (f : Z -> Z -> C) :
  sumZ a b (fun s => sumZ c d (fun t => f s t)) = sumZ c d (fun t => sumZ a b (fun s => f s t)).
Proof.
  unfold sumZ at 1 4. induction (Z.to_nat (b - a)) as [|n IH]; cbn [sumn].
  - rewrite sumZ_0. reflexivity.
  - rewrite IH. rewrite sumZ_add. reflexivity.
Qed.

Lemma sumZ_rev a b (f : Z -> C) : sumZ a b f = sumZ a b (fun t => f (a + b - 1 - t)).
Proof.
  destruct (Z.le_gt_cases b a); [rewrite !sumZ_empty by lia; reflexivity|].
  replace b with (a + Z.of_nat (Z.to_nat (b - a))) by lia.
  generalize (Z.to_nat (b - a)) as n. clear. intros n. revert f. induction n as [|n IH]; intros f.
  - rewrite !sumZ_empty by lia. reflexivity.
  - replace (a + Z.of_nat (S n)) with (a + Z.of_nat n + 1) by lia.
    rewrite sumZ_last by lia. rewrite (sumZ_first a (a + Z.of_nat n + 1)) by lia.
    rewrite IH. rewrite (sumZ_shift a (a + Z.of_nat n) 1).
    replace (a + (a + Z.of_nat n + 1) - 1 - a) with (a + Z.of_nat n) by lia.
    rewrite (sumZ_ext (a+1) _ _ (fun t => f (a + (a + Z.of_nat n + 1) - 1 - t))).
    + ring.
    + intros t Ht. f_equal. lia.
Qed.

(** extension of the range by zero terms *)
Lemma sumZ_widen a b a' b' (f : Z -> C) :
  a' <= a -> b <= b' ->
  (forall t, a' <= t < b' -> ~ (a <= t < b) -> f t = r0) ->
  sumZ a b f = sumZ a' b' f.
Proof.
  intros Ha Hb H. destruct (Z.le_gt_cases b a) as [Hab|Hab].
  - rewrite sumZ_empty by lia. symmetry. apply sumZ_zero. intros t Ht. apply H; lia.
  - rewrite (sumZ_split a' a b') by lia. rewrite (sumZ_split a b b') by lia.
    rewrite (sumZ_zero a' a), (sumZ_zero b b').
    + ring.
    + intros t Ht. apply H; lia.
    + intros t Ht. apply H; lia.
Qed.

Lemma sumZ_single a b k (f : Z -> C) :
  a <= k < b -> (forall t, a <= t < b -> t <> k -> f t = r0) -> sumZ a b f = f k.
Proof.
  intros Hk H. rewrite (sumZ_split a k b) by lia. rewrite (sumZ_first k b) by lia.
  rewrite !sumZ_zero.
  - ring.
  - intros t Ht. apply H; lia.
  - intros t Ht. apply H; lia.
Qed.

(** splitting of an even range into even and odd terms *)
Lemma sumZ_even_odd n (f : Z -> C) :
  0 <= n -> sumZ 0 (2 * n) f = sumZ 0 n (fun t => f (2 * t)) [+] sumZ 0 n (fun t => f (2 * t + 1)).
Proof.
  intros Hn. replace n with (Z.of_nat (Z.to_nat n)) by lia. generalize (Z.to_nat n). clear.
  induction n as [|n IH].
  - rewrite !sumZ_empty by lia. ring.
  - replace (2 * Z.of_nat (S n)) with (2 * Z.of_nat n + 1 + 1) by lia.
    rewrite !sumZ_last by lia. rewrite IH.
    replace (Z.of_nat (S n)) with (Z.of_nat n + 1) by lia.
    rewrite !sumZ_last by lia. ring.
Qed.

(** integer constants *)
Lemma pos_iter_succ_c p (x : C) : Pos.iter (radd r1) x (Pos.succ p) = r1 [+] Pos.iter (radd r1) x p.
Proof. apply Pos.iter_succ. Qed.

Lemma rz_0 : rz 0 = (r0 : C).
Proof. reflexivity. Qed.

Lemma rz_succ z : rz (z + 1) = (rz z : C) [+] r1.
Proof.
  destruct z as [|p|p].
  - cbn. ring.
  - change (Zpos p + 1) with (Zpos (p + 1)). unfold rz. rewrite Pos.add_1_r, pos_iter_succ_c. ring.
  - destruct (Pos.eq_dec p 1) as [->|Hp].
    + cbn. ring.
    + assert (exists q, p = Pos.succ q) as [q ->].
      { exists (Pos.pred p). rewrite Pos.succ_pred; auto. }
      replace (Zneg (Pos.succ q) + 1) with (Zneg q) by lia.
      unfold rz. rewrite pos_iter_succ_c. ring.
Qed.

Lemma rz_1 : rz 1 = (r1 : C).
Proof. cbn. ring. Qed.

Lemma rz_add x y : rz (x + y) = (rz x : C) [+] rz y.
Proof.
  revert y. apply Z.bi_induction.
  - intros ? ? ->; tauto.
  - rewrite Z.add_0_r, rz_0. ring.
  - intros y. rewrite <- Z.add_1_r, Z.add_assoc, !rz_succ. split; intros H.
    + rewrite H. ring.
    + assert (rz (x + y) = ((rz (x + y) [+] r1) [-] r1 : C)) as -> by ring. rewrite H. ring.
Qed.

Lemma rz_opp x : rz (- x) = [--] (rz x : C).
Proof.
  assert (H : (rz (x + - x) : C) = rz x [+] rz (- x)) by apply rz_add.
  rewrite Z.add_opp_diag_r, rz_0 in H.
  transitivity ((rz x [+] rz (-x)) [-] rz x : C); [ring|]. rewrite <- H. ring.
Qed.

Lemma rz_sub x y : rz (x - y) = (rz x : C) [-] rz y.
Proof. unfold Z.sub. rewrite rz_add, rz_opp. ring. Qed.

Lemma rz_mul x y : rz (x * y) = (rz x : C) [*] rz y.
Proof.
  revert y. apply Z.bi_induction.
  - intros ? ? ->; tauto.
  - rewrite Z.mul_0_r, rz_0. ring.
  - intros y. rewrite <- Z.add_1_r, Z.mul_add_distr_l, Z.mul_1_r, rz_add, rz_succ. split; intros H.
    + rewrite H. ring.
    + transitivity ((rz (x * y) [+] rz x) [-] rz x : C); [ring|]. rewrite H. ring.
Qed.

Lemma rz_2 : rz 2 = (r1 [+] r1 : C).
Proof. replace 2 with (1 + 1) by lia. rewrite rz_succ, rz_1. reflexivity. Qed.

End Sums.

Lemma gz_firstn {C : CRing} (l : list C) n i : 0 <= i < Z.of_nat n -> gz (firstn n l) i = gz l i.
Proof.
  intros H. unfold gz. replace (0 <=? i) with true by lia.
  assert (Hn : (Z.to_nat i < n)%nat) by lia. generalize (Z.to_nat i) Hn. clear. 
  revert n. induction l as [|a l IH]; intros [|n] [|k] H; cbn; auto; try lia. apply IH. lia.
Qed.

Lemma gz_skipn {C : CRing} (l : list C) n i : 0 <= i -> gz (skipn n l) i = gz l (i + Z.of_nat n).
Proof.
  intros H. unfold gz. replace (0 <=? i) with true by lia. replace (0 <=? i + Z.of_nat n) with true by lia.
  replace (Z.to_nat (i + Z.of_nat n)) with (n + Z.to_nat i)%nat by lia. generalize (Z.to_nat i). clear.
  revert n. induction l as [|a l IH]; intros [|n] k; cbn; auto. destruct k; reflexivity.
Qed.
