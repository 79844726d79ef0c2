(** The continuous wavelet transform along an axis of an array. *)
From Coq Require Import QArith Qround Lqa.
From Verif Require Import Base BaseLemmas Dwt Nd NdSpec Swt Multidim SwtNd Linear Cwt CwtSpec CwtProofs.
Open Scope Z_scope.

(** ** Multi-indices *)
Lemma nthz_ext (l : list Z) : forall l', List.length l = List.length l' -> (forall j, (j < List.length l)%nat -> nthz j l = nthz j l') -> l = l'.
Proof.
  induction l as [|a l IH]; intros [|b l'] L H; cbn in L; try lia; auto. f_equal.
  - apply (H O). cbn. lia.
  - apply IH; [lia|]. intros j Hj. apply (H (S j)). cbn. lia.
Qed.
Lemma valid_iff sh : forall idx, Nd.valid sh idx <-> List.length idx = List.length sh /\ forall j, (j < List.length sh)%nat -> 0 <= nthz j idx < nthz j sh.
Proof.
  induction sh as [|s sh IH]; intros [|i idx]; cbn [Nd.valid List.length].
  - split; auto. intros _. split; auto. intros j Hj. lia.
  - split; [tauto|]. intros (H & _). lia.
  - split; [tauto|]. intros (H & _). lia.
  - rewrite IH. split.
    + intros (H1 & H2 & H3). split; [lia|]. intros [|j] Hj; [exact H1|]. apply H3. lia.
    + intros (H1 & H2). split; [apply (H2 O); lia|]. split; [lia|]. intros j Hj. apply (H2 (S j)). lia.
Qed.
Lemma nthz_swapl a b l j : (a < List.length l)%nat -> (b < List.length l)%nat ->
  nthz j (swapl a b l) = if Nat.eq_dec j a then nthz b l else if Nat.eq_dec j b then nthz a l else nthz j l.
Proof.
  intros Ha Hb. unfold swapl. destruct (Nat.eq_dec j a) as [->|Hja].
  - rewrite nthz_setn by (rewrite setn_length; auto). reflexivity.
  - rewrite nthz_setn_ne by auto. destruct (Nat.eq_dec j b) as [->|Hjb]; [rewrite nthz_setn by auto; reflexivity|]. rewrite nthz_setn_ne by auto. reflexivity.
Qed.
Lemma swapl_length a b l : List.length (swapl a b l) = List.length l.
Proof. unfold swapl. rewrite !setn_length. reflexivity. Qed.
Lemma swapl_swapl a b l : (a < List.length l)%nat -> (b < List.length l)%nat -> swapl b a (swapl a b l) = l.
Proof.
  intros Ha Hb. apply nthz_ext; [rewrite !swapl_length; auto|]. intros j _. rewrite !nthz_swapl by (rewrite ?swapl_length; auto).
  repeat match goal with |- context [Nat.eq_dec ?u ?v] => destruct (Nat.eq_dec u v); try subst end; congruence.
Qed.
Lemma valid_swapl a b sh idx : (a < List.length sh)%nat -> (b < List.length sh)%nat -> Nd.valid sh idx -> Nd.valid (swapl a b sh) (swapl a b idx).
Proof.
  rewrite !valid_iff, !swapl_length. intros Ha Hb (H1 & H2). split; auto. intros j Hj. rewrite !nthz_swapl by lia.
  destruct (Nat.eq_dec j a); [|destruct (Nat.eq_dec j b)]; apply H2; auto.
Qed.
Lemma shape_ok_swapl a b sh : shape_ok sh -> shape_ok (swapl a b sh).
Proof. intros H. unfold swapl. repeat apply shape_ok_setn; auto; apply shape_ok_nth; auto. Qed.

(** Positions along the last axis are consecutive. *)
Lemma prodZ_last sh : sh <> [] -> exists q, prodZ sh = nthz (List.length sh - 1) sh * q.
Proof.
  induction sh as [|s sh IH]; intros H; [congruence|]. destruct sh as [|s' sh]; [exists 1; cbn; lia|].
  destruct IH as (q & E); [congruence|]. exists (s * q). cbn [prodZ List.length] in *. replace (nthz (S (S (List.length sh)) - 1) (s :: s' :: sh)) with (nthz (S (List.length sh) - 1) (s' :: sh)).
  - rewrite E. ring.
  - unfold nthz. cbn [Nat.sub]. rewrite Nat.sub_0_r. reflexivity.
Qed.
Lemma ravel_last sh : forall idx, sh <> [] -> Nd.valid sh idx -> exists q, forall t, ravel sh (setn (List.length sh - 1) t idx) = nthz (List.length sh - 1) sh * q + t.
Proof.
  induction sh as [|s sh IH]; intros [|i idx] H V; cbn [Nd.valid] in V; try tauto; try congruence. destruct sh as [|s' sh].
  - destruct idx; [|cbn in V; tauto]. exists 0. intros t. cbn. lia.
  - destruct V as (V1 & V2). destruct (IH idx ltac:(congruence) V2) as (q & E). destruct (prodZ_last (s' :: sh)) as (r & Er); [congruence|].
    exists (i * r + q). intros t. replace (List.length (s :: s' :: sh) - 1)%nat with (S (List.length (s' :: sh) - 1)) by (cbn; lia).
    cbn [setn]. change (ravel (s :: s' :: sh) (i :: setn (List.length (s' :: sh) - 1) t idx)) with (i * prodZ (s' :: sh) + ravel (s' :: sh) (setn (List.length (s' :: sh) - 1) t idx)).
    rewrite E, Er. change (nthz (S (List.length (s' :: sh) - 1)) (s :: s' :: sh)) with (nthz (List.length (s' :: sh) - 1) (s' :: sh)). ring.
Qed.

Section CN.
Context {C : CRing}.
Add Ring Cring_ring_cwtn : (rth C).

Lemma gz_concat N (ls : list (list C)) : Forall (fun l => zlen l = N) ls -> forall r i, 0 <= r -> 0 <= i < N -> gz (List.concat ls) (r * N + i) = gz (nth (Z.to_nat r) ls []) i.
Proof.
  induction 1 as [|l ls Hl H IH]; intros r i Hr Hi.
  - cbn [List.concat]. rewrite gz_big by (cbn; nia). destruct (Z.to_nat r); rewrite gz_big; auto; cbn; lia.
  - cbn [List.concat]. rewrite gz_app. rewrite Hl. destruct (Z.eq_dec r 0) as [->|Hne].
    + replace (0 * N + i <? N) with true by lia. reflexivity.
    + replace (r * N + i <? N) with false by nia. replace (Z.to_nat r) with (S (Z.to_nat (r - 1))) by lia. cbn [nth]. rewrite <- IH by lia. f_equal. lia.
Qed.
Lemma zlen_concat N (ls : list (list C)) : Forall (fun l => zlen l = N) ls -> zlen (List.concat ls) = zlen ls * N.
Proof. induction 1 as [|l ls Hl H IH]; [reflexivity|]. cbn [List.concat]. rewrite zlen_app, zlen_cons, IH. lia. Qed.
Lemma nth_map_in {A B} (f : A -> B) l d d' n : (n < List.length l)%nat -> nth n (map f l) d' = f (nth n l d).
Proof. intros H. rewrite nth_indep with (d' := f d) by (rewrite map_length; auto). apply map_nth. Qed.
Lemma nth_tab {A} n (f : Z -> A) i d : 0 <= i < n -> nth (Z.to_nat i) (tab n f) d = f i.
Proof.
  intros Hi. unfold tab. rewrite nth_map_in with (d := O) by (rewrite seq_length; lia). rewrite seq_nth by lia. f_equal. lia.
Qed.

(** ** The lines as the rows of the reshaped array *)
Lemma rows_len N (y : nd C) : 0 <= N -> Forall (fun l => zlen l = N) (rows N y).
Proof. intros HN. unfold rows. apply Forall_forall. intros l Hl. apply in_tab in Hl as (r & _ & ->). rewrite zlen_tab; lia. Qed.

Lemma rows_along (T : list C -> list C) (y : nd C) : let last := (List.length (nshape y) - 1)%nat in let N := nthz last (nshape y) in
  nd_wf y -> nshape y <> [] -> 1 <= N -> (forall l, zlen l = N -> zlen (T l) = N) ->
  mkNd (nshape y) (List.concat (map T (rows N y))) = along last N T y.
Proof.
  intros last N Hy Hne HN HT. pose proof Hy as (S1 & S2). destruct (prodZ_last (nshape y) Hne) as (q & Eq). fold last N in Eq.
  assert (Hq : 0 <= q) by (pose proof (prodZ_nonneg _ S1); nia).
  assert (Er : prodZ (nshape y) / N = q) by (rewrite Eq, Z.mul_comm; apply Z.div_mul; lia).
  assert (Lr : zlen (rows N y) = q) by (unfold rows; rewrite Er, zlen_tab; lia).
  assert (F : Forall (fun l => zlen l = N) (map T (rows N y))).
  { apply Forall_forall. intros l Hl. apply in_map_iff in Hl as (l' & <- & Hl'). apply HT. pose proof (rows_len N y ltac:(lia)) as R. rewrite Forall_forall in R. auto. }
  assert (El : (last < List.length (nshape y))%nat) by (unfold last; destruct (nshape y); [congruence|cbn; lia]).
  apply nd_ext.
  - split; auto. cbn [nshape ndata]. rewrite (zlen_concat N) by auto. rewrite zlen_map, Lr, Eq. lia.
  - apply along_wf; auto; lia.
  - rewrite along_shape. cbn [nshape]. symmetry. apply setn_nthz.
  - cbn [nshape]. intros idx V. rewrite ndget_along by (unfold N; rewrite setn_nthz; auto). unfold ndget. cbn [nshape ndata].
    destruct (ravel_last (nshape y) idx Hne V) as (r & R). fold last N in R.
    assert (Ei : ravel (nshape y) idx = r * N + nthz last idx). { rewrite <- (setn_nthz last idx) at 1. rewrite R. lia. }
    assert (Bi : 0 <= nthz last idx < N) by (apply (valid_nth (nshape y)); auto).
    pose proof (ravel_bound _ _ V) as Bd. assert (Hr : 0 <= r < q) by nia.
    rewrite Ei. rewrite (gz_concat N) by (auto; lia). rewrite (nth_map_in T) with (d := []) by (unfold zlen in Lr; lia).
    f_equal. f_equal. unfold rows. rewrite Er. rewrite nth_tab by auto. unfold line. apply tab_ext. intros t Ht. unfold ndget. rewrite R. f_equal. lia.
Qed.

Lemma swapaxes_wf a b (y : nd C) : nd_wf y -> nd_wf (swapaxes a b y).
Proof. intros (H & _). apply ndtab_wf. apply shape_ok_swapl. auto. Qed.
Lemma swap_along (T : list C -> list C) (x : nd C) k m N : nd_wf x -> (k < List.length (nshape x))%nat -> (m < List.length (nshape x))%nat -> N = nthz k (nshape x) ->
  swapaxes k m (along m N T (swapaxes m k x)) = along k N T x.
Proof.
  intros Hx Hk Hm ->. pose proof Hx as (S1 & _). set (y := swapaxes m k x).
  assert (Sy : nshape y = swapl m k (nshape x)) by reflexivity.
  assert (Ny : nthz m (nshape y) = nthz k (nshape x)). { rewrite Sy, nthz_swapl by auto. destruct (Nat.eq_dec m m); congruence. }
  assert (Sa : nshape (along m (nthz k (nshape x)) T y) = swapl m k (nshape x)). { rewrite along_shape, <- Ny, setn_nthz. auto. }
  assert (Sz : swapl k m (swapl m k (nshape x)) = nshape x) by (apply swapl_swapl; auto).
  apply nd_ext.
  - apply swapaxes_wf. apply along_wf; [apply swapaxes_wf; auto|]. apply shape_ok_nth. auto.
  - apply along_wf; auto. apply shape_ok_nth. auto.
  - rewrite along_shape, setn_nthz. unfold swapaxes at 1. change (swapl k m (nshape (along m (nthz k (nshape x)) T y)) = nshape x). rewrite Sa. auto.
  - intros idx V. change (nshape (swapaxes k m (along m (nthz k (nshape x)) T y))) with (swapl k m (nshape (along m (nthz k (nshape x)) T y))) in V. rewrite Sa, Sz in V.
    pose proof (valid_len _ _ V) as Li.
    rewrite ndget_along by (rewrite setn_nthz; auto). unfold swapaxes at 1. rewrite ndget_ndtab by (rewrite Sa, Sz; auto).
    assert (Vs : Nd.valid (nshape y) (swapl k m idx)).
    { rewrite Sy. replace (swapl m k (nshape x)) with (swapl k m (nshape x)).
      - apply valid_swapl; auto.
      - apply nthz_ext; [rewrite !swapl_length; auto|]. intros j _. rewrite !nthz_swapl by auto. destruct (Nat.eq_dec j k), (Nat.eq_dec j m); congruence. }
    rewrite ndget_along by (rewrite <- Ny, setn_nthz; auto).
    assert (Em : nthz m (swapl k m idx) = nthz k idx). { rewrite nthz_swapl by lia. destruct (Nat.eq_dec m k), (Nat.eq_dec m m); congruence. }
    rewrite Em. f_equal. f_equal. unfold line. rewrite Ny. apply tab_ext. intros t Ht. unfold y, swapaxes. rewrite ndget_ndtab.
    + f_equal. apply nthz_ext; [rewrite swapl_length, !setn_length, swapl_length; auto|]. intros j Hj.
      assert (Ls : List.length (setn m t (swapl k m idx)) = List.length idx) by (rewrite setn_length, swapl_length; auto).
      rewrite nthz_swapl by lia.
      assert (Lm : (m < List.length (swapl k m idx))%nat) by (rewrite swapl_length; lia).
      destruct (Nat.eq_dec j m) as [->|Hjm].
      * destruct (Nat.eq_dec m k) as [->|Hmk]; [rewrite !nthz_setn by (rewrite ?swapl_length; lia); auto|]. rewrite !nthz_setn_ne by auto. rewrite nthz_swapl by lia. destruct (Nat.eq_dec k k); congruence.
      * destruct (Nat.eq_dec j k) as [->|Hjk]; [rewrite !nthz_setn by lia; auto|]. rewrite !nthz_setn_ne by auto. rewrite nthz_swapl by lia. destruct (Nat.eq_dec j k); [congruence|]. destruct (Nat.eq_dec j m); congruence.
    + fold (nshape y). rewrite <- Sy. apply valid_setn'; auto. rewrite Ny. auto.
Qed.
End CN.
