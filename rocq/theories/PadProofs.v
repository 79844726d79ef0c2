(** pad is the window of the extension used by dwt. *)
From Coq Require Import Ascii String.
From Verif Require Import Base BaseLemmas CConv Spec Instances Lengths Dwt DwtProofs Pad.

(** The name of a mode. *)
Definition mode_name (m : mode) : string :=
  match m with
  | ZEROPAD => "zero" | SYMMETRIC => "symmetric" | CONSTANT_EDGE => "constant" | SMOOTH => "smooth"
  | PERIODIC => "periodic" | PERIODIZATION => "periodization" | REFLECT => "reflect"
  | ANTISYMMETRIC => "antisymmetric" | ANTIREFLECT => "antireflect"
  end.

(** The window [-l, hi) of the extension of [x]. *)
Definition window {C : CRing} (m : mode) (x : list C) (l hi : Z) : list C := tab (l + hi) (fun n => ext m x (n - l)).
(** End of the (in periodization mode: promoted to even length) signal. *)
Definition padded_end (m : mode) (N : Z) : Z := match m with PERIODIZATION => N + N mod 2 | _ => N end.

Section PadProofs.
Variable fuel : nat.
Variable C : CRing.
Add Ring Cr_pad : (rth C).
Implicit Types x v : list C.

Lemma np_pad_window m x l r : min_len m <= zlen x -> m <> PERIODIZATION ->
  np_pad m x l r = Ok (window m x l (zlen x + r)).
Proof.
  intros Hx Hm. unfold np_pad. assert (1 <= zlen x) by (destruct m; cbn in Hx; lia).
  replace (zlen x =? 0) with false by lia. cbn [andb]. unfold window. rewrite <- Z.add_assoc.
  destruct m; try reflexivity; cbn in Hx; replace (zlen x =? 1) with false by lia; reflexivity.
Qed.

Lemma ext_inside m x n : 0 <= n < zlen x -> min_len m <= zlen x -> ext m x n = gz x n.
Proof.
  intros Hn Hx. unfold ext. destruct m; cbn in Hx.
  - replace ((0 <=? n) && (n <? zlen x)) with true by lia. reflexivity.
  - cbv zeta. rewrite (Z.mod_small n (2 * zlen x)) by lia. replace (n <? zlen x) with true by lia. reflexivity.
  - f_equal. lia.
  - destruct (zlen x <? 2) eqn:E.
    + f_equal. lia.
    + replace (n <? 0) with false by lia. replace (n <? zlen x) with true by lia. reflexivity.
  - rewrite (Z.mod_small n (zlen x)) by lia. reflexivity.
  - unfold pext. rewrite (Z.mod_small n) by lia. f_equal. lia.
  - cbv zeta. destruct (Z.eq_dec n (2 * (zlen x - 1))) as [E|E]; [lia|].
    rewrite (Z.mod_small n) by lia. replace (n <=? zlen x - 1) with true by lia. reflexivity.
  - cbv zeta. rewrite (Z.mod_small n (2 * zlen x)) by lia. replace (n <? zlen x) with true by lia. reflexivity.
  - cbv zeta. rewrite (Z.mod_small n) by lia. replace (n <=? zlen x - 1) with true by lia.
    rewrite (Z.div_small n) by lia. change (rz (2 * 0)) with (r0 : C). ring.
Qed.

Lemma py_item_pos v i : 0 <= i < zlen v -> py_item v i = Ok (gz v i).
Proof.
  intros H. unfold py_item. replace (i <? 0) with false by lia. cbv zeta.
  replace ((0 <=? i) && (i <? zlen v)) with true by lia. reflexivity.
Qed.
Lemma py_item_neg v i : i < 0 -> 0 <= i + zlen v -> py_item v i = Ok (gz v (i + zlen v)).
Proof.
  intros H1 H2. unfold py_item. replace (i <? 0) with true by lia. cbv zeta.
  replace ((0 <=? i + zlen v) && (i + zlen v <? zlen v)) with true by lia. reflexivity.
Qed.

(** The zero-padded vector. *)
Definition zpad x l r : list C := window ZEROPAD x l (zlen x + r).
Lemma zlen_zpad x l r : 0 <= l -> 0 <= r -> zlen (zpad x l r) = l + zlen x + r.
Proof. intros. unfold zpad, window. pose proof (zlen_nonneg x). rewrite zlen_tab; lia. Qed.
Lemma gz_zpad x l r n : 0 <= n < l + zlen x + r -> gz (zpad x l r) n = gz x (n - l).
Proof.
  intros H. unfold zpad, window. rewrite gz_tab by lia. cbn [ext].
  destruct ((0 <=? n - l) && (n - l <? zlen x)) eqn:E; auto. symmetry.
  destruct (Z_lt_dec (n - l) 0); [apply gz_neg; lia|apply gz_big; lia].
Qed.

Lemma pad_smooth_spec x l r : 2 <= zlen x -> 0 <= l -> 1 <= r ->
  pad_smooth (zpad x l r) l r = Ok (window SMOOTH x l (zlen x + r)).
Proof.
  intros Hx Hl Hr. unfold pad_smooth. pose proof (zlen_zpad x l r Hl ltac:(lia)) as Hz.
  rewrite py_item_pos by (rewrite Hz; lia). cbn [bind].
  rewrite py_item_pos by (rewrite Hz; lia). cbn [bind]. cbv zeta.
  rewrite !gz_zpad by lia. replace (l - l) with 0 by lia. replace (l + 1 - l) with 1 by lia.
  set (v1 := set_slice _ _ _ _). assert (Hv1 : zlen v1 = l + zlen x + r) by (unfold v1, set_slice; rewrite zlen_tab; lia).
  assert (Hg : forall n, 0 <= n < l + zlen x + r -> gz v1 n = if n <? l then gz x 0 [+] rz (l - n) [*] (gz x 0 [-] gz x 1) else gz x (n - l)).
  { intros n Hn. unfold v1, set_slice. rewrite gz_tab by lia. replace (0 <=? n) with true by lia. cbn [andb].
    destruct (n <? l); [now rewrite Z.sub_0_r|]. apply gz_zpad. lia. }
  rewrite py_item_neg by (try rewrite Hv1; lia). cbn [bind].
  rewrite py_item_neg by (try rewrite Hv1; lia). cbn [bind].
  rewrite Hv1, !Hg by lia. replace (r =? 0) with false by lia. f_equal. unfold set_slice, window. rewrite Hv1.
  replace (l + (zlen x + r)) with (l + zlen x + r) by lia. apply tab_ext. intros n Hn.
  replace (- r - 1 + (l + zlen x + r) <? l) with false by lia. replace (- r - 2 + (l + zlen x + r) <? l) with false by lia.
  replace (- r - 1 + (l + zlen x + r) - l) with (zlen x - 1) by lia. replace (- r - 2 + (l + zlen x + r) - l) with (zlen x - 2) by lia.
  cbn [ext]. replace (zlen x <? 2) with false by lia.
  destruct (Z_lt_dec n l) as [H1|H1].
  - replace ((l + zlen x + r - r <=? n) && (n <? l + zlen x + r)) with false by lia. rewrite Hg by lia.
    replace (n <? l) with true by lia. replace (n - l <? 0) with true by lia. do 3 f_equal. lia.
  - replace (n - l <? 0) with false by lia. destruct (Z_lt_dec n (l + zlen x)) as [H2|H2].
    + replace ((l + zlen x + r - r <=? n) && (n <? l + zlen x + r)) with false by lia. rewrite Hg by lia.
      replace (n <? l) with false by lia. replace (n - l <? zlen x) with true by lia. reflexivity.
    + replace ((l + zlen x + r - r <=? n) && (n <? l + zlen x + r)) with true by lia.
      replace (n - l <? zlen x) with false by lia. do 3 f_equal. lia.
Qed.

Lemma pad_smooth_r0 v l : 0 <= l -> l + 2 <= zlen v -> pad_smooth v l 0 = Err ValueError.
Proof.
  intros Hl Hv. unfold pad_smooth. rewrite py_item_pos by lia. cbn [bind]. rewrite py_item_pos by lia. cbn [bind]. cbv zeta.
  set (v1 := set_slice _ _ _ _). assert (Hv1 : zlen v1 = zlen v) by (unfold v1, set_slice; rewrite zlen_tab; lia).
  change (- (0) - 1) with (-1). change (- (0) - 2) with (-2).
  rewrite py_item_neg by (try rewrite Hv1; lia). cbn [bind]. rewrite py_item_neg by (try rewrite Hv1; lia). reflexivity.
Qed.

(** A single sample: the padding zeros are taken for its neighbours. *)
Lemma pad_smooth_one (a : C) l r : 1 <= l -> 1 <= r ->
  pad_smooth (zpad [a] l r) l r =
    Ok (tab (l + 1 + r) (fun n => if n <? l then a [+] rz (l - n) [*] a else a [-] rz (n - l) [*] a)).
Proof.
  intros Hl Hr. unfold pad_smooth. pose proof (zlen_zpad [a] l r ltac:(lia) ltac:(lia)) as Hz. change (zlen [a]) with 1 in Hz.
  rewrite py_item_pos by (rewrite Hz; lia). cbn [bind].
  rewrite py_item_pos by (rewrite Hz; lia). cbn [bind]. cbv zeta.
  rewrite !gz_zpad by (change (zlen [a]) with 1; lia). replace (l - l) with 0 by lia. replace (l + 1 - l) with 1 by lia.
  change (gz [a] 0) with a. change (gz [a] 1) with (r0 : C).
  set (v1 := set_slice _ _ _ _). assert (Hv1 : zlen v1 = l + 1 + r) by (unfold v1, set_slice; rewrite zlen_tab; lia).
  assert (Hg : forall n, 0 <= n < l + 1 + r -> gz v1 n = if n <? l then a [+] rz (l - n) [*] (a [-] r0) else gz [a] (n - l)).
  { intros n Hn. unfold v1, set_slice. rewrite gz_tab by lia. replace (0 <=? n) with true by lia. cbn [andb].
    destruct (n <? l); [now rewrite Z.sub_0_r|]. apply gz_zpad. change (zlen [a]) with 1. lia. }
  rewrite py_item_neg by (try rewrite Hv1; lia). cbn [bind].
  rewrite py_item_neg by (try rewrite Hv1; lia). cbn [bind].
  rewrite Hv1, !Hg by lia. replace (r =? 0) with false by lia. f_equal. unfold set_slice. rewrite Hv1.
  apply tab_ext. intros n Hn.
  replace (- r - 1 + (l + 1 + r) <? l) with false by lia. replace (- r - 2 + (l + 1 + r) <? l) with true by lia.
  replace (- r - 1 + (l + 1 + r) - l) with 0 by lia. replace (l - (- r - 2 + (l + 1 + r))) with 1 by lia. change (gz [a] 0) with a.
  rewrite rz_1. destruct (Z_lt_dec n (l + 1)) as [H1|H1].
  - replace ((l + 1 + r - r <=? n) && (n <? l + 1 + r)) with false by lia. rewrite Hg by lia.
    destruct (n <? l) eqn:E; [ring|]. replace (n - l) with 0 by lia. change (gz [a] 0) with a. rewrite rz_0. ring.
  - replace ((l + 1 + r - r <=? n) && (n <? l + 1 + r)) with true by lia. replace (n <? l) with false by lia.
    replace (n - (l + 1 + r - r) + 1) with (n - l) by lia. ring.
Qed.

(** Antisymmetric padding: sign flips of the symmetric padding. *)
Definition flipped x l r (flip : Z -> bool) : list C :=
  tab (l + zlen x + r) (fun n => if flip n then [--] ext SYMMETRIC x (n - l) else ext SYMMETRIC x (n - l)).
Lemma flipped_ext x l r f g : (forall n, 0 <= n < l + zlen x + r -> f n = g n) -> flipped x l r f = flipped x l r g.
Proof. intros H. apply tab_ext. intros n Hn. rewrite (H n Hn). reflexivity. Qed.
Lemma negate_flipped x l r f a b : 0 <= l -> 0 <= r -> (forall n, a <= n < b -> f n = false) ->
  negate (flipped x l r f) a b = flipped x l r (fun n => f n || ((a <=? n) && (n <? b))).
Proof.
  intros Hl Hr H. unfold negate. pose proof (zlen_nonneg x). assert (Hz : zlen (flipped x l r f) = l + zlen x + r) by (unfold flipped; rewrite zlen_tab; lia).
  rewrite Hz. unfold flipped at 2. apply tab_ext. intros n Hn. unfold flipped. rewrite gz_tab by lia.
  destruct ((a <=? n) && (n <? b)) eqn:E.
  - rewrite H by lia. reflexivity.
  - now rewrite Bool.orb_false_r.
Qed.

Lemma odd_mod2 n : Z.odd n = negb (n mod 2 =? 0).
Proof. rewrite Zmod_odd. destruct (Z.odd n); reflexivity. Qed.

Lemma flip_right x l r : 1 <= zlen x -> 0 <= l -> 0 <= r -> l + zlen x + r + 4 < Z.of_nat fuel ->
  exists e k, while fuel (fun '(r_edge, n, vp) => r_edge <=? zlen vp)
    (fun '(r_edge, n, vp) =>
       let vp := if n mod 2 =? 0 then vp
                 else negate vp (r_edge + 1) (Z.min (r_edge + 1 + zlen x) (zlen vp)) in
       Ok (r_edge + zlen x, n + 1, vp)) (l + zlen x - 1, 1, flipped x l r (fun _ => false))
  = Ok (e, k, flipped x l r (fun n => (l <=? n) && Z.odd ((n - l) / zlen x))).
Proof.
  intros Hx Hl Hr Hf. set (N := zlen x) in *.
  assert (Hz : forall f, zlen (flipped x l r f) = l + N + r) by (intros; unfold flipped; rewrite zlen_tab; lia).
  destruct (while_inv
    (fun '(e, k, v) => 1 <= k /\ e = l + k * N - 1 /\ v = flipped x l r (fun n => (l <=? n) && (n <=? e) && Z.odd ((n - l) / N)))
    (fun '(e, k, v) => l + N + r - e)
    (fun '(r_edge, n, vp) => r_edge <=? zlen vp)
    (fun '(r_edge, n, vp) =>
       let vp := if n mod 2 =? 0 then vp
                 else negate vp (r_edge + 1) (Z.min (r_edge + 1 + N) (zlen vp)) in
       Ok (r_edge + N, n + 1, vp))) with (fuel := fuel) (s := (l + N - 1, 1, flipped x l r (fun _ => false))) as (((e & k) & v) & E & (H1 & H2 & H3) & Hc).
  - intros ((e & k) & v) (H1 & H2 & H3) Hc. eexists. split; [reflexivity|]. cbv beta iota.
    assert (Hv : zlen v = l + N + r) by (rewrite H3; apply Hz).
    split; [|split; [|rewrite Hv in Hc; lia]]; [|lia].
    split; [lia|]. split; [lia|]. cbv zeta. rewrite Hv.
    assert (Hq : forall n, e < n <= e + N -> (n - l) / N = k).
    { intros n Hn. symmetry. apply (Z.div_unique (n - l) N k (n - l - k * N)); lia. }
    destruct (k mod 2 =? 0) eqn:Ek.
    + rewrite H3. apply flipped_ext. intros n Hn. destruct (Z_le_dec n e) as [D|D].
      * replace (n <=? e) with true by lia. replace (n <=? e + N) with true by lia. reflexivity.
      * replace (n <=? e) with false by lia. rewrite Bool.andb_false_r, Bool.andb_false_l.
        destruct (n <=? e + N) eqn:D2; [|rewrite Bool.andb_false_r; reflexivity]. rewrite (Hq n) by lia. rewrite odd_mod2, Ek. cbn [negb]. rewrite Bool.andb_false_r. reflexivity.
    + rewrite H3, negate_flipped; [|lia|lia|].
      * apply flipped_ext. intros n Hn. destruct (Z_le_dec n e) as [D|D].
        -- replace (n <=? e) with true by lia. replace (n <=? e + N) with true by lia. replace (e + 1 <=? n) with false by lia. rewrite Bool.orb_false_r. reflexivity.
        -- replace (n <=? e) with false by lia. rewrite Bool.andb_false_r, Bool.andb_false_l. cbn [orb]. destruct (Z_le_dec n (e + N)) as [D2|D2].
           ++ rewrite (Hq n) by lia. rewrite odd_mod2, Ek. cbn [negb]. lia.
           ++ replace (n <=? e + N) with false by lia. rewrite Bool.andb_false_r, Bool.andb_false_l. lia.
      * intros n Hn. replace (n <=? e) with false by lia. rewrite Bool.andb_false_r. reflexivity.
  - split; [lia|]. split; [lia|]. apply flipped_ext. intros n Hn. symmetry.
    destruct ((l <=? n) && (n <=? l + N - 1)) eqn:D; [|reflexivity]. rewrite (Z.div_small (n - l) N) by lia. reflexivity.
  - lia.
  - lia.
  - exists e, k. rewrite E. do 2 f_equal. rewrite H3. apply flipped_ext. intros n Hn. cbv beta iota in Hc.
    rewrite H3, Hz in Hc. replace (n <=? e) with true by lia. rewrite Bool.andb_true_r. reflexivity.
Qed.

Lemma flip_left x l r : 1 <= zlen x -> 0 <= l -> 0 <= r -> l + zlen x + r + 4 < Z.of_nat fuel ->
  exists e k, while fuel (fun '(l_edge, n, vp) => 0 <=? l_edge)
    (fun '(l_edge, n, vp) =>
       let vp := if n mod 2 =? 0 then vp
                 else negate vp (Z.max 0 (l_edge - zlen x)) l_edge in
       Ok (l_edge - zlen x, n + 1, vp)) (l, 1, flipped x l r (fun n => (l <=? n) && Z.odd ((n - l) / zlen x)))
  = Ok (e, k, flipped x l r (fun n => Z.odd ((n - l) / zlen x))).
Proof.
  intros Hx Hl Hr Hf. set (N := zlen x) in *.
  assert (Hz : forall f, zlen (flipped x l r f) = l + N + r) by (intros; unfold flipped; rewrite zlen_tab; lia).
  destruct (while_inv
    (fun '(e, k, v) => 1 <= k /\ e = l - (k - 1) * N /\ v = flipped x l r (fun n => (e <=? n) && Z.odd ((n - l) / N)))
    (fun s : Z * Z * list C => fst (fst s))
    (fun '(l_edge, n, vp) => 0 <=? l_edge)
    (fun '(l_edge, n, vp) =>
       let vp := if n mod 2 =? 0 then vp
                 else negate vp (Z.max 0 (l_edge - N)) l_edge in
       Ok (l_edge - N, n + 1, vp))) with (fuel := fuel) (s := (l, 1, flipped x l r (fun n => (l <=? n) && Z.odd ((n - l) / N)))) as (((e & k) & v) & E & (H1 & H2 & H3) & Hc).
  - intros ((e & k) & v) (H1 & H2 & H3) Hc. eexists. split; [reflexivity|]. cbv beta iota.
    split; [|cbn [fst]; split; lia].
    split; [lia|]. split; [lia|]. cbv zeta.
    assert (Hq : forall n, e - N <= n < e -> (n - l) / N = - k).
    { intros n Hn. symmetry. apply (Z.div_unique (n - l) N (- k) (n - l + k * N)); lia. }
    assert (Ho : Z.odd (- k) = Z.odd k) by apply Z.odd_opp.
    destruct (k mod 2 =? 0) eqn:Ek.
    + rewrite H3. apply flipped_ext. intros n Hn. destruct (Z_le_dec e n) as [D|D].
      * replace (e <=? n) with true by lia. replace (e - N <=? n) with true by lia. reflexivity.
      * replace (e <=? n) with false by lia. rewrite Bool.andb_false_l.
        destruct (e - N <=? n) eqn:D2; [|reflexivity]. rewrite (Hq n) by lia. rewrite Ho, odd_mod2, Ek. reflexivity.
    + rewrite H3, negate_flipped; [|lia|lia|].
      * apply flipped_ext. intros n Hn. destruct (Z_le_dec e n) as [D|D].
        -- replace (e <=? n) with true by lia. replace (e - N <=? n) with true by lia. replace (n <? e) with false by lia. rewrite Bool.andb_false_r, Bool.orb_false_r. reflexivity.
        -- replace (e <=? n) with false by lia. rewrite Bool.andb_false_l. cbn [orb]. destruct (Z_le_dec (e - N) n) as [D2|D2].
           ++ rewrite (Hq n) by lia. rewrite Ho, odd_mod2, Ek. cbn [negb]. lia.
           ++ replace (e - N <=? n) with false by lia. rewrite Bool.andb_false_l. lia.
      * intros n Hn. replace (e <=? n) with false by lia. reflexivity.
  - split; [lia|]. split; [lia|]. reflexivity.
  - cbn [fst]. lia.
  - lia.
  - exists e, k. rewrite E. do 2 f_equal. rewrite H3. apply flipped_ext. intros n Hn. cbv beta iota in Hc.
    replace (e <=? n) with true by lia. reflexivity.
Qed.

Lemma ext_antisymmetric x n : 1 <= zlen x ->
  ext ANTISYMMETRIC x n = if Z.odd (n / zlen x) then [--] ext SYMMETRIC x n else ext SYMMETRIC x n.
Proof.
  intros Hx. cbn [ext]. cbv zeta. set (N := zlen x) in *.
  assert (Hr : n mod (2 * N) = n mod N + N * ((n / N) mod 2)) by (rewrite Z.mul_comm, Z.rem_mul_r by lia; lia).
  pose proof (Z.mod_pos_bound n N ltac:(lia)). rewrite odd_mod2. rewrite Zmod_odd in *. destruct (Z.odd (n / N)).
  - replace (n mod (2 * N) <? N) with false by lia. reflexivity.
  - replace (n mod (2 * N) <? N) with true by lia. reflexivity.
Qed.

Lemma slice_zpad x l r : 0 <= l -> 0 <= r -> slice_neg (zpad x l r) l r = x.
Proof.
  intros Hl Hr. pose proof (zlen_nonneg x). unfold slice_neg. rewrite zlen_zpad by lia. apply list_ext.
  - unfold zlen. rewrite firstn_length, skipn_length. pose proof (zlen_zpad x l r Hl Hr) as Hz. unfold zlen in *. lia.
  - intros i Hi. unfold zlen in Hi at 1. rewrite firstn_length, skipn_length in Hi. rewrite gz_firstn by lia. rewrite gz_skipn by lia.
    pose proof (zlen_zpad x l r Hl Hr) as Hz. unfold zlen in Hz at 1. rewrite gz_zpad by lia. f_equal. lia.
Qed.

Lemma pad_antisymmetric_spec x l r : 1 <= zlen x -> 0 <= l -> 1 <= r -> l + zlen x + r + 4 < Z.of_nat fuel ->
  pad_antisymmetric fuel (zpad x l r) l r = Ok (window ANTISYMMETRIC x l (zlen x + r)).
Proof.
  intros Hx Hl Hr Hf. unfold pad_antisymmetric. cbv zeta. rewrite zlen_zpad by lia. replace (r =? 0) with false by lia.
  rewrite slice_zpad by lia. rewrite np_pad_window by (cbn; try lia; discriminate). cbn [bind].
  assert (Hw : window SYMMETRIC x l (zlen x + r) = flipped x l r (fun _ => false)) by (unfold window, flipped; f_equal; lia).
  assert (Hz : zlen (window SYMMETRIC x l (zlen x + r)) = l + zlen x + r) by (unfold window; rewrite zlen_tab; lia).
  rewrite Hz, Z.eqb_refl. cbn [negb]. replace (l + zlen x + r - l - r) with (zlen x) by lia. rewrite Hw.
  destruct (flip_right x l r Hx Hl ltac:(lia) Hf) as (e & k & E). cbv zeta in E. rewrite E. cbn [bind].
  destruct (flip_left x l r Hx Hl ltac:(lia) Hf) as (e' & k' & E'). cbv zeta in E'. rewrite E'. cbn [bind]. f_equal.
  unfold flipped, window. rewrite Z.add_assoc. apply tab_ext. intros n Hn. symmetry. apply ext_antisymmetric. auto.
Qed.

Lemma pad_antisymmetric_r0 x l : 1 <= zlen x -> 0 <= l -> pad_antisymmetric fuel (zpad x l 0) l 0 = Err ValueError.
Proof.
  intros Hx Hl. unfold pad_antisymmetric. cbv zeta. cbn [Z.eqb]. unfold np_pad. change (zlen (@nil C)) with 0.
  destruct (l =? 0) eqn:E; cbn [Z.eqb negb andb bind].
  - rewrite zlen_zpad by lia. rewrite zlen_tab by lia. replace (l + 0 + 0 =? l + zlen x + 0) with false by lia. reflexivity.
  - reflexivity.
Qed.

(** pad in every mode. *)
Theorem pad_spec x l r m : min_len m <= zlen x -> 0 <= l -> 0 <= r -> l + zlen x + r + 4 < Z.of_nat fuel ->
  (m = SMOOTH -> 2 <= zlen x /\ 1 <= r) -> (m = ANTISYMMETRIC -> 1 <= r) ->
  pad fuel x l r (mode_name m) = Ok (window m x l (padded_end m (zlen x) + r)).
Proof.
  intros Hx Hl Hr Hf Hs Ha. unfold pad. replace (Z.min l r <? 0) with false by lia.
  destruct m; cbn [mode_name padded_end]; cbn in Hx.
  - apply (np_pad_window ZEROPAD); [cbn; lia|discriminate].
  - apply (np_pad_window SYMMETRIC); [cbn; lia|discriminate].
  - apply (np_pad_window CONSTANT_EDGE); [cbn; lia|discriminate].
  - change (np_pad_with pad_smooth x l r = Ok (window SMOOTH x l (zlen x + r))). unfold np_pad_with.
    rewrite np_pad_window by (cbn; try lia; discriminate). cbn [bind]. apply pad_smooth_spec; try tauto; lia.
  - apply (np_pad_window PERIODIC); [cbn; lia|discriminate].
  - change ((x0 <- np_pad CONSTANT_EDGE x 0 (zlen x mod 2);; np_pad PERIODIC x0 l r) = Ok (window PERIODIZATION x l (zlen x + zlen x mod 2 + r))).
    rewrite np_pad_window by (cbn; try lia; discriminate). cbn [bind].
    set (x' := window CONSTANT_EDGE x 0 (zlen x + zlen x mod 2)).
    assert (Hz : zlen x' = zlen x + zlen x mod 2) by (unfold x', window; rewrite zlen_tab; lia).
    rewrite np_pad_window by (cbn; try lia; discriminate). rewrite Hz. f_equal. unfold window. apply tab_ext. intros n Hn.
    cbn [ext]. rewrite Hz. unfold pext. pose proof (Z.mod_pos_bound (n - l) (zlen x + zlen x mod 2) ltac:(lia)) as Hb.
    set (q := (n - l) mod (zlen x + zlen x mod 2)) in *. unfold x', window. rewrite gz_tab by lia. cbn [ext]. f_equal. lia.
  - apply (np_pad_window REFLECT); [cbn; lia|discriminate].
  - change (np_pad_with (pad_antisymmetric fuel) x l r = Ok (window ANTISYMMETRIC x l (zlen x + r))). unfold np_pad_with.
    rewrite np_pad_window by (cbn; try lia; discriminate). cbn [bind]. apply pad_antisymmetric_spec; auto; lia.
  - apply (np_pad_window ANTIREFLECT); [cbn; lia|discriminate].
Qed.

Theorem pad_no_right_width x l : 2 <= zlen x -> 0 <= l ->
  pad fuel x l 0 "smooth" = Err ValueError /\ pad fuel x l 0 "antisymmetric" = Err ValueError.
Proof.
  intros Hx Hl. unfold pad. replace (Z.min l 0 <? 0) with false by lia. split.
  - change (np_pad_with pad_smooth x l 0 = Err ValueError). unfold np_pad_with. rewrite np_pad_window by (cbn; try lia; discriminate). cbn [bind].
    apply pad_smooth_r0; auto. fold (zpad x l 0). rewrite zlen_zpad; lia.
  - change (np_pad_with (pad_antisymmetric fuel) x l 0 = Err ValueError). unfold np_pad_with. rewrite np_pad_window by (cbn; try lia; discriminate). cbn [bind].
    apply pad_antisymmetric_r0; lia.
Qed.

Theorem pad_negative x l r m : l < 0 \/ r < 0 -> pad fuel x l r m = Err ValueError.
Proof. intros H. unfold pad. replace (Z.min l r <? 0) with true by lia. reflexivity. Qed.

Theorem pad_unknown x l r s : (forall m, s <> mode_name m) -> pad fuel x l r s = Err ValueError.
Proof.
  intros H. unfold pad. destruct (Z.min l r <? 0); auto.
  repeat match goal with |- context [String.eqb s ?b] => let E := fresh in destruct (String.eqb_spec s b) as [E|E];
    [exfalso; first [apply (H ZEROPAD E)|apply (H SYMMETRIC E)|apply (H CONSTANT_EDGE E)|apply (H SMOOTH E)|apply (H PERIODIC E)
      |apply (H PERIODIZATION E)|apply (H REFLECT E)|apply (H ANTISYMMETRIC E)|apply (H ANTIREFLECT E)]|clear E] end.
  reflexivity.
Qed.

(** dwt of the padded signal contains the dwt of the signal. *)
Lemma analysis_window m m' h x l r k : min_len m <= zlen x -> m <> PERIODIZATION -> m' <> PERIODIZATION ->
  min_len m' <= l + zlen x + r ->
  0 <= l -> l mod 2 = 0 -> zlen h - 2 <= l -> zlen h - 1 <= r -> 1 <= zlen h -> 0 <= k < coeff_len m (zlen x) (zlen h) ->
  gz (analysis m' h (window m x l (zlen x + r))) (k + l / 2) = gz (analysis m h x) k.
Proof.
  intros Hx Hm Hm' Hx' Hl0 Hle Hl Hr Hh Hk. pose proof (zlen_nonneg x).
  assert (Hz : zlen (window m x l (zlen x + r)) = l + zlen x + r) by (unfold window; rewrite zlen_tab; lia).
  unfold analysis. rewrite Hz.
  assert (Hc : forall m N F, m <> PERIODIZATION -> coeff_len m N F = (N + F - 1) / 2) by (intros m0 N F; destruct m0; try reflexivity; congruence).
  assert (Hp : forall m F, m <> PERIODIZATION -> first_pos m F = 1) by (intros m0 F; destruct m0; try reflexivity; congruence).
  rewrite (Hc m) in * by auto. rewrite (Hc m') by auto. rewrite (Hp m), (Hp m') by auto.
  rewrite gz_tab by lia. rewrite gz_tab by lia. unfold conv. apply sumZ_ext. intros j Hj. f_equal.
  rewrite ext_inside by (try rewrite Hz; lia). unfold window. rewrite gz_tab by lia. f_equal. lia.
Qed.

Theorem dwt_of_padded m m' w x l r p cA cD :
  wf_bank w -> min_len m <= zlen x -> m <> PERIODIZATION -> m' <> PERIODIZATION ->
  (m = SMOOTH -> 2 <= zlen x) -> l mod 2 = 0 -> dec_len w <= l -> dec_len w <= r -> l + zlen x + r + 4 < Z.of_nat fuel ->
  resources fuel (l + zlen x + r) (dec_len w) ->
  pad fuel x l r (mode_name m) = Ok p -> dwt fuel x w m = Ok (cA, cD) ->
  exists pA pD, dwt fuel p w m' = Ok (pA, pD) /\
    (forall k, 0 <= k < zlen cA -> gz pA (k + l / 2) = gz cA k) /\ (forall k, 0 <= k < zlen cD -> gz pD (k + l / 2) = gz cD k).
Proof.
  intros Hw Hx Hm Hm' Hs Hle Hl Hr Hf Hres Ep Ed. pose proof Hw as (W1 & W2 & W3 & W4 & W5). pose proof (zlen_nonneg x).
  rewrite pad_spec in Ep by (try lia; intros; try split; auto; lia). injection Ep as <-.
  replace (padded_end m (zlen x)) with (zlen x) by (destruct m; auto; congruence).
  assert (Hz : zlen (window m x l (zlen x + r)) = l + zlen x + r) by (unfold window; rewrite zlen_tab; lia).
  assert (Hres0 : resources fuel (zlen x) (dec_len w)) by (unfold resources in *; lia).
  unfold dwt in *. rewrite dwt_single_spec in Ed by auto. injection Ed as <- <-.
  rewrite dwt_single_spec; [|auto|rewrite Hz; destruct m'; cbn; lia|rewrite Hz; auto].
  eexists. eexists. split; [reflexivity|].
  assert (L : forall h, zlen h = dec_len w -> zlen (analysis m h x) = coeff_len m (zlen x) (zlen h)).
  { intros h Hh. unfold analysis. rewrite zlen_tab; auto. rewrite Hh. destruct m; cbn; lia. }
  split; intros k Hk; apply analysis_window; unfold dec_len in *; auto; try lia; try (destruct m'; cbn; lia); rewrite L in Hk by (unfold dec_len; lia); lia.
Qed.

(** downcoef / upcoef part argument. *)
Lemma str_in_ad s : str_in s "ad" = true <-> In s [""; "a"; "d"; "ad"]%string.
Proof.
  split.
  - intros H. destruct s as [|c s]; [cbn; auto|].
    cbn [str_in] in H. change (prefix (String c s) "") with false in H. cbn [orb] in H.
    rewrite !Bool.orb_false_r in H. cbn [prefix] in H.
    destruct (ascii_dec c "a") as [->|Na].
    + cbn in H. destruct s as [|c2 s]; [cbn; auto|]. rewrite Bool.orb_false_r in H. cbn [prefix] in H.
      destruct (ascii_dec c2 "d") as [->|]; [|discriminate]. destruct s; [cbn; auto|discriminate].
    + cbn [orb] in H. destruct (ascii_dec c "d") as [->|]; [|discriminate]. destruct s; [cbn; auto|discriminate].
  - cbn. intros [<-|[<-|[<-|[<-|[]]]]]; reflexivity.
Qed.

Theorem downcoef_part s x w m level :
  (In s [""; "a"; "d"; "ad"]%string -> py_downcoef fuel s x w m level = downcoef fuel (String.eqb s "a") x w m level) /\
  (~ In s [""; "a"; "d"; "ad"]%string -> py_downcoef fuel s x w m level = Err ValueError).
Proof.
  unfold py_downcoef. split; intros H.
  - apply str_in_ad in H. rewrite H. reflexivity.
  - destruct (str_in s "ad") eqn:E; [apply str_in_ad in E; tauto|reflexivity].
Qed.
Theorem upcoef_part s (c : list C) w level take :
  (In s [""; "a"; "d"; "ad"]%string -> py_upcoef fuel s c w level take = upcoef fuel (String.eqb s "a") c w level take) /\
  (~ In s [""; "a"; "d"; "ad"]%string -> py_upcoef fuel s c w level take = Err ValueError).
Proof.
  unfold py_upcoef. split; intros H.
  - apply str_in_ad in H. rewrite H. reflexivity.
  - destruct (str_in s "ad") eqn:E; [apply str_in_ad in E; tauto|reflexivity].
Qed.

End PadProofs.

(** Counterexamples. *)
Lemma pad_right_zero_raises : exists x l m, 2 <= zlen x /\ 0 <= l /\ pad (C := Instances.Zring) 99 x l 0 (mode_name m) = Err ValueError.
Proof. exists [3; 5; 8], 2, SMOOTH. split; [cbn; lia|]. split; [lia|]. vm_compute. reflexivity. Qed.
Lemma pad_smooth_one_differs : exists x l r p, 1 <= zlen x /\ 1 <= l /\ 1 <= r /\
  pad (C := Instances.Zring) 99 x l r (mode_name SMOOTH) = Ok p /\ p <> window SMOOTH x l (zlen x + r).
Proof.
  exists [3], 1, 1, [6; 3; 0]. split; [cbn; lia|]. split; [lia|]. split; [lia|]. split; [vm_compute; reflexivity|].
  vm_compute. discriminate.
Qed.
Lemma part_accepts_more : exists s, s <> "a"%string /\ s <> "d"%string /\ forall fuel (C : CRing) (x : list C) w m level,
  py_downcoef fuel s x w m level = downcoef fuel false x w m level.
Proof. exists "ad"%string. split; [discriminate|]. split; [discriminate|]. reflexivity. Qed.
Lemma part_accepts_empty : forall fuel (C : CRing) (c : list C) w level take,
  py_upcoef fuel "" c w level take = upcoef fuel false c w level take.
Proof. reflexivity. Qed.
