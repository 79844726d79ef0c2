(** Lengths and values of the demo signals. *)
From Coq Require Import Ascii String QArith Qround ZArith List Reals Lia Lra.
Import ListNotations.
From Verif Require Import Base BaseLemmas CConv Dwt Swt Names CwtReal Demo DemoSpec.
Open Scope list_scope. Open Scope Z_scope.

Section A.
Context {A : Type}.
Implicit Types f v : list A.
Lemma zl_app f v : zlen (f ++ v) = zlen f + zlen v.
Proof. unfold zlen. rewrite app_length. lia. Qed.
Lemma zl_firstn k f : 0 <= k <= zlen f -> zlen (firstn (Z.to_nat k) f) = k.
Proof. unfold zlen. intros. rewrite firstn_length. lia. Qed.
Lemma zl_skipn k f : 0 <= k <= zlen f -> zlen (skipn (Z.to_nat k) f) = zlen f - k.
Proof. unfold zlen. intros. rewrite skipn_length. lia. Qed.
Lemma zl_rev f : zlen (rev f) = zlen f.
Proof. unfold zlen. rewrite rev_length. auto. Qed.
Lemma zl_repeat (x : A) n : 0 <= n -> zlen (repeat x (Z.to_nat n)) = n.
Proof. unfold zlen. intros. rewrite repeat_length. lia. Qed.
Lemma zl_map {B} (g : B -> A) l : zlen (map g l) = zlen l.
Proof. unfold zlen. rewrite map_length. auto. Qed.
Lemma zl_tab n (g : Z -> A) : 0 <= n -> zlen (tab n g) = n.
Proof. unfold zlen, tab. intros. rewrite map_length, seq_length. lia. Qed.
Lemma zl_cut f a b : 0 <= a <= b -> b <= zlen f -> zlen (cut_ f a b) = b - a.
Proof. intros. unfold cut_, zlen in *. rewrite firstn_length, skipn_length. lia. Qed.
Lemma spread_ok L v : zlen v = L -> spread L v = Ok v.
Proof. intros. unfold spread. replace (zlen v =? L) with true by lia. auto. Qed.
Lemma spread_one (x : A) L : 0 <= L -> exists w, spread L [x] = Ok w /\ zlen w = L.
Proof. intros. unfold spread. destruct (zlen [x] =? L) eqn:E; [exists [x]; split; auto; lia|]. exists (repeat x (Z.to_nat L)). split; auto. apply zl_repeat. auto. Qed.
Lemma spread_bad L v : zlen v <> L -> zlen v <> 1 -> spread L v = Err ValueError.
Proof. intros. unfold spread. replace (zlen v =? L) with false by lia. destruct v as [|x [|y v]]; auto. cbn in *. lia. Qed.
Lemma put_eq f a b v : 0 <= a <= b -> b <= zlen f -> put f a b v = w <- spread (b - a) v ;; Ok (firstn (Z.to_nat a) f ++ w ++ skipn (Z.to_nat b) f).
Proof. intros. unfold put. rewrite (Z.min_l a) by lia. rewrite (Z.min_l b) by lia. rewrite Z.max_r by lia. auto. Qed.
Lemma put_ok f a b v : 0 <= a <= b -> b <= zlen f -> zlen v = b - a -> exists g, put f a b v = Ok g /\ zlen g = zlen f.
Proof.
  intros Ha Hb Hv. rewrite put_eq by auto. rewrite spread_ok by auto. cbn [bind]. eexists. split; [reflexivity|].
  rewrite !zl_app, zl_firstn, zl_skipn by lia. lia.
Qed.
Lemma put_one f a b (x : A) : 0 <= a <= b -> b <= zlen f -> exists g, put f a b [x] = Ok g /\ zlen g = zlen f.
Proof.
  intros Ha Hb. rewrite put_eq by auto. destruct (spread_one x (b - a)) as (w & -> & Hw); [lia|]. cbn [bind]. eexists. split; [reflexivity|].
  rewrite !zl_app, zl_firstn, zl_skipn by lia. lia.
Qed.
Lemma put_bad f a b v : 0 <= a <= b -> b <= zlen f -> zlen v <> b - a -> zlen v <> 1 -> put f a b v = Err ValueError.
Proof. intros. rewrite put_eq by auto. rewrite spread_bad by auto. auto. Qed.
Lemma put_down_ok f i j v : i < zlen f -> -1 <= j <= i -> (i = j \/ 0 <= j) -> zlen v = i - j -> exists g, put_down f i j v = Ok g /\ zlen g = zlen f.
Proof.
  intros Hi Hj Hd Hv. unfold put_down. destruct Hd as [->|Hd].
  - rewrite Z.leb_refl, spread_ok by lia. cbn. eauto.
  - unfold down. replace (i <? 0) with false by lia. replace (j <? 0) with false by lia. rewrite !Z.min_l by lia.
    destruct (Z.leb_spec i j); [rewrite spread_ok by lia; cbn; eauto|]. rewrite spread_ok by lia. cbn [bind]. eexists. split; [reflexivity|].
    rewrite !zl_app, zl_firstn, zl_skipn, zl_rev by lia. lia.
Qed.
Lemma zl_from_down f i : 0 <= i < zlen f -> zlen (from_down f i) = i + 1.
Proof. intros. unfold from_down, down. replace (i <? 0) with false by lia. rewrite Z.min_l by lia. rewrite zl_rev, zl_firstn by lia. auto. Qed.
Lemma zl_from_down_last f : zlen (from_down f (-1)) = zlen f.
Proof. unfold from_down, down. change (-1 <? 0) with true. cbv iota. assert (0 <= zlen f) by (unfold zlen; lia). replace (Z.max (-1) (-1 + zlen f) + 1) with (zlen f) by lia. rewrite zl_rev, zl_firstn by lia. auto. Qed.
Lemma from_down_all f i : zlen f <= i -> 0 <= i -> zlen (from_down f i) = zlen f.
Proof. intros. assert (0 <= zlen f) by (unfold zlen; lia). unfold from_down, down. replace (i <? 0) with false by lia. rewrite Z.min_r by lia. replace (zlen f - 1 + 1) with (zlen f) by lia. rewrite zl_rev, zl_firstn by lia. auto. Qed.
End A.
Lemma zl_combine {A B} (a : list A) (b : list B) : zlen a = zlen b -> zlen (combine a b) = zlen a.
Proof. unfold zlen. intros. rewrite combine_length. lia. Qed.
Lemma times_ok a b : zlen a = zlen b -> exists c, times a b = Ok c /\ zlen c = zlen a.
Proof. intros H. unfold times. replace (zlen a =? zlen b) with true by lia. eexists. split; [reflexivity|]. rewrite zl_map. apply zl_combine. auto. Qed.

(** ** The piecewise signals *)
Lemma rsum_shift (b : R) l : rsum (map (fun x => (x - b)%R) l) = (rsum l - INR (List.length l) * b)%R.
Proof. induction l as [|x l IH]; cbn [map rsum fold_right List.length]; [cbn; ring|]. fold (rsum (map (fun x => (x - b)%R) l)). rewrite IH, S_INR. fold (rsum l). ring. Qed.
Lemma rsum_shift' (b : R) l : rsum (map (fun x => (b - x)%R) l) = (INR (List.length l) * b - rsum l)%R.
Proof. induction l as [|x l IH]; cbn [map rsum fold_right List.length]; [cbn; ring|]. fold (rsum (map (fun x => (b - x)%R) l)). rewrite IH, S_INR. fold (rsum l). ring. Qed.

Ltac divs n := pose proof (Z.div_mod n 12 ltac:(lia)); pose proof (Z.mod_pos_bound n 12 ltac:(lia)); pose proof (Z.div_mod n 7 ltac:(lia)); pose proof (Z.mod_pos_bound n 7 ltac:(lia));
  pose proof (Z.div_mod n 5 ltac:(lia)); pose proof (Z.mod_pos_bound n 5 ltac:(lia)); pose proof (Z.div_mod n 3 ltac:(lia)); pose proof (Z.mod_pos_bound n 3 ltac:(lia));
  pose proof (Z.div_mod n 2 ltac:(lia)); pose proof (Z.mod_pos_bound n 2 ltac:(lia)); pose proof (Z.div_mod n 20 ltac:(lia)); pose proof (Z.mod_pos_bound n 20 ltac:(lia));
  pose proof (Z.div_mod n 10 ltac:(lia)); pose proof (Z.mod_pos_bound n 10 ltac:(lia)).
Ltac len := rewrite ?zl_rev, ?zl_map, ?zl_cut, ?zl_tab, ?zl_repeat, ?zl_rev by (rewrite ?zl_map, ?zl_tab, ?zl_repeat; lia); try lia.
Ltac put_step := match goal with |- context [put ?f ?a ?b ?v] =>
    let g := fresh "g" in let Hg := fresh "Hg" in
    destruct (put_ok f a b v) as (g & -> & Hg); [len|len|len|]; cbn [bind]; rewrite ?zl_repeat in Hg by lia end.
Ltac down_step := match goal with |- context [put_down ?f ?a ?b ?v] =>
    let g := fresh "g" in let Hg := fresh "Hg" in
    destruct (put_down_ok f a b v) as (g & -> & Hg); [len|len|len|len|]; cbn [bind] end.

Lemma piece_polynomial_ok n : 1 <= n -> n mod 5 <> 0 -> exists f, piece_polynomial n = Ok f /\ zlen f = n /\ rsum f = 0%R.
Proof.
  intros Hn H5. unfold piece_polynomial. divs n. cbv zeta.
  put_step. down_step. put_step. put_step.
  match goal with |- context [put ?f ?a ?b ?v] =>
    destruct (put_ok f a b v) as (g3 & -> & Hg3); [len|len|rewrite from_down_all; len|]; cbn [bind] end.
  match goal with |- context [put ?f ?a ?b ?v] =>
    destruct (put_ok f a b v) as (g4 & -> & Hg4); [len|len|rewrite zl_from_down; len|]; cbn [bind] end.
  put_step. put_step. eexists. split; [reflexivity|]. split; [len|]. rewrite rsum_shift.
  match goal with |- context [rsum ?l] => assert (L : zlen l = n) by len; set (r := rsum l) end.
  unfold zlen in L. rewrite INR_IZR_INZ, L. field. apply IZR_neq. lia.
Qed.
Lemma piece_regular_ok (tcount : Z -> Z) n : 1 <= n -> n mod 5 <> 0 -> n <= tcount n -> exists f, piece_regular tcount n = Ok f /\ zlen f = n /\ rsum f = 0%R.
Proof.
  intros Hn H5 Ht. unfold piece_regular, tgrid. divs n. cbv zeta.
  put_step. put_step. put_step. put_step. put_step. down_step. put_step. put_step.
  match goal with |- context [put ?f ?a ?b ?v] =>
    destruct (put_ok f a b v) as (h & -> & Hh); [len|len|rewrite zl_from_down; len|]; cbn [bind] end.
  eexists. split; [reflexivity|]. split; [len|]. rewrite rsum_shift'.
  match goal with |- context [rsum ?l] => assert (L : zlen l = n) by len; set (r := rsum l) end.
  unfold zlen in L. rewrite INR_IZR_INZ, L. field. apply IZR_neq. lia.
Qed.
(** For the multiples of 5 the last piece is empty and its value is not. *)
Lemma piece_polynomial_bad n : 1 <= n -> n mod 5 = 0 -> piece_polynomial n = Err ValueError.
Proof.
  intros Hn H5. unfold piece_polynomial. divs n. cbv zeta.
  put_step. down_step. put_step. put_step.
  match goal with |- context [put ?f ?a ?b ?v] =>
    destruct (put_ok f a b v) as (g3 & -> & Hg3); [len|len|rewrite from_down_all; len|]; cbn [bind] end.
  replace (n - 5 * (n / 5) - 1) with (-1) by lia.
  rewrite put_bad; [reflexivity|len|len|rewrite zl_from_down_last; len|rewrite zl_from_down_last; len].
Qed.
Lemma piece_regular_bad (tcount : Z -> Z) n : 1 <= n -> n mod 5 = 0 -> n <= tcount n -> piece_regular tcount n = Err ValueError.
Proof.
  intros Hn H5 Ht. unfold piece_regular, tgrid. divs n. cbv zeta.
  put_step. put_step. put_step. put_step. put_step. down_step. put_step. put_step.
  replace (n - 5 * (n / 5) - 1) with (-1) by lia.
  rewrite put_bad; [reflexivity|len|len|rewrite zl_from_down_last; len|rewrite zl_from_down_last; len].
Qed.

(** ** Chirps *)
Lemma chirps_ok n : 1 <= n -> n mod 8 = 0 \/ 8 <= n < 16 -> exists f, chirps n = Ok f /\ zlen f = n.
Proof.
  intros Hn H8. unfold chirps. cbv zeta. pose proof (Z.div_mod n 8 ltac:(lia)). pose proof (Z.mod_pos_bound n 8 ltac:(lia)).
  pose proof (Z.div_mod n 2 ltac:(lia)). pose proof (Z.mod_pos_bound n 2 ltac:(lia)). pose proof (Z.div_mod (7 * n) 8 ltac:(lia)). pose proof (Z.mod_pos_bound (7 * n) 8 ltac:(lia)).
  match goal with |- context [times ?a ?b] => destruct (times_ok a b) as (f3 & -> & K3); [len|]; cbn [bind] end.
  match goal with |- context [times ?a ?b] => destruct (times_ok a b) as (f4 & -> & K4); [len|]; cbn [bind] end.
  unfold rising. put_step.
  assert (E : exists h, put g (7 * n / 8) n (rev (cut_ g 0 (n / 8))) = Ok h /\ zlen h = zlen g).
  { destruct H8 as [H8|H8].
    { apply put_ok; [lia|lia|]. rewrite zl_rev, zl_cut by lia. lia. }
    assert (E1 : n / 8 = 1) by lia. rewrite E1.
    assert (L : zlen (rev (cut_ g 0 1)) = 1) by (rewrite zl_rev, zl_cut by lia; lia). destruct (rev (cut_ g 0 1)) as [|x [|y l]]; try (cbn in L; lia). apply put_one; len. }
  destruct E as (h & -> & Hh). cbn [bind].
  match goal with |- context [times ?a h] => assert (L : zlen a = n) end.
  { assert (PL : forall a b : list (option R), zlen a = n -> zlen b = n ->
      zlen (map (fun '(x, y) => match x, y with Some x, Some y => Some (x + y)%R | _, _ => None end) (combine a b)) = n) by (intros a b Ha Hb; rewrite zl_map, zl_combine; lia).
    rewrite zl_map, zl_cut in K3, K4 by (rewrite ?zl_tab by lia; lia).
    apply PL; [apply PL; [apply PL|]|]; [rewrite zl_map, zl_tab; lia|rewrite zl_map, zl_rev, zl_tab; lia|lia|lia]. }
  match goal with |- context [times ?a h] => destruct (times_ok a h) as (c & Ec & K5) end; [lia|].
  exists c. split; [exact Ec|lia].
Qed.
Lemma chirps_bad n : 1 <= n -> n mod 8 <> 0 -> ~ 8 <= n < 16 -> chirps n = Err ValueError.
Proof.
  intros Hn H8 H16. unfold chirps. cbv zeta. pose proof (Z.div_mod n 8 ltac:(lia)). pose proof (Z.mod_pos_bound n 8 ltac:(lia)).
  pose proof (Z.div_mod n 2 ltac:(lia)). pose proof (Z.mod_pos_bound n 2 ltac:(lia)). pose proof (Z.div_mod (7 * n) 8 ltac:(lia)). pose proof (Z.mod_pos_bound (7 * n) 8 ltac:(lia)).
  match goal with |- context [times ?a ?b] => destruct (times_ok a b) as (f3 & -> & K3); [len|]; cbn [bind] end.
  match goal with |- context [times ?a ?b] => destruct (times_ok a b) as (f4 & -> & K4); [len|]; cbn [bind] end.
  unfold rising. put_step. assert (L : zlen (rev (cut_ g 0 (n / 8))) = n / 8) by (rewrite zl_rev, zl_cut by lia; lia).
  rewrite put_bad; [reflexivity|lia|lia|lia|lia].
Qed.

(** ** HypChirps *)
Lemma rne_bounds a b : 0 < b -> 2 * a - b <= 2 * b * rne a b <= 2 * a + b.
Proof.
  intros Hb. unfold rne. pose proof (Z.div_mod a b ltac:(lia)). pose proof (Z.mod_pos_bound a b ltac:(lia)).
  destruct (Z.ltb_spec (2 * (a mod b)) b); [nia|]. destruct (Z.ltb_spec b (2 * (a mod b))); [nia|]. destruct (Z.even _); nia.
Qed.
Lemma hyp_envelope n : 1 <= n -> let m := rne (13 * n) 20 in let p := m / 4 in let c := (n + 9) / 10 in
  0 <= m /\ 0 <= p <= m - p /\ 1 <= c /\ m + c - 1 <= n.
Proof.
  intros Hn m p c. pose proof (rne_bounds (13 * n) 20 ltac:(lia)) as B. fold m in B. subst p c.
  pose proof (Z.div_mod m 4 ltac:(lia)). pose proof (Z.mod_pos_bound m 4 ltac:(lia)). pose proof (Z.div_mod (n + 9) 10 ltac:(lia)). pose proof (Z.mod_pos_bound (n + 9) 10 ltac:(lia)).
  lia.
Qed.
Lemma hypchirps_ok (hcount : Z -> Z) n : 1 <= n -> hcount n = n -> exists f, hypchirps hcount n = Ok f /\ zlen f = n.
Proof.
  intros Hn Hh. destruct (hyp_envelope n Hn) as (A1 & A2 & A3 & A4). unfold hypchirps. cbv zeta. rewrite Hh.
  set (m := rne (13 * n) 20) in *. set (p := m / 4) in *. set (c := (n + 9) / 10) in *. unfold rising.
  put_step. put_step. put_step.
  match goal with |- context [times ?a ?b] => destruct (times_ok a b) as (f & -> & K4); [len|] end. exists f. split; auto. rewrite K4. len.
Qed.
Lemma hypchirps_bad (hcount : Z -> Z) n : 2 <= n -> hcount n <> n -> 2 <= hcount n -> hypchirps hcount n = Err ValueError.
Proof.
  intros Hn Hh Hh2. destruct (hyp_envelope n ltac:(lia)) as (A1 & A2 & A3 & A4). unfold hypchirps. cbv zeta.
  set (m := rne (13 * n) 20) in *. set (p := m / 4) in *. set (c := (n + 9) / 10) in *. unfold rising.
  put_step. put_step. put_step.
  assert (TB : forall a b : list (option R), zlen a = hcount n -> zlen b = n -> times a b = Err ValueError).
  { intros a b La Lb. unfold times. replace (zlen a =? zlen b) with false by lia. destruct a as [|x [|y a]]; try (cbn in La; lia). destruct b as [|x' [|y' b]]; try (cbn in Lb; lia). reflexivity. }
  apply TB; len.
Qed.

(** ** Riemann *)
Lemma foldM_scatter (g : list R) l : (forall i v, In (i, v) l -> 0 <= i < zlen g) ->
  exists h, foldM (fun a '(i, v) => match wr a i v with OOB => Err IndexError | r => r end) g l = Ok h /\ zlen h = zlen g.
Proof.
  revert g. induction l as [|(i & v) l IH]; intros g Hl; cbn [foldM]; [eauto|].
  pose proof (Hl i v (or_introl eq_refl)) as Hi. unfold wr at 1. unfold inb. fold (zlen g). replace ((0 <=? i) && (i <? zlen g)) with true by lia. cbn [bind].
  assert (L : zlen (upd_nat g (Z.to_nat i) v) = zlen g) by (unfold zlen; rewrite upd_nat_length; auto).
  destruct (IH (upd_nat g (Z.to_nat i) v)) as (h & E & Hh); [intros j w Hj; rewrite L; apply (Hl j w); right; auto|]. exists h. split; auto. lia.
Qed.
Lemma foldM_scatter_bad (g : list R) l i v : In (i, v) l -> (forall i v, In (i, v) l -> 0 <= i) -> zlen g <= i ->
  foldM (fun a '(i, v) => match wr a i v with OOB => Err IndexError | r => r end) g l = Err IndexError.
Proof.
  revert g. induction l as [|(j & w) l IH]; intros g Hi H0 Hg; [destruct Hi|]. cbn [foldM].
  pose proof (H0 j w (or_introl eq_refl)). unfold wr at 1, inb. fold (zlen g). destruct (Z.ltb_spec j (zlen g)) as [Hj|Hj]; [|rewrite andb_false_r; reflexivity].
  replace (0 <=? j) with true by lia. cbn [andb bind].
  assert (L : zlen (upd_nat g (Z.to_nat j) w) = zlen g) by (unfold zlen; rewrite upd_nat_length; auto).
  destruct Hi as [E|Hi]; [injection E as -> ->; lia|]. apply IH; auto; [intros k u Hk; apply (H0 k u); right; auto|lia].
Qed.
Lemma round_sqrt_pos n : 1 <= n -> 1 <= round_sqrt n.
Proof. intros H. unfold round_sqrt. pose proof (Z.sqrt_spec n ltac:(lia)). pose proof (Z.sqrt_nonneg n). destruct (Z.leb_spec n (Z.sqrt n * Z.sqrt n + Z.sqrt n)); nia. Qed.
Lemma round_sqrt_spec n s : 1 <= n -> 0 <= s -> (s = round_sqrt n <-> (2 * s - 1) * (2 * s - 1) <= 4 * n <= (2 * s + 1) * (2 * s + 1)).
Proof.
  intros H Hs. unfold round_sqrt. pose proof (Z.sqrt_spec n ltac:(lia)) as (S1 & S2). pose proof (Z.sqrt_nonneg n) as S0. set (r := Z.sqrt n) in *.
  destruct (Z.leb_spec n (r * r + r)); split; intros E; subst; nia.
Qed.
Lemma combine_tab {A B} n (f : Z -> A) (g : Z -> B) : combine (tab n f) (tab n g) = tab n (fun k => (f k, g k)).
Proof. unfold tab. induction (seq 0 (Z.to_nat n)) as [|k l IH]; cbn; auto. f_equal. auto. Qed.
Lemma in_tab {A} n (f : Z -> A) x : In x (tab n f) <-> exists k, 0 <= k < n /\ x = f k.
Proof.
  unfold tab. rewrite in_map_iff. split.
  - intros (k & <- & Hk). apply in_seq in Hk. exists (Z.of_nat k). split; auto. lia.
  - intros (k & Hk & ->). exists (Z.to_nat k). rewrite Z2Nat.id by lia. split; auto. apply in_seq. lia.
Qed.
Lemma riemann_ok (tcount : Z -> Z) n : 1 <= n -> round_sqrt n * round_sqrt n <= tcount n -> exists f, riemann tcount n = Ok f /\ zlen f = tcount n.
Proof.
  intros Hn Hs. pose proof (round_sqrt_pos n Hn). unfold riemann. cbv zeta. set (s := round_sqrt n) in *. assert (0 <= tcount n) by nia. unfold scatter. rewrite !zl_tab by lia. rewrite Z.eqb_refl. cbn [negb].
  rewrite combine_tab.
  match goal with |- context [foldM ?F ?g ?l] => destruct (foldM_scatter g l) as (h & E & Hh) end.
  - intros i v Hi. apply in_tab in Hi. destruct Hi as (k & Hk & Ek). injection Ek as -> _. rewrite zl_repeat by auto. nia.
  - change (car Rring) with R in *. rewrite E. cbn [bind]. rewrite zl_repeat in Hh by auto. eexists. split; [reflexivity|]. rewrite zl_tab by (unfold zlen; lia). exact Hh.
Qed.
Lemma riemann_bad (tcount : Z -> Z) n : 1 <= n -> tcount n < round_sqrt n * round_sqrt n -> riemann tcount n = Err IndexError.
Proof.
  intros Hn Hs. pose proof (round_sqrt_pos n Hn). unfold riemann. cbv zeta. set (s := round_sqrt n) in *. unfold scatter. rewrite !zl_tab by lia. rewrite Z.eqb_refl. cbn [negb].
  rewrite combine_tab.
  match goal with |- context [foldM ?F ?g ?l] => pose proof (foldM_scatter_bad g l ((s - 1 + 1) * (s - 1 + 1) - 1) (1 / (IZR (s - 1) + 1))%R) as E end.
  change (car Rring) with R in *. rewrite E; [reflexivity|apply in_tab; exists (s - 1); split; auto; lia| |].
  - intros i v Hi. apply in_tab in Hi. destruct Hi as (k & Hk & Ek). injection Ek as -> _. nia.
  - unfold zlen. rewrite repeat_length. nia.
Qed.
