(** The values of the demo signals that consist of pieces. *)
From Coq Require Import Ascii String QArith Qround ZArith List Lia.
Import ListNotations.
From Verif Require Import Base BaseLemmas CConv Dwt Swt Names CwtReal Demo DemoSpec DemoProofs DemoMain DemoValuesSpec DemoValues DemoValues2.
From Coq Require Import Reals Lra.
Open Scope list_scope. Open Scope Z_scope.

Ltac put_at_step := match goal with |- context [put ?f ?a ?b ?v] =>
    let g := fresh "g" in let Hg := fresh "Hg" in let Ag := fresh "Ag" in
    destruct (put_at f a b v) as (g & -> & Hg & Ag); [len|len|len|]; cbn [bind]; rewrite ?zl_repeat in Hg, Ag by lia; rewrite ?Hg in Ag end.
Ltac down_at_step := match goal with |- context [put_down ?f ?a ?b ?v] =>
    let g := fresh "g" in let Hg := fresh "Hg" in let Ag := fresh "Ag" in
    destruct (put_down_at f a b v) as (g & -> & Hg & Ag); [len|len|len|len|]; cbn [bind] end.
Lemma at_tab_eq {A} (f : list A) n g d : zlen f = n -> (forall k, 0 <= k < n -> at_ f d k = g k) -> f = tab n g.
Proof.
  intros L H. assert (0 <= n) by (unfold zlen in L; lia). apply (nth_ext _ _ d d).
  - pose proof (zl_tab n g ltac:(lia)). unfold zlen in *. lia.
  - intros i Hi. specialize (H (Z.of_nat i) ltac:(unfold zlen in L; lia)). pose proof (at_tab n g d (Z.of_nat i) ltac:(unfold zlen in L; lia)) as T. unfold at_ in *. rewrite Nat2Z.id in *. congruence.
Qed.
Lemma from_down_over {A} (f : list A) i : zlen f <= i -> 0 <= i -> from_down f i = rev f.
Proof. intros. assert (0 <= zlen f) by (unfold zlen; lia). unfold from_down, down. replace (i <? 0) with false by lia. rewrite Z.min_r by lia. rewrite firstn_all2 by (unfold zlen; lia). auto. Qed.
Open Scope R_scope.
Lemma mean_tab n g : rsum (tab n g) / IZR n = mean n g.
Proof. reflexivity. Qed.
Ltac yes := match goal with |- context [if ?b then _ else _] => replace b with true by lia end.
Ltac no := match goal with |- context [if ?b then _ else _] => replace b with false by lia end.

Lemma polynomial_at n : (5 <= n)%Z -> (n mod 5 <> 0)%Z -> piece_polynomial n = Ok (map (fun x => x - mean n (poly_pieces n)) (tab n (poly_pieces n))).
Proof.
  intros Hn H5. unfold piece_polynomial. divs n. cbv zeta. set (q := (n / 5)%Z) in *. assert (Q1 : (1 <= q)%Z) by lia. assert (Q0 : IZR q <> 0) by (apply nz; auto).
  put_at_step. down_at_step. put_at_step. put_at_step.
  match goal with |- context [put ?f ?a ?b ?v] =>
    destruct (put_at f a b v) as (g3 & -> & Hg3 & Ag3); [len|len|rewrite from_down_all; len|]; cbn [bind] end.
  match goal with |- context [put ?f ?a ?b ?v] =>
    destruct (put_at f a b v) as (g4 & -> & Hg4 & Ag4); [len|len|rewrite zl_from_down; len|]; cbn [bind] end.
  assert (B : forall k, (0 <= k < 5 * q)%Z -> at_ g3 0 k = poly_base q k).
  { intros k Hk. rewrite Ag3 by lia. unfold poly_base. destruct (Z.leb_spec (4 * q) k).
    { yes. do 4 no. rewrite from_down_over by len. rewrite at_rev by len. rewrite zl_tab by lia. rewrite at_tab by lia.
      replace (IZR (q - 1 - (k - 4 * q)) + 1) with (IZR (5 * q - k)) by (rewrite <- plus_IZR; f_equal; lia). field. auto. }
    no. rewrite Ag2 by lia. destruct (Z.leb_spec (3 * q) k).
    { yes. do 3 no. yes. rewrite at_tab by lia. replace (IZR (k - 3 * q) + 1) with (IZR (k - 3 * q + 1)) by (rewrite plus_IZR; auto). field. auto. }
    no. rewrite Ag1 by lia. destruct (Z.leb_spec (2 * q) k).
    { yes. do 2 no. yes. rewrite at_tab by lia. replace (IZR (k - 2 * q) + 1) with (IZR (k - 2 * q + 1)) by (rewrite plus_IZR; auto). field. auto. }
    no. rewrite Ag0 by lia. destruct (Z.leb_spec q k).
    { yes. no. yes. rewrite at_tab by lia. replace (IZR (2 * q - 1 - k) + 1) with (IZR (2 * q - k)) by (rewrite <- plus_IZR; f_equal; lia). field. auto. }
    no. rewrite Ag by lia. yes. yes. rewrite at_tab by lia. rewrite Z.sub_0_r. replace (IZR k + 1) with (IZR (k + 1)) by (rewrite plus_IZR; auto). field. auto. }
  put_at_step. put_at_step.
  match goal with |- Ok (map (fun x => x - rsum ?g / IZR n) _) = _ => assert (E : g = tab n (poly_pieces n)) end.
  { apply (at_tab_eq _ _ _ 0); [lia|]. intros k Hk. unfold poly_pieces. fold q.
    match goal with H : context [repeat 150] |- _ => rewrite H by lia end. replace (n + n / 20 - n / 10)%Z with (n - n / 10 + n / 20)%Z by lia.
    destruct ((n - n / 10 <=? k) && (k <? n - n / 10 + n / 20))%Z%bool eqn:E1; [apply at_repeat; lia|].
    match goal with H : context [repeat 10] |- _ => rewrite H by lia end.
    destruct ((n / 20 <=? k) && (k <? n / 20 + n / 10))%Z%bool eqn:E2; [apply at_repeat; lia|].
    rewrite Ag4 by lia. destruct (Z.leb_spec (5 * q) k).
    - yes. rewrite at_from_down by lia. rewrite <- B by lia. f_equal. lia.
    - no. apply B. lia. }
  rewrite E. rewrite mean_tab. reflexivity.
Qed.
Lemma polynomial_values tcount hcount s n : lower s = "piece-polynomial"%string -> (5 <= n)%Z -> ~ (5 | n)%Z -> exists f, demo_signal tcount hcount s (Some n) = Ok (DReal f) /\
  samples f n (fun m => poly_pieces n (m - 1) - mean n (poly_pieces n)).
Proof.
  intros Hs Hn H5. unfold demo_signal. rewrite Hs. cbv zeta. replace (_ <? 1)%Z with false by lia. cbn -[IZR pow piece_polynomial poly_pieces Z.mul].
  rewrite polynomial_at; auto; [|intros M; apply H5; apply Z.mod_divide; [lia|auto]]. cbn [bind]. eexists. split; [reflexivity|].
  assert (L : zlen (tab n (poly_pieces n)) = n) by (apply zl_tab; lia).
  split; [rewrite !zl_map; auto|]. intros m Hm.
  match goal with |- nth (Z.to_nat (m - 1)) ?l None = ?r => change (at_ l None (m - 1) = r) end. rewrite (at_map _ _ _ 0) by (rewrite zl_map; lia). rewrite (at_map _ _ _ 0) by lia. rewrite at_tab by lia. auto.
Qed.
Lemma hump_eq n k : (3 <= n)%Z -> -70 * exp (- (((IZR k + 1) / IZR (n / 3) - 0.5) * ((IZR k + 1) / IZR (n / 3) - 0.5)) / (2 * (6 / 40) ^ 2)) = - hump n k.
Proof.
  intros Hn. assert (IZR (n / 3) <> 0) by (apply nz; apply Z.div_le_lower_bound; lia). unfold hump. rewrite plus_IZR. replace 0.5 with (1 / 2) by lra.
  match goal with |- -70 * exp ?a = - (70 * exp ?b) => replace a with b by (field; auto) end. ring.
Qed.
Lemma regular_at tcount n : (1 <= n)%Z -> (n mod 5 <> 0)%Z -> (n <= tcount n)%Z -> piece_regular tcount n = Ok (map (fun x => x - mean n (regular_pieces n)) (tab n (regular_pieces n))).
Proof.
  intros Hn H5 Ht. unfold piece_regular, tgrid. divs n. cbv zeta.
  put_at_step. put_at_step. put_at_step. put_at_step. put_at_step. down_at_step. put_at_step. put_at_step.
  match goal with |- context [put ?f ?a ?b ?v] =>
    destruct (put_at f a b v) as (h & -> & Hh & Ah); [len|len|rewrite zl_from_down; len|]; cbn [bind] end.
  match type of Ah with context [from_down ?x _] => rename x into gz end.
  assert (B : forall k, (0 <= k < n)%Z -> at_ gz 0 k = - regular_base n k).
  { intros k Hk. unfold regular_base. cbv zeta. rewrite Ag6 by lia.
    match goal with |- (if ?b then _ else _) = - (if ?c then _ else _) => replace c with b by (f_equal; f_equal; lia); destruct b eqn:E1 end.
    { rewrite at_tab by lia. rewrite plus_IZR. ring. }
    rewrite Ag5 by lia. match goal with |- (if ?b then _ else _) = - (if ?c then _ else _) => replace c with b by (f_equal; f_equal; lia); destruct b eqn:E2 end.
    { apply at_repeat. lia. }
    rewrite Ag4 by lia. match goal with |- (if ?b then _ else _) = - (if ?c then _ else _) => replace c with b by (f_equal; f_equal; lia); destruct b eqn:E3 end.
    { rewrite at_tab by lia. replace (IZR (n / 2 + 2 * (n / 12) - 1 - k) + 1) with (IZR (n / 2 + 2 * (n / 12) - k)) by (rewrite <- plus_IZR; f_equal; lia). ring. }
    rewrite Ag3 by lia. match goal with |- (if ?b then _ else _) = - (if ?c then _ else _) => replace c with b by (f_equal; f_equal; lia); destruct b eqn:E4 end.
    { rewrite at_tab by lia. rewrite plus_IZR. ring. }
    rewrite Ag2 by lia. destruct (Z.leb_spec (n / 2) k).
    { no. rewrite Ag1 by lia. no. rewrite Ag0 by lia. no. rewrite Ag by lia. no. rewrite at_repeat by lia. ring. }
    destruct (Z.leb_spec (n / 3) k).
    { yes. rewrite at_cut by lia. rewrite (at_map _ _ _ 0) by len. rewrite at_tab by lia. rewrite bumps_peaks.
      replace (IZR (n / 3 + (k - n / 3)) + 1) with (IZR (k + 1)) by (rewrite <- plus_IZR; f_equal; lia). ring. }
    no. rewrite Ag1 by lia. destruct (Z.leb_spec (n / 5) k).
    { yes. rewrite at_cut by lia. rewrite at_tab by lia. replace (n / 5 + (k - n / 5))%Z with k by lia. apply hump_eq. lia. }
    no. rewrite Ag0 by lia. destruct (Z.leb_spec (n / 7) k).
    { yes. rewrite (at_map _ _ _ 0) by len. rewrite at_cut by lia. rewrite at_tab by lia. replace (n / 7 + (k - n / 7))%Z with k by lia. rewrite hump_eq by lia. lra. }
    no. rewrite Ag by lia. yes. rewrite at_cut by lia. rewrite at_tab by lia. replace (0 + (k - 0))%Z with k by lia. apply hump_eq. lia. }
  assert (E : h = tab n (fun k => - regular_pieces n k)).
  { apply (at_tab_eq _ _ _ 0); [lia|]. intros k Hk. unfold regular_pieces. rewrite Ah by lia. destruct (Z.leb_spec (5 * (n / 5)) k).
    - yes. rewrite at_from_down by lia. rewrite <- B by lia. f_equal. lia.
    - no. apply B. lia. }
  assert (S : rsum h / IZR n = - mean n (regular_pieces n)).
  { rewrite E. unfold mean, tab, Rdiv. rewrite Ropp_mult_distr_l. f_equal. generalize (seq 0 (Z.to_nat n)). intros l. unfold rsum, DemoSpec.sum.
    induction l as [|x l IH]; cbn [map fold_right]; [ring|]. rewrite IH. ring. }
  rewrite S, E. f_equal. unfold tab. rewrite !map_map. apply map_ext. intros. ring.
Qed.
Lemma regular_values tcount hcount s n : lower s = "piece-regular"%string -> (1 <= n)%Z -> ~ (5 | n)%Z -> (n <= tcount n)%Z -> exists f, demo_signal tcount hcount s (Some n) = Ok (DReal f) /\
  samples f n (fun m => regular_pieces n (m - 1) - mean n (regular_pieces n)).
Proof.
  intros Hs Hn H5 Ht. unfold demo_signal. rewrite Hs. cbv zeta. replace (_ <? 1)%Z with false by lia. cbn -[IZR pow piece_regular regular_pieces Z.mul].
  rewrite regular_at; auto; [|intros M; apply H5; apply Z.mod_divide; [lia|auto]]. cbn [bind]. eexists. split; [reflexivity|].
  assert (L : zlen (tab n (regular_pieces n)) = n) by (apply zl_tab; lia).
  split; [rewrite !zl_map; auto|]. intros m Hm.
  match goal with |- nth (Z.to_nat (m - 1)) ?l None = ?r => change (at_ l None (m - 1) = r) end. rewrite (at_map _ _ _ 0) by (rewrite zl_map; lia). rewrite (at_map _ _ _ 0) by lia. rewrite at_tab by lia. auto.
Qed.
