(** The values of Riemann's demo signal. *)
From Coq Require Import Ascii String QArith Qround ZArith List Lia FinFun.
Import ListNotations.
From Verif Require Import Base BaseLemmas CConv Dwt Swt Names CwtReal Demo DemoSpec DemoProofs DemoMain DemoValuesSpec DemoValues.
From Coq Require Import Reals Lra.
Open Scope list_scope. Open Scope R_scope.

(** ** Riemann *)
(** The weighted sum of a list. *)
Definition wsum (w : nat -> R) (f : list R) : R := rsum (map (fun '(m, v) => v * w m) (combine (seq 0 (List.length f)) f)).
Definition wsum_from (w : nat -> R) (i : nat) (f : list R) : R := rsum (map (fun '(m, v) => v * w m) (combine (seq i (List.length f)) f)).
Lemma wsum_upd w f : forall i j v, (j < List.length f)%nat -> wsum_from w i (upd_nat f j v) = wsum_from w i f + (v - nth j f 0) * w (i + j)%nat.
Proof.
  induction f as [|x f IH]; intros i j v H; cbn [List.length] in H; [lia|]. destruct j as [|j].
  - unfold wsum_from. cbn [upd_nat List.length seq combine map rsum fold_right nth]. rewrite Nat.add_0_r. ring.
  - change (upd_nat (x :: f) (S j) v) with (x :: upd_nat f j v). unfold wsum_from. cbn [List.length seq combine map rsum fold_right nth].
    specialize (IH (S i) j v ltac:(lia)). unfold wsum_from, rsum in IH. rewrite IH. replace (S i + j)%nat with (i + S j)%nat by lia. ring.
Qed.
Lemma scatter_sum w (l : list (Z * R)) : forall g h, NoDup (map fst l) -> (forall i v, In (i, v) l -> (0 <= i < zlen g)%Z /\ nth (Z.to_nat i) g 0 = 0) ->
  foldM (fun a '(i, v) => match wr a i v with OOB => Err IndexError | r => r end) g l = Ok h ->
  zlen h = zlen g /\ wsum_from w 0 h = wsum_from w 0 g + rsum (map (fun '(i, v) => v * w (Z.to_nat i)) l).
Proof.
  induction l as [|(i & v) l IH]; intros g h N Hl E; cbn [foldM] in E; [injection E as <-; split; auto; cbn; ring|].
  destruct (Hl i v (or_introl eq_refl)) as (Hi & H0). unfold wr at 1, inb in E. fold (zlen g) in E. replace ((0 <=? i) && (i <? zlen g))%Z%bool with true in E by lia. cbn [bind] in E.
  assert (L : zlen (upd_nat g (Z.to_nat i) v) = zlen g) by (unfold zlen; rewrite upd_nat_length; auto). inversion N as [|? ? N1 N2]; subst.
  destruct (IH (upd_nat g (Z.to_nat i) v) h N2) as (A & B); [|exact E|].
  { intros j u Hj. destruct (Hl j u (or_intror Hj)) as (Hj1 & Hj2). rewrite L. split; auto. rewrite upd_nat_nth by (unfold zlen in Hi; lia). destruct (Nat.eqb_spec (Z.to_nat j) (Z.to_nat i)) as [X|X]; auto. exfalso.
    apply N1. apply in_map_iff. exists (j, u). split; auto. cbn. lia. }
  split; [lia|]. rewrite B, wsum_upd by (unfold zlen in Hi; lia). cbn [map rsum fold_right]. rewrite H0, Nat.add_0_l. fold (rsum (map (fun '(i, v) => v * w (Z.to_nat i)) l)). ring.
Qed.
Lemma wsum_zero w n : forall i, wsum_from w i (repeat 0 n) = 0.
Proof. induction n as [|n IH]; intros i; unfold wsum_from; cbn [repeat List.length seq combine map rsum fold_right]; [auto|]. specialize (IH (S i)). unfold wsum_from, rsum in IH. rewrite IH. ring. Qed.
Lemma riemann_values_eq tcount n : (1 <= n)%Z -> (round_sqrt n * round_sqrt n <= tcount n)%Z ->
  exists f, riemann tcount n = Ok f /\ zlen f = tcount n /\ forall k, (0 <= k < tcount n)%Z -> at_ f 0 k = riemann_sum (round_sqrt n) (tcount n) k.
Proof.
  intros Hn Hs. pose proof (round_sqrt_pos n Hn). unfold riemann. cbv zeta. set (s := round_sqrt n) in *. assert (0 <= tcount n)%Z by nia. unfold scatter. rewrite !zl_tab by lia. rewrite Z.eqb_refl. cbn [negb].
  rewrite combine_tab.
  match goal with |- context [foldM ?F ?g ?l] => destruct (foldM_scatter g l) as (h & E & Hh); [|pose proof (fun w => scatter_sum w l g h) as SS] end.
  { intros i v Hi. apply in_tab in Hi. destruct Hi as (k & Hk & Ek). injection Ek as -> _. rewrite zl_repeat by auto. nia. }
  change (car Rring) with R in *. rewrite E. cbn [bind]. rewrite zl_repeat in Hh by auto. eexists. split; [reflexivity|].
  rewrite Hh. split; [apply zl_tab; auto|]. intros k Hk. rewrite at_tab by auto.
  specialize (SS (fun m => cos (2 * PI * IZR (Z.of_nat m) * IZR k / IZR (tcount n)))). destruct SS as (_ & SS).
  { unfold tab. rewrite map_map. cbn [fst]. apply Injective_map_NoDup; [|apply seq_NoDup]. intros x y X. nia. }
  { intros i v Hi. apply in_tab in Hi. destruct Hi as (j & Hj & Ej). injection Ej as -> _. rewrite zl_repeat by auto. split; [nia|]. apply nth_repeat. }
  { exact E. }
  unfold wsum_from in SS at 1. rewrite SS, wsum_zero. unfold riemann_sum, Rdiv. f_equal. rewrite Rplus_0_l. unfold tab. rewrite map_map.
  rewrite <- seq_shift, map_map. apply (f_equal rsum). apply map_ext_in. intros j Hj. apply in_seq in Hj.
  rewrite <- INR_IZR_INZ, S_INR. rewrite Rmult_comm. unfold Rdiv. rewrite Rmult_1_l. f_equal. f_equal.
  rewrite Z2Nat.id by nia. rewrite mult_IZR. replace (Z.of_nat (S j) ^ 2 - 1)%Z with ((Z.of_nat j + 1) * (Z.of_nat j + 1) - 1)%Z by (rewrite Nat2Z.inj_succ; ring). ring.
Qed.
Theorem riemann_values tcount hcount s n : lower s = "riemann"%string -> (1 <= n)%Z -> length_ok s n (tcount n) ->
  exists r f, (0 <= r /\ (2 * r - 1) * (2 * r - 1) <= 4 * n <= (2 * r + 1) * (2 * r + 1))%Z /\ demo_signal tcount hcount s (Some n) = Ok (DReal f) /\ samples f (tcount n) (fun m => riemann_sum r (tcount n) (m - 1)).
Proof.
  intros Hs Hn (_ & Hr & _). destruct (Hr Hs) as (r & R0 & R1 & R2). apply round_sqrt_spec in R1; auto. 
  destruct (riemann_values_eq tcount n Hn) as (f & E & L & V); [rewrite <- R1; auto|]. exists r, (map Some f). split; [split; auto; apply round_sqrt_spec; auto|].
  unfold demo_signal. rewrite Hs. cbv zeta. replace (_ <? 1)%Z with false by lia. cbn -[IZR pow riemann riemann_sum Z.mul]. rewrite E. cbn [bind]. split; [reflexivity|].
  split; [rewrite zl_map; auto|]. intros m Hm. match goal with |- nth (Z.to_nat (m - 1)) ?l None = ?r => change (at_ l None (m - 1) = r) end.
  rewrite (at_map _ _ _ 0) by lia. rewrite V by lia. rewrite <- R1. reflexivity.
Qed.
