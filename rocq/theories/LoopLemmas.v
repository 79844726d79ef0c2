(** Generic loop lemmas for the kernel models. *)
From Verif Require Import Base BaseLemmas CConv Spec.

Section Loops.
Variable C : CRing.
Add Ring Cring_ring_ll : (rth C).
Variable fuel : nat.

Lemma seg_spec {A} (P : Z -> A -> Prop) d k0 kmax M more (upd : Z -> Z -> A -> res A) j0 a0 :
  0 < d -> (forall j, more j = (j <? M)) ->
  (forall j k a, P j a -> k0 <= k < kmax -> j < M -> j - j0 = k - k0 -> (d | k - k0) ->
     exists a', upd j k a = Ok a' /\ P (j + d) a') ->
  P j0 a0 -> kmax - k0 + 2 <= Z.of_nat fuel -> (0 < fuel)%nat ->
  exists j a, seg fuel d k0 kmax more upd (j0, a0) = Ok (j, a) /\ P j a /\
    j0 <= j /\ (d | j - j0) /\ (j = j0 \/ (j - d < M /\ j - j0 - d < kmax - k0)) /\
    (M <= j \/ kmax - k0 <= j - j0).
Proof.
  intros Hd Hmore Hupd HP Hf Hf0. unfold seg. cbn [fst snd].
  destruct (while_inv
    (fun '(k, j, a) => P j a /\ j0 <= j /\ j - j0 = k - k0 /\ (d | k - k0) /\
        (j = j0 \/ (j - d < M /\ j - j0 - d < kmax - k0)))
    (fun '(k, j, a) => kmax - k)
    (fun '(k, j, s) => (k <? kmax) && more j)
    (fun '(k, j, s) => s' <- upd j k s ;; Ok (k + d, j + d, s'))) with (fuel := fuel) (s := (k0, j0, a0))
    as ([[k j] a] & Hw & (HP' & Hj & Hk & Hdv & Hlast) & Hc).
  - intros [[k j] a] (HP' & Hj & Hk & Hdv & Hlast) Hc. rewrite Hmore in Hc.
    destruct (Hupd j k a HP') as (a' & Ha & HPa); try lia; auto.
    rewrite Ha. cbn [bind]. exists (k + d, j + d, a'). split; [reflexivity|].
    repeat split; try lia; auto.
    replace (k + d - k0) with ((k - k0) + d) by lia. apply Z.divide_add_r; [auto|apply Z.divide_refl].
  - repeat split; try lia; auto. replace (k0 - k0) with 0 by lia. apply Z.divide_0_r.
  - lia.
  - lia.
  - rewrite Hw. cbn [bind]. exists j, a. rewrite Hmore in Hc.
    repeat split; auto; [rewrite Hk; auto | lia].
Qed.

Lemma forj_spec {A} (P : Z -> A -> Prop) d M more (upd : Z -> A -> res A) j0 a0 :
  0 < d -> (forall j, more j = (j <? M)) ->
  (forall j a, P j a -> j0 <= j < M -> (d | j - j0) -> exists a', upd j a = Ok a' /\ P (j + d) a') ->
  P j0 a0 -> M - j0 + 2 <= Z.of_nat fuel -> (0 < fuel)%nat ->
  exists j a, forj fuel d more upd (j0, a0) = Ok (j, a) /\ P j a /\ j0 <= j /\ (d | j - j0) /\
    (j = j0 \/ j - d < M) /\ M <= j.
Proof.
  intros Hd Hmore Hupd HP Hf Hf0. unfold forj.
  destruct (while_inv
    (fun '(j, a) => P j a /\ j0 <= j /\ (d | j - j0) /\ (j = j0 \/ j - d < M))
    (fun '(j, a) => M - j)
    (fun '(j, s) => more j)
    (fun '(j, s) => s' <- upd j s ;; Ok (j + d, s'))) with (fuel := fuel) (s := (j0, a0))
    as ([j a] & Hw & (HP' & Hj & Hdv & Hlast) & Hc).
  - intros [j a] (HP' & Hj & Hdv & Hlast) Hc. rewrite Hmore in Hc.
    destruct (Hupd j a HP') as (a' & Ha & HPa); try lia; auto.
    rewrite Ha. cbn [bind]. exists (j + d, a'). split; [reflexivity|].
    repeat split; try lia; auto.
    replace (j + d - j0) with ((j - j0) + d) by lia. apply Z.divide_add_r; [auto|apply Z.divide_refl].
  - repeat split; try lia; auto. replace (j0 - j0) with 0 by lia. apply Z.divide_0_r.
  - lia.
  - lia.
  - rewrite Hw. rewrite Hmore in Hc. exists j, a. repeat split; auto. lia.
Qed.

(** unit stride versions *)
Lemma forj1_spec {A} (P : Z -> A -> Prop) M more (upd : Z -> A -> res A) j0 a0 :
  (forall j, more j = (j <? M)) ->
  (forall j a, P j a -> j0 <= j < M -> exists a', upd j a = Ok a' /\ P (j + 1) a') ->
  P j0 a0 -> j0 <= M -> M - j0 + 2 <= Z.of_nat fuel ->
  exists a, forj fuel 1 more upd (j0, a0) = Ok (M, a) /\ P M a.
Proof.
  intros Hmore Hupd HP Hle Hf.
  destruct (forj_spec P 1 M more upd j0 a0) as (j & a & He & HP' & H1 & _ & H2 & H3); auto; try lia.
  replace j with M in * by lia. eauto.
Qed.

Lemma seg1_spec {A} (P : Z -> A -> Prop) k0 kmax M more (upd : Z -> Z -> A -> res A) j0 a0 :
  (forall j, more j = (j <? M)) ->
  (forall j k a, P j a -> k0 <= k < kmax -> j < M -> j - j0 = k - k0 ->
     exists a', upd j k a = Ok a' /\ P (j + 1) a') ->
  P j0 a0 -> k0 <= kmax -> kmax - k0 + 2 <= Z.of_nat fuel ->
  exists a, seg fuel 1 k0 kmax more upd (j0, a0) =
            Ok (Z.max j0 (Z.min M (j0 + kmax - k0)), a) /\ P (Z.max j0 (Z.min M (j0 + kmax - k0))) a.
Proof.
  intros Hmore Hupd HP Hle Hf.
  destruct (seg_spec P 1 k0 kmax M more upd j0 a0) as (j & a & He & HP' & H1 & _ & H2 & H3);
    auto; try lia.
  replace (Z.max j0 (Z.min M (j0 + kmax - k0))) with j by lia. eauto.
Qed.

(** Two segments repeated until [j] reaches [M]. [s] is any accumulator. *)
Lemma wrap2_spec {A} (P : Z -> A -> Prop) k0 kmax1 kmax2 M more
    (upd1 upd2 : Z -> Z -> A -> res A) j0 a0 :
  let per := (kmax1 - k0) + (kmax2 - k0) in
  (forall j, more j = (j <? M)) ->
  (forall b j k a, (per | b - j0) -> j0 <= b -> P j a -> k0 <= k < kmax1 -> j < M -> j - b = k - k0 ->
     exists a', upd1 j k a = Ok a' /\ P (j + 1) a') ->
  (forall b j k a, (per | b - j0) -> j0 <= b -> P j a -> k0 <= k < kmax2 -> j < M ->
     j - b = (kmax1 - k0) + (k - k0) ->
     exists a', upd2 j k a = Ok a' /\ P (j + 1) a') ->
  P j0 a0 -> j0 <= M -> k0 <= kmax1 -> k0 <= kmax2 -> 0 < per ->
  (kmax1 - k0) + 2 <= Z.of_nat fuel -> (kmax2 - k0) + 2 <= Z.of_nat fuel -> M - j0 + 2 <= Z.of_nat fuel ->
  exists a, while fuel (fun '(j, s) => more j)
     (fun js => js <- seg fuel 1 k0 kmax1 more upd1 js ;; seg fuel 1 k0 kmax2 more upd2 js) (j0, a0)
     = Ok (M, a) /\ P M a.
Proof.
  intros per Hmore H1 H2 HP Hj0 Hk1 Hk2 Hper Hf1 Hf2 Hf3.
  destruct (while_inv
    (fun '(j, a) => P j a /\ j0 <= j <= M /\ (M <= j \/ (per | j - j0)))
    (fun '(j, a) => M - j)
    (fun '(j, s) => more j)
    (fun js => js <- seg fuel 1 k0 kmax1 more upd1 js ;; seg fuel 1 k0 kmax2 more upd2 js))
    with (fuel := fuel) (s := (j0, a0)) as ([j a] & Hw & (HP' & Hj & Hdv) & Hc).
  - intros [j a] (HP' & Hj & Hdv) Hc. rewrite Hmore in Hc.
    destruct Hdv as [Hdv|Hdv]; [lia|].
    destruct (seg1_spec P k0 kmax1 M more upd1 j a) as (a1 & Ha1 & HP1); auto.
    { intros. apply (H1 j); auto; lia. }
    rewrite Ha1. cbn [bind].
    set (j1 := Z.max j (Z.min M (j + kmax1 - k0))) in *.
    destruct (seg1_spec P k0 kmax2 M more upd2 j1 a1) as (a2 & Ha2 & HP2); auto.
    { intros. apply (H2 j); auto; lia. }
    rewrite Ha2. set (j2 := Z.max j1 (Z.min M (j1 + kmax2 - k0))) in *.
    exists (j2, a2). split; [reflexivity|]. split; [|lia].
    split; [auto|]. split; [lia|].
    destruct (Z.le_gt_cases M (j + per)) as [Hm|Hm]; [left; lia|right].
    replace (j2 - j0) with ((j - j0) + per) by lia. apply Z.divide_add_r; [auto|apply Z.divide_refl].
  - repeat split; auto; try lia. right. replace (j0 - j0) with 0 by lia. apply Z.divide_0_r.
  - lia.
  - lia.
  - rewrite Hmore in Hc. rewrite Hw. replace j with M in * by lia. eauto.
Qed.

(** One segment repeated until [j] reaches [M]. *)
Lemma wrap1_spec {A} (P : Z -> A -> Prop) k0 kmax M more (upd : Z -> Z -> A -> res A) j0 a0 :
  let per := kmax - k0 in
  (forall j, more j = (j <? M)) ->
  (forall b j k a, (per | b - j0) -> j0 <= b -> P j a -> k0 <= k < kmax -> j < M -> j - b = k - k0 ->
     exists a', upd j k a = Ok a' /\ P (j + 1) a') ->
  P j0 a0 -> j0 <= M -> 0 < per ->
  per + 2 <= Z.of_nat fuel -> M - j0 + 2 <= Z.of_nat fuel ->
  exists a, while fuel (fun '(j, s) => more j)
     (fun js => seg fuel 1 k0 kmax more upd js) (j0, a0) = Ok (M, a) /\ P M a.
Proof.
  intros per Hmore H1 HP Hj0 Hper Hf1 Hf3.
  destruct (while_inv
    (fun '(j, a) => P j a /\ j0 <= j <= M /\ (M <= j \/ (per | j - j0)))
    (fun '(j, a) => M - j)
    (fun '(j, s) => more j)
    (fun js => seg fuel 1 k0 kmax more upd js))
    with (fuel := fuel) (s := (j0, a0)) as ([j a] & Hw & (HP' & Hj & Hdv) & Hc).
  - intros [j a] (HP' & Hj & Hdv) Hc. rewrite Hmore in Hc.
    destruct Hdv as [Hdv|Hdv]; [lia|].
    destruct (seg1_spec P k0 kmax M more upd j a) as (a1 & Ha1 & HP1); auto; try lia.
    { intros. apply (H1 j); auto; lia. }
    rewrite Ha1. eexists (_, a1). split; [reflexivity|]. split; [|lia].
    split; [auto|]. split; [lia|].
    destruct (Z.le_gt_cases M (j + per)) as [Hm|Hm]; [left; lia|right].
    replace (_ - j0) with ((j - j0) + per) by lia. apply Z.divide_add_r; [auto|apply Z.divide_refl].
  - repeat split; auto; try lia. right. replace (j0 - j0) with 0 by lia. apply Z.divide_0_r.
  - lia.
  - lia.
  - rewrite Hmore in Hc. rewrite Hw. replace j with M in * by lia. eauto.
Qed.

Lemma acc_ok (flt inp : list C) fi ii s :
  0 <= fi < zlen flt -> 0 <= ii < zlen inp ->
  acc flt inp fi ii s = Ok (s [+] gz flt fi [*] gz inp ii).
Proof. intros. unfold acc. rewrite !rd_ok by assumption. reflexivity. Qed.

Lemma acc_neg_ok (flt inp : list C) fi ii s :
  0 <= fi < zlen flt -> 0 <= ii < zlen inp ->
  acc_neg flt inp fi ii s = Ok (s [-] gz flt fi [*] gz inp ii).
Proof. intros. unfold acc_neg. rewrite !rd_ok by assumption. reflexivity. Qed.

End Loops.
