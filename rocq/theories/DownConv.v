(** The downsampling convolution kernel computes the convolution with the
    extended signal, stays in bounds and terminates. *)
From Verif Require Import Base BaseLemmas CConv Spec LoopLemmas ExtLemmas.

Section Down.
Variable C : CRing.
Add Ring Cring_ring_d : (rth C).
Variable fuel : nat.
Variables inp flt : list C.
Let N := zlen inp.
Let F := zlen flt.
Hypothesis HN : 1 <= N.
Hypothesis HF : 1 <= F.
Hypothesis Hfuel : N + F + 4 <= Z.of_nat fuel.

Section Mode.
Variable m : mode.
Let e := ext m inp.
Hypothesis Hmin : min_len m <= N.
Hypothesis Hsm : m = SMOOTH -> 2 <= N.
Hypothesis Hper : m <> PERIODIZATION.
Variable i : Z.
Let T := fun j => gz flt j [*] e (i - j).

Lemma left_ext_spec s0 :
  0 <= i -> i + 1 <= F ->
  exists j, left_ext fuel m inp flt (i + 1, s0) = Ok (j, s0 [+] sumZ (i + 1) F T).
Proof.
  intros Hi HiF.
  set (P := fun (j : Z) (s : C) => s = s0 [+] sumZ (i + 1) j T).
  assert (HP0 : P (i + 1) s0) by (unfold P; rewrite sumZ_empty by lia; ring).
  assert (Hstep : forall j s, i + 1 <= j -> P j s -> P (j + 1) (s [+] T j)).
  { unfold P. intros j s Hj ->. rewrite sumZ_last by lia. ring. }
  assert (Hmore : forall j, (j <? F) = (j <? F)) by reflexivity.
  destruct m eqn:Em; unfold left_ext; fold N; fold F.
  - (* ZEROPAD *)
    exists (i + 1). rewrite sumZ_zero; [f_equal; f_equal; ring|].
    intros t Ht. unfold T, e. rewrite ext_zero by lia. ring.
  - (* SYMMETRIC *)
    destruct (wrap2_spec fuel P 0 N N F (fun j => j <? F)
       (fun j k s => acc flt inp j k s) (fun j k s => acc flt inp j (N - 1 - k) s) (i + 1) s0)
      as (s & Hs & HPs); try exact HP0; try lia; auto.
    + intros b j k a Hb Hbj HP Hk Hj Hjk. rewrite acc_ok by (fold F N; lia). eexists; split; [reflexivity|].
      replace (gz inp k) with (e (i - j)); [apply Hstep; [lia|exact HP]|].
      unfold e. replace (i - j) with ((i + 1 - b) - 1 - k) by lia. apply ext_sym; fold N; [|lia].
      replace (2 * N) with (N - 0 + (N - 0)) by lia.
      replace (i + 1 - b) with (- (b - (i + 1))) by lia. apply Z.divide_opp_r; auto.
    + intros b j k a Hb Hbj HP Hk Hj Hjk. rewrite acc_ok by (fold F N; lia). eexists; split; [reflexivity|].
      replace (gz inp (N - 1 - k)) with (e (i - j)); [apply Hstep; [lia|exact HP]|].
      unfold e. replace (i - j) with ((i + 1 - b - 2 * N) + (N - 1 - k)) by lia. apply ext_sym; fold N; [|lia].
      apply Z.divide_sub_r; [|apply Z.divide_refl].
      replace (2 * N) with (N - 0 + (N - 0)) by lia.
      replace (i + 1 - b) with (- (b - (i + 1))) by lia. apply Z.divide_opp_r; auto.
    + exists F. rewrite Hs. unfold P in HPs. rewrite HPs. reflexivity.
  - (* CONSTANT_EDGE *)
    destruct (forj1_spec fuel P F (fun j => j <? F) (fun j s => acc flt inp j 0 s) (i + 1) s0)
      as (s & Hs & HPs); auto; try lia.
    + intros j a HP Hj. rewrite acc_ok by (fold F N; lia). eexists; split; [reflexivity|].
      replace (gz inp 0) with (e (i - j)); [apply Hstep; [lia|exact HP]|].
      unfold e. apply ext_const_l; fold N; lia.
    + exists F. rewrite Hs. unfold P in HPs. rewrite HPs. reflexivity.
  - (* SMOOTH *)
    specialize (Hsm eq_refl).
    destruct (while_inv (fun '(k, j, s) => P j s /\ i + 1 <= j <= F /\ k = j - i)
      (fun '(k, j, s) => F - j)
      (fun '(k, j, s) => j <? F)
      (fun '(k, j, s) =>
           f <- rd flt j ;; x0 <- rd inp 0 ;; x1 <- rd inp 1 ;;
           Ok (k + 1, j + 1, s [+] f [*] (x0 [+] rz k [*] (x0 [-] x1)))))
      with (fuel := fuel) (s := (1, i + 1, s0)) as ([[k j] s] & Hw & (HP & Hj & Hk) & Hc).
    + intros [[k j] s] (HP & Hj & Hk) Hc. rewrite !rd_ok by (fold N F; lia). cbn [bind].
      eexists; split; [reflexivity|]. repeat split; try lia.
      rewrite <- ext_smooth_l by (fold N; lia). replace (- k) with (i - j) by lia.
      apply (Hstep j s); [lia|exact HP].
    + repeat split; auto; lia.
    + lia.
    + lia.
    + cbn [fst snd]. rewrite Hw. cbn [bind]. exists j. replace j with F in * by lia.
      unfold P in HP. rewrite HP. reflexivity.
  - (* PERIODIC *)
    destruct (wrap1_spec fuel P 0 N F (fun j => j <? F)
       (fun j k s => acc flt inp j (N - 1 - k) s) (i + 1) s0)
      as (s & Hs & HPs); try exact HP0; try lia; auto.
    + intros b j k a Hb Hbj HP Hk Hj Hjk. rewrite acc_ok by (fold F N; lia). eexists; split; [reflexivity|].
      replace (gz inp (N - 1 - k)) with (e (i - j)); [apply Hstep; [lia|exact HP]|].
      unfold e. replace (i - j) with ((i + 1 - b - N) + (N - 1 - k)) by lia. apply ext_per; fold N; [|lia].
      apply Z.divide_sub_r; [|apply Z.divide_refl].
      replace N with (N - 0) by lia.
      replace (i + 1 - b) with (- (b - (i + 1))) by lia. apply Z.divide_opp_r; auto.
    + exists F. rewrite Hs. unfold P in HPs. rewrite HPs. reflexivity.
  - congruence.
  - (* REFLECT *)
    cbn [min_len] in Hmin.
    destruct (wrap2_spec fuel P 1 N N F (fun j => j <? F)
       (fun j k s => acc flt inp j k s) (fun j k s => acc flt inp j (N - 1 - k) s) (i + 1) s0)
      as (s & Hs & HPs); try exact HP0; try lia; auto.
    + intros b j k a Hb Hbj HP Hk Hj Hjk. rewrite acc_ok by (fold F N; lia). eexists; split; [reflexivity|].
      replace (gz inp k) with (e (i - j)); [apply Hstep; [lia|exact HP]|].
      unfold e. replace (i - j) with ((i + 1 - b) - k) by lia. apply ext_refl; fold N; [lia| |lia].
      replace (2 * (N - 1)) with (N - 1 + (N - 1)) by lia.
      replace (i + 1 - b) with (- (b - (i + 1))) by lia. apply Z.divide_opp_r; auto.
    + intros b j k a Hb Hbj HP Hk Hj Hjk. rewrite acc_ok by (fold F N; lia). eexists; split; [reflexivity|].
      replace (gz inp (N - 1 - k)) with (e (i - j)); [apply Hstep; [lia|exact HP]|].
      unfold e. replace (i - j) with ((i + 1 - b - 2 * (N - 1)) + (N - 1 - k)) by lia.
      apply ext_refl; fold N; [lia| |lia].
      apply Z.divide_sub_r; [|apply Z.divide_refl].
      replace (2 * (N - 1)) with (N - 1 + (N - 1)) by lia.
      replace (i + 1 - b) with (- (b - (i + 1))) by lia. apply Z.divide_opp_r; auto.
    + exists F. rewrite Hs. unfold P in HPs. rewrite HPs. reflexivity.
  - (* ANTISYMMETRIC *)
    destruct (wrap2_spec fuel P 0 N N F (fun j => j <? F)
       (fun j k s => acc_neg flt inp j k s) (fun j k s => acc flt inp j (N - 1 - k) s) (i + 1) s0)
      as (s & Hs & HPs); try exact HP0; try lia; auto.
    + intros b j k a Hb Hbj HP Hk Hj Hjk. rewrite acc_neg_ok by (fold F N; lia).
      eexists; split; [reflexivity|].
      replace (a [-] gz flt j [*] gz inp k) with (a [+] gz flt j [*] [--] gz inp k) by ring.
      replace ([--] gz inp k) with (e (i - j)); [apply Hstep; [lia|exact HP]|].
      unfold e. replace (i - j) with ((i + 1 - b) - 1 - k) by lia. apply ext_asym; fold N; [|lia].
      replace (2 * N) with (N - 0 + (N - 0)) by lia.
      replace (i + 1 - b) with (- (b - (i + 1))) by lia. apply Z.divide_opp_r; auto.
    + intros b j k a Hb Hbj HP Hk Hj Hjk. rewrite acc_ok by (fold F N; lia). eexists; split; [reflexivity|].
      replace (gz inp (N - 1 - k)) with (e (i - j)); [apply Hstep; [lia|exact HP]|].
      unfold e. replace (i - j) with ((i + 1 - b - 2 * N) + (N - 1 - k)) by lia. apply ext_asym; fold N; [|lia].
      apply Z.divide_sub_r; [|apply Z.divide_refl].
      replace (2 * N) with (N - 0 + (N - 0)) by lia.
      replace (i + 1 - b) with (- (b - (i + 1))) by lia. apply Z.divide_opp_r; auto.
    + exists F. rewrite Hs. unfold P in HPs. rewrite HPs. reflexivity.
  - (* ANTIREFLECT *)
    cbn [min_len] in Hmin. cbn [fst snd].
    rewrite rd_ok by (fold N; lia). cbn [bind].
    set (per := 2 * (N - 1)).
    match goal with |- context [while fuel ?c ?b ?st0] =>
      destruct (while_inv (fun '(j, s, le, tmp) =>
          P j s /\ i + 1 <= j <= F /\ (F <= j \/ ((per | i + 1 - j) /\ le = e (i - j + 1))))
        (fun '(j, s, le, tmp) => F - j) c b) with (fuel := fuel) (s := st0)
        as ([[[j s] le] tmp] & Hw & (HP & Hj & _) & Hc) end.
    + intros [[[j s] le] tmp] (HP & Hj & Hl) Hc.
      destruct Hl as [Hl|[Hdv Hle]]; [lia|].
      (* first segment *)
      match goal with |- context [seg fuel 1 1 N ?mo ?u (j, (s, tmp))] =>
        destruct (seg1_spec fuel
          (fun j' '(s', tmp') => P j' s' /\ i + 1 <= j' /\ (j < j' -> tmp' = e (i - j' + 1)))
          1 N F mo u j (s, tmp)) as ([s1 tmp1] & He1 & (HP1 & Hj1 & Ht1)) end.
      * reflexivity.
      * intros j' k [s' tmp'] (HP' & Hj' & Ht') Hk HjF Hjk.
        rewrite !rd_ok by (fold N F; lia). cbn [bind]. eexists; split; [reflexivity|]. cbv beta iota.
        assert (Hv : le [-] (gz inp k [-] gz inp 0) = e (i - j')).
        { rewrite Hle. unfold e. replace (i - j') with ((i - j + 1) - k) by lia.
          rewrite ext_arefl_left1 by (fold N; auto; try lia; replace (i - j + 1) with (i + 1 - j) by lia; auto).
          reflexivity. }
        rewrite Hv. split; [apply Hstep; [lia|exact HP']|]. split; [lia|].
        intros _. f_equal. lia.
      * repeat split; auto; lia.
      * lia.
      * lia.
      * rewrite He1. cbn [bind].
        set (j1 := Z.max j (Z.min F (j + N - 1))) in *.
        (* second segment *)
        match goal with |- context [seg fuel 1 1 N ?mo ?u (j1, (s1, tmp1))] =>
          destruct (seg1_spec fuel
            (fun j' '(s', tmp') => P j' s' /\ i + 1 <= j' /\ (j1 < j' -> tmp' = e (i - j' + 1)))
            1 N F mo u j1 (s1, tmp1)) as ([s2 tmp2] & He2 & (HP2 & Hj2 & Ht2)) end.
        -- reflexivity.
        -- intros j' k [s' tmp'] (HP' & Hj' & Ht') Hk HjF Hjk.
           rewrite !rd_ok by (fold N F; lia). cbn [bind]. eexists; split; [reflexivity|]. cbv beta iota.
           assert (Hv : tmp1 [+] (gz inp (N - 1 - k) [-] gz inp (N - 1)) = e (i - j')).
           { rewrite Ht1 by lia. unfold e.
             replace (i - j1 + 1) with ((i + 1 - j - per) + (N - 1)) by lia.
             replace (i - j') with ((i + 1 - j - per) + (N - 1) - k) by lia.
             rewrite ext_arefl_left2 by (fold N; try lia; (apply Z.divide_sub_r; [auto|apply Z.divide_refl])).
             reflexivity. }
           rewrite Hv. split; [apply Hstep; [lia|exact HP']|]. split; [lia|].
           intros _. f_equal. lia.
        -- repeat split; auto; lia.
        -- lia.
        -- lia.
        -- rewrite He2. cbn [bind]. eexists; split; [reflexivity|]. cbv beta iota.
           set (j2 := Z.max j1 (Z.min F (j1 + N - 1))) in *.
           split; [|lia]. split; [auto|]. split; [lia|].
           destruct (Z.le_gt_cases F (j + per)); [left; lia|right].
           split; [|apply Ht2; lia].
           replace (i + 1 - j2) with (i + 1 - j - per) by lia.
           apply Z.divide_sub_r; [auto|apply Z.divide_refl].
    + split; [exact HP0|]. split; [lia|]. right.
      replace (i + 1 - (i + 1)) with 0 by lia. split; [apply Z.divide_0_r|].
      replace (i - (i + 1) + 1) with 0 by lia. symmetry. apply ext_in. fold N. lia.
    + lia.
    + lia.
    + rewrite Hw. cbn [bind]. exists j. replace j with F in * by lia.
      unfold P in HP. rewrite HP. reflexivity.
Qed.

Lemma right_ext_spec :
  N <= i -> i - N < F ->
  right_ext fuel m inp flt i (0, r0) = Ok (i - N + 1, sumZ 0 (i - N + 1) T).
Proof.
  intros Hi HiF.
  set (Q := fun (j : Z) (s : C) => s = sumZ (i - N - j + 1) (i - N + 1) T).
  set (P := fun (j : Z) (s : C) => s = sumZ 0 j T).
  assert (HQ0 : Q 0 r0) by (unfold Q; rewrite sumZ_empty by lia; ring).
  assert (HP0 : P 0 r0) by (unfold P; rewrite sumZ_empty by lia; ring).
  assert (HQstep : forall j s, 0 <= j -> Q j s -> Q (j + 1) (s [+] T (i - N - j))).
  { unfold Q. intros j s Hj ->. rewrite (sumZ_first _ (i - N - (j + 1) + 1)) by lia.
    replace (i - N - (j + 1) + 1) with (i - N - j) by lia. ring. }
  assert (HPstep : forall j s, 0 <= j -> P j s -> P (j + 1) (s [+] T j)).
  { unfold P. intros j s Hj ->. rewrite sumZ_last by lia. ring. }
  assert (HQend : forall s, Q (i - N + 1) s -> s = sumZ 0 (i - N + 1) T).
  { unfold Q. intros s ->. f_equal. lia. }
  assert (Hmore : forall j, (N <=? i - j) = (j <? i - N + 1)) by (intros; lia).
  destruct m eqn:Em; unfold right_ext; fold N; fold F.
  - (* ZEROPAD *)
    cbn [snd]. rewrite sumZ_zero; [reflexivity|].
    intros t Ht. unfold T, e. rewrite ext_zero by lia. ring.
  - (* SYMMETRIC *)
    destruct (wrap2_spec fuel Q 0 N N (i - N + 1) (fun j => N <=? i - j)
       (fun j k s => acc flt inp (i - N - j) (N - 1 - k) s)
       (fun j k s => acc flt inp (i - N - j) k s) 0 r0)
      as (s & Hs & HQs); try exact HQ0; try lia; auto.
    + intros b j k a Hb Hbj HQ Hk Hj Hjk. rewrite acc_ok by (fold F N; lia). eexists; split; [reflexivity|].
      replace (gz inp (N - 1 - k)) with (e (i - (i - N - j))); [apply HQstep; [lia|exact HQ]|].
      unfold e. replace (i - (i - N - j)) with ((b - 0 + 2 * N) - 1 - (N - 1 - k)) by lia.
      apply ext_sym; fold N; [|lia]. apply Z.divide_add_r; [|apply Z.divide_refl].
      replace (2 * N) with (N - 0 + (N - 0)) by lia. auto.
    + intros b j k a Hb Hbj HQ Hk Hj Hjk. rewrite acc_ok by (fold F N; lia). eexists; split; [reflexivity|].
      replace (gz inp k) with (e (i - (i - N - j))); [apply HQstep; [lia|exact HQ]|].
      unfold e. replace (i - (i - N - j)) with ((b - 0 + 2 * N) + k) by lia. apply ext_sym; fold N; [|lia].
      apply Z.divide_add_r; [|apply Z.divide_refl].
      replace (2 * N) with (N - 0 + (N - 0)) by lia. auto.
    + rewrite Hs. rewrite (HQend s) by exact HQs. reflexivity.
  - (* CONSTANT_EDGE *)
    destruct (forj1_spec fuel P (i - N + 1) (fun j => N <=? i - j) (fun j s => acc flt inp j (N - 1) s) 0 r0)
      as (s & Hs & HPs); auto; try lia.
    + intros j a HP Hj. rewrite acc_ok by (fold F N; lia). eexists; split; [reflexivity|].
      replace (gz inp (N - 1)) with (e (i - j)); [apply HPstep; [lia|exact HP]|].
      unfold e. apply ext_const_r; fold N; lia.
    + rewrite Hs. unfold P in HPs. rewrite HPs. reflexivity.
  - (* SMOOTH *)
    specialize (Hsm eq_refl).
    match goal with |- context [while fuel ?c ?b ?st0] =>
      destruct (while_inv (fun '(k, j, s) => P j s /\ 0 <= j <= i - N + 1 /\ k = i - N + 1 - j)
        (fun '(k, j, s) => i - N + 1 - j) c b) with (fuel := fuel) (s := st0)
        as ([[k j] s] & Hw & (HP & Hj & Hk) & Hc) end.
    + intros [[k j] s] (HP & Hj & Hk) Hc. rewrite !rd_ok by (fold N F; lia). cbn [bind].
      eexists; split; [reflexivity|]. cbv beta iota. repeat split; try lia.
      rewrite <- ext_smooth_r by (fold N; lia). fold N. replace (N - 1 + k) with (i - j) by lia.
      apply (HPstep j s); [lia|exact HP].
    + cbn [fst snd]. split; [exact HP0|]. lia.
    + cbn [fst snd]. lia.
    + lia.
    + cbn [fst snd]. cbn [fst snd] in Hw. rewrite Hw. cbn [bind]. replace j with (i - N + 1) in * by lia.
      unfold P in HP. rewrite HP. reflexivity.
  - (* PERIODIC *)
    destruct (wrap1_spec fuel Q 0 N (i - N + 1) (fun j => N <=? i - j)
       (fun j k s => acc flt inp (i - N - j) k s) 0 r0)
      as (s & Hs & HQs); try exact HQ0; try lia; auto.
    + intros b j k a Hb Hbj HQ Hk Hj Hjk. rewrite acc_ok by (fold F N; lia). eexists; split; [reflexivity|].
      replace (gz inp k) with (e (i - (i - N - j))); [apply HQstep; [lia|exact HQ]|].
      unfold e. replace (i - (i - N - j)) with ((b - 0 + N) + k) by lia. apply ext_per; fold N; [|lia].
      apply Z.divide_add_r; [|apply Z.divide_refl].
      replace N with (N - 0) by lia. auto.
    + rewrite Hs. rewrite (HQend s) by exact HQs. reflexivity.
  - congruence.
  - (* REFLECT *)
    cbn [min_len] in Hmin.
    destruct (wrap2_spec fuel Q 1 N N (i - N + 1) (fun j => N <=? i - j)
       (fun j k s => acc flt inp (i - N - j) (N - 1 - k) s)
       (fun j k s => acc flt inp (i - N - j) k s) 0 r0)
      as (s & Hs & HQs); try exact HQ0; try lia; auto.
    + intros b j k a Hb Hbj HQ Hk Hj Hjk. rewrite acc_ok by (fold F N; lia). eexists; split; [reflexivity|].
      replace (gz inp (N - 1 - k)) with (e (i - (i - N - j))); [apply HQstep; [lia|exact HQ]|].
      unfold e. replace (i - (i - N - j)) with ((b - 0 + 2 * (N - 1)) - (N - 1 - k)) by lia.
      apply ext_refl; fold N; [lia| |lia]. apply Z.divide_add_r; [|apply Z.divide_refl].
      replace (2 * (N - 1)) with (N - 1 + (N - 1)) by lia. auto.
    + intros b j k a Hb Hbj HQ Hk Hj Hjk. rewrite acc_ok by (fold F N; lia). eexists; split; [reflexivity|].
      replace (gz inp k) with (e (i - (i - N - j))); [apply HQstep; [lia|exact HQ]|].
      unfold e. replace (i - (i - N - j)) with ((b - 0 + 2 * (N - 1)) + k) by lia.
      apply ext_refl; fold N; [lia| |lia].
      apply Z.divide_add_r; [|apply Z.divide_refl].
      replace (2 * (N - 1)) with (N - 1 + (N - 1)) by lia. auto.
    + rewrite Hs. rewrite (HQend s) by exact HQs. reflexivity.
  - (* ANTISYMMETRIC *)
    destruct (wrap2_spec fuel Q 0 N N (i - N + 1) (fun j => N <=? i - j)
       (fun j k s => acc_neg flt inp (i - N - j) (N - 1 - k) s)
       (fun j k s => acc flt inp (i - N - j) k s) 0 r0)
      as (s & Hs & HQs); try exact HQ0; try lia; auto.
    + intros b j k a Hb Hbj HQ Hk Hj Hjk. rewrite acc_neg_ok by (fold F N; lia).
      eexists; split; [reflexivity|].
      replace (a [-] gz flt (i - N - j) [*] gz inp (N - 1 - k))
        with (a [+] gz flt (i - N - j) [*] [--] gz inp (N - 1 - k)) by ring.
      replace ([--] gz inp (N - 1 - k)) with (e (i - (i - N - j))); [apply HQstep; [lia|exact HQ]|].
      unfold e. replace (i - (i - N - j)) with ((b - 0 + 2 * N) - 1 - (N - 1 - k)) by lia.
      apply ext_asym; fold N; [|lia]. apply Z.divide_add_r; [|apply Z.divide_refl].
      replace (2 * N) with (N - 0 + (N - 0)) by lia. auto.
    + intros b j k a Hb Hbj HQ Hk Hj Hjk. rewrite acc_ok by (fold F N; lia). eexists; split; [reflexivity|].
      replace (gz inp k) with (e (i - (i - N - j))); [apply HQstep; [lia|exact HQ]|].
      unfold e. replace (i - (i - N - j)) with ((b - 0 + 2 * N) + k) by lia. apply ext_asym; fold N; [|lia].
      apply Z.divide_add_r; [|apply Z.divide_refl].
      replace (2 * N) with (N - 0 + (N - 0)) by lia. auto.
    + rewrite Hs. rewrite (HQend s) by exact HQs. reflexivity.
  - (* ANTIREFLECT *)
    cbn [min_len] in Hmin. cbn [fst snd].
    rewrite rd_ok by (fold N; lia). cbn [bind].
    set (per := 2 * (N - 1)). set (M := i - N + 1) in *.
    match goal with |- context [while fuel ?c ?b ?st0] =>
      destruct (while_inv (fun '(j, s, re, tmp) =>
          Q j s /\ 0 <= j <= M /\ (M <= j \/ ((per | j) /\ re = e (N - 1 + j))))
        (fun '(j, s, re, tmp) => M - j) c b) with (fuel := fuel) (s := st0)
        as ([[[j s] re] tmp] & Hw & (HP & Hj & _) & Hc) end.
    + intros [[[j s] re] tmp] (HQ & Hj & Hl) Hc. rewrite Hmore in Hc.
      destruct Hl as [Hl|[Hdv Hre]]; [lia|].
      (* first segment *)
      match goal with |- context [seg fuel 1 1 N ?mo ?u (j, (s, tmp))] =>
        destruct (seg1_spec fuel
          (fun j' '(s', tmp') => Q j' s' /\ 0 <= j' /\ (j < j' -> tmp' = e (N - 1 + j')))
          1 N M mo u j (s, tmp)) as ([s1 tmp1] & He1 & (HQ1 & Hj1 & Ht1)) end.
      * exact Hmore.
      * intros j' k [s' tmp'] (HQ' & Hj' & Ht') Hk HjF Hjk.
        rewrite !rd_ok by (fold N F; lia). cbn [bind]. eexists; split; [reflexivity|]. cbv beta iota.
        assert (Hv : re [-] (gz inp (N - 1 - k) [-] gz inp (N - 1)) = e (i - (i - N - j'))).
        { rewrite Hre. unfold e. replace (i - (i - N - j')) with (j + (N - 1) + k) by lia.
          replace (N - 1 + j) with (j + (N - 1)) by lia.
          rewrite ext_arefl_right1 by (fold N; auto; try lia).
          reflexivity. }
        rewrite Hv. split; [apply HQstep; [lia|exact HQ']|]. split; [lia|].
        intros _. f_equal. lia.
      * repeat split; auto; lia.
      * lia.
      * lia.
      * rewrite He1. cbn [bind].
        set (j1 := Z.max j (Z.min M (j + N - 1))) in *.
        (* second segment *)
        match goal with |- context [seg fuel 1 1 N ?mo ?u (j1, (s1, tmp1))] =>
          destruct (seg1_spec fuel
            (fun j' '(s', tmp') => Q j' s' /\ 0 <= j' /\ (j1 < j' -> tmp' = e (N - 1 + j')))
            1 N M mo u j1 (s1, tmp1)) as ([s2 tmp2] & He2 & (HQ2 & Hj2 & Ht2)) end.
        -- exact Hmore.
        -- intros j' k [s' tmp'] (HQ' & Hj' & Ht') Hk HjF Hjk.
           rewrite !rd_ok by (fold N F; lia). cbn [bind]. eexists; split; [reflexivity|]. cbv beta iota.
           assert (Hv : tmp1 [+] (gz inp k [-] gz inp 0) = e (i - (i - N - j'))).
           { rewrite Ht1 by lia. unfold e.
             replace (N - 1 + j1) with (j + per) by lia.
             replace (i - (i - N - j')) with ((j + per) + k) by lia.
             rewrite (ext_arefl_right2 _ _ (j + per) k) by (fold N; try lia; (apply Z.divide_add_r; [auto|apply Z.divide_refl])).
             reflexivity. }
           rewrite Hv. split; [apply HQstep; [lia|exact HQ']|]. split; [lia|].
           intros _. f_equal. lia.
        -- repeat split; auto; lia.
        -- lia.
        -- lia.
        -- rewrite He2. cbn [bind]. eexists; split; [reflexivity|]. cbv beta iota.
           set (j2 := Z.max j1 (Z.min M (j1 + N - 1))) in *.
           split; [|lia]. split; [auto|]. split; [lia|].
           destruct (Z.le_gt_cases M (j + per)); [left; lia|right].
           split; [|apply Ht2; lia].
           replace j2 with (j + per) by lia. apply Z.divide_add_r; [auto|apply Z.divide_refl].
    + split; [exact HQ0|]. split; [lia|]. right. split; [apply Z.divide_0_r|].
      rewrite Z.add_0_r. symmetry. apply ext_in. fold N. lia.
    + lia.
    + lia.
    + rewrite Hw. cbn [bind]. rewrite Hmore in Hc. replace j with M in * by lia.
      rewrite (HQend s) by exact HP. reflexivity.
Qed.

(** the part of the filter over the data: [j0 <= j <= i] *)
Lemma centre_spec j0 jend more s0 :
  (forall j, more j = (j <? jend)) ->
  0 <= j0 -> j0 <= jend -> jend <= F -> i - j0 < N -> jend <= i + 1 ->
  forj fuel 1 more (fun j s => acc flt inp j (i - j) s) (j0, s0)
   = Ok (jend, s0 [+] sumZ j0 jend T).
Proof.
  intros Hmore H0 H1 H2 H3 H4.
  destruct (forj1_spec fuel (fun j s => s = s0 [+] sumZ j0 j T) jend more
     (fun j s => acc flt inp j (i - j) s) j0 s0) as (s & Hs & HP); auto; try lia.
  - intros j a -> Hj. rewrite acc_ok by (fold N F; lia). eexists; split; [reflexivity|].
    rewrite sumZ_last by lia.
    replace (T j) with (gz flt j [*] gz inp (i - j)) by (unfold T, e; rewrite ext_in by (fold N; lia); reflexivity).
    ring.
  - rewrite sumZ_empty by lia. ring.
  - rewrite Hs, HP. reflexivity.
Qed.

End Mode.

(** ** the whole kernel *)
Variable step : Z.
Hypothesis Hstep : 1 <= step.

Definition out_len_n : Z := (N + F - 1) / step.

Lemma down_idx_bound o : 0 <= o -> step * o + step - 1 < N + F - 1 -> o < out_len_n.
Proof.
  intros Ho H. unfold out_len_n.
  assert (o + 1 <= (N + F - 1) / step) by (apply Z.div_le_lower_bound; lia). lia.
Qed.

Lemma down_idx_bound_inv o : 0 <= o < out_len_n -> step * o + step - 1 < N + F - 1.
Proof.
  unfold out_len_n. intros [Ho H].
  assert (step * ((N + F - 1) / step) <= N + F - 1) by (apply Z.mul_div_le; lia).
  assert (step * (o + 1) <= step * ((N + F - 1) / step)) by (apply Z.mul_le_mono_nonneg_l; lia).
  lia.
Qed.

Section Outer.
Variable m : mode.
Hypothesis Hmin : min_len m <= N.
Hypothesis Hsm : m = SMOOTH -> 2 <= N.
Hypothesis Hper : m <> PERIODIZATION.
Variable out : list C.
Hypothesis Hout : zlen out = out_len_n.

Let Inv := fun '(i, o, out') =>
  0 <= o /\ i = step * o + step - 1 /\ zlen (out' : list C) = out_len_n /\
  forall t, 0 <= t < o -> gz out' t = conv flt (ext m inp) (step * t + step - 1).

Lemma inv_step i o (out' : list C) s :
  Inv (i, o, out') -> i < N + F - 1 -> s = conv flt (ext m inp) i ->
  exists out'', wr out' o s = Ok out'' /\ Inv (i + step, o + 1, out'').
Proof.
  intros (Ho & Hi & Hl & Ht) HiM Hs. assert (o < out_len_n) by (apply down_idx_bound; lia).
  rewrite wr_ok by lia. eexists; split; [reflexivity|].
  cbn [Inv]. rewrite zlen_upd. repeat split; try lia.
  intros t Htr. rewrite gz_upd by lia. destruct (Z.eqb_spec t o) as [->|Hne].
  - rewrite Hs, Hi. reflexivity.
  - apply Ht. lia.
Qed.

Lemma downsampling_convolution_body_spec :
  exists out',
  (let m' := m in
  st <- while fuel (fun '(i, o, out) => (i <? F) && (i <? N))
    (fun '(i, o, out) =>
       '(j, s) <- forj fuel 1 (fun j => j <=? i) (fun j s => acc flt inp j (i - j) s) (0, r0) ;;
       '(j, s) <- left_ext fuel m' inp flt (j, s) ;;
       out <- wr out o s ;; Ok (i + step, o + 1, out)) (step - 1, 0, out) ;;
  st <- while fuel (fun '(i, o, out) => i <? N)
    (fun '(i, o, out) =>
       '(j, s) <- forj fuel 1 (fun j => j <? F) (fun j s => acc flt inp j (i - j) s) (0, r0) ;;
       out <- wr out o s ;; Ok (i + step, o + 1, out)) st ;;
  st <- while fuel (fun '(i, o, out) => i <? F)
    (fun '(i, o, out) =>
       '(j, s) <- right_ext fuel m' inp flt i (0, r0) ;;
       '(j, s) <- forj fuel 1 (fun j => j <=? i) (fun j s => acc flt inp j (i - j) s) (j, s) ;;
       '(j, s) <- left_ext fuel m' inp flt (j, s) ;;
       out <- wr out o s ;; Ok (i + step, o + 1, out)) st ;;
  '(_, _, out) <- while fuel (fun '(i, o, out) => i <? N + F - 1)
    (fun '(i, o, out) =>
       '(j, s) <- right_ext fuel m' inp flt i (0, r0) ;;
       '(j, s) <- forj fuel 1 (fun j => j <? F) (fun j s => acc flt inp j (i - j) s) (j, s) ;;
       out <- wr out o s ;; Ok (i + step, o + 1, out)) st ;;
  Ok out) = Ok out' /\ zlen out' = out_len_n /\
  forall t, 0 <= t < out_len_n -> gz out' t = conv flt (ext m inp) (step * t + step - 1).
Proof.
  cbv zeta.
  (* phase 1 *)
  match goal with |- context [while fuel ?c ?b (step - 1, 0, out)] =>
    destruct (while_inv Inv (fun '(i, o, out) => N - i) c b) with (fuel := fuel) (s := (step - 1, 0, out))
      as ([[i1 o1] out1] & Hw1 & Hi1 & Hc1) end.
  { intros [[i o] out'] HI Hc. pose proof HI as (Ho & Hi & Hl & Ht). assert (0 <= i) by nia.
    rewrite (centre_spec m i 0 (i + 1)) by (intros; lia). cbn [bind].
    match goal with |- context [left_ext _ _ _ _ (_, ?s0)] =>
      destruct (left_ext_spec m Hmin Hsm Hper i s0) as (j & Hj); [lia|lia|] end.
    rewrite Hj. cbn [bind].
    match goal with |- context [wr out' o ?s] => destruct (inv_step i o out' s HI) as (out'' & Hwr & HI') end.
    - lia.
    - unfold conv. fold F. rewrite (sumZ_split _ 0 (i + 1) F) by lia. ring.
    - rewrite Hwr. cbn [bind]. eexists; split; [reflexivity|]. split; [exact HI'|lia]. }
  { cbn [Inv]. repeat split; auto; intros; lia. }
  { lia. }
  { lia. }
  rewrite Hw1. cbn [bind].
  (* phase 2 *)
  match goal with |- context [while fuel ?c ?b (i1, o1, out1)] =>
    destruct (while_inv (fun st => Inv st /\ let '(i, o, out) := st in (N <= i \/ F <= i)) (fun '(i, o, out) => N - i) c b) with (fuel := fuel) (s := (i1, o1, out1))
      as ([[i2 o2] out2] & Hw2 & [Hi2 _] & Hc2) end.
  { intros [[i o] out'] [HI HiF] Hc. pose proof HI as (Ho & Hi & Hl & Ht). assert (0 <= i) by nia.
    rewrite (centre_spec m i 0 F) by (intros; lia). cbn [bind].
    match goal with |- context [wr out' o ?s] => destruct (inv_step i o out' s HI) as (out'' & Hwr & HI') end.
    - lia.
    - unfold conv. fold F. ring.
    - rewrite Hwr. cbn [bind]. eexists; split; [reflexivity|]. split; [split; [exact HI'|lia]|lia]. }
  { split; [exact Hi1|]. lia. }
  { destruct Hi1. nia. }
  { lia. }
  rewrite Hw2. cbn [bind].
  (* phase 3 *)
  match goal with |- context [while fuel ?c ?b (i2, o2, out2)] =>
    destruct (while_inv (fun st => Inv st /\ let '(i, o, out) := st in N <= i) (fun '(i, o, out) => F - i) c b)
      with (fuel := fuel) (s := (i2, o2, out2))
      as ([[i3 o3] out3] & Hw3 & [Hi3 Hi3N] & Hc3) end.
  { intros [[i o] out'] [HI HiN] Hc. pose proof HI as (Ho & Hi & Hl & Ht).
    rewrite (right_ext_spec m Hmin Hsm Hper i) by lia. cbn [bind].
    rewrite (centre_spec m i (i - N + 1) (i + 1)) by (intros; lia). cbn [bind].
    match goal with |- context [left_ext _ _ _ _ (_, ?s0)] =>
      destruct (left_ext_spec m Hmin Hsm Hper i s0) as (j & Hj); [lia|lia|] end.
    rewrite Hj. cbn [bind].
    match goal with |- context [wr out' o ?s] => destruct (inv_step i o out' s HI) as (out'' & Hwr & HI') end.
    - lia.
    - unfold conv. fold F. rewrite (sumZ_split _ 0 (i - N + 1) F) by lia.
      rewrite (sumZ_split _ (i - N + 1) (i + 1) F) by lia. ring.
    - rewrite Hwr. cbn [bind]. eexists; split; [reflexivity|]. split; [split; [exact HI'|lia]|lia]. }
  { split; [exact Hi2|]. lia. }
  { destruct Hi2. nia. }
  { lia. }
  rewrite Hw3. cbn [bind].
  (* phase 4 *)
  match goal with |- context [while fuel ?c ?b (i3, o3, out3)] =>
    destruct (while_inv (fun st => Inv st /\ let '(i, o, out) := st in N <= i /\ F <= i) (fun '(i, o, out) => N + F - i) c b)
      with (fuel := fuel) (s := (i3, o3, out3))
      as ([[i4 o4] out4] & Hw4 & [Hi4 _] & Hc4) end.
  { intros [[i o] out'] [HI HiN] Hc. pose proof HI as (Ho & Hi & Hl & Ht).
    rewrite (right_ext_spec m Hmin Hsm Hper i) by lia. cbn [bind].
    rewrite (centre_spec m i (i - N + 1) F) by (intros; lia). cbn [bind].
    match goal with |- context [wr out' o ?s] => destruct (inv_step i o out' s HI) as (out'' & Hwr & HI') end.
    - lia.
    - unfold conv. fold F. rewrite (sumZ_split _ 0 (i - N + 1) F) by lia. ring.
    - rewrite Hwr. cbn [bind]. eexists; split; [reflexivity|]. split; [split; [exact HI'|lia]|lia]. }
  { split; [exact Hi3|]. lia. }
  { destruct Hi3. nia. }
  { lia. }
  rewrite Hw4. cbn [bind]. destruct Hi4 as (Ho & Hi & Hl & Ht).
  exists out4. repeat split; auto. intros t Htr. apply Ht.
  apply down_idx_bound_inv in Htr as Hb. split; [lia|]. nia.
Qed.
End Outer.
End Down.

(** The kernel [downsampling_convolution], any non-periodization mode. *)
Theorem downsampling_convolution_spec (C : CRing) fuel (inp flt out : list C) step m :
  m <> PERIODIZATION -> min_len m <= zlen inp -> 1 <= zlen flt -> 1 <= step ->
  zlen out = (zlen inp + zlen flt - 1) / step ->
  zlen inp + zlen flt + 4 <= Z.of_nat fuel ->
  downsampling_convolution fuel inp flt out step m
  = Ok (tab ((zlen inp + zlen flt - 1) / step)
            (fun k => conv flt (ext m inp) (step * k + step - 1))).
Proof.
  intros Hp Hmin HF Hs Hout Hfuel.
  assert (HN : 1 <= zlen inp) by (destruct m; cbn [min_len] in Hmin; lia).
  assert (Hdiv : 0 <= (zlen inp + zlen flt - 1) / step) by (apply Z.div_pos; lia).
  set (m' := match m with SMOOTH => if zlen inp <? 2 then CONSTANT_EDGE else SMOOTH | _ => m end).
  assert (Hm' : m' <> PERIODIZATION) by (unfold m'; destruct m; try congruence; destruct (_ <? _); congruence).
  assert (Hmin' : min_len m' <= zlen inp)
    by (unfold m'; destruct m; auto; destruct (_ <? _); cbn [min_len]; lia).
  assert (Hsm' : m' = SMOOTH -> 2 <= zlen inp)
    by (unfold m'; destruct m; try discriminate; destruct (Z.ltb_spec (zlen inp) 2); [discriminate|lia]).
  assert (Hext : forall n, ext m' inp n = ext m inp n).
  { intros n. unfold m'. destruct m; auto. destruct (Z.ltb_spec (zlen inp) 2); auto.
    symmetry. apply ext_smooth_short. lia. }
  destruct (downsampling_convolution_body_spec C fuel inp flt HN HF Hfuel step Hs m' Hmin' Hsm' Hm' out Hout)
    as (out' & He & Hl & Ht).
  assert (Hk : downsampling_convolution fuel inp flt out step m = Ok out').
  { rewrite <- He. unfold downsampling_convolution. destruct m; reflexivity || congruence. }
  rewrite Hk. f_equal. apply list_ext.
  - rewrite Hl, zlen_tab by lia. reflexivity.
  - intros i Hi. rewrite Hl in Hi. unfold out_len_n in *. rewrite gz_tab by lia. rewrite Ht by lia.
    unfold conv. apply sumZ_ext. intros j _. rewrite Hext. reflexivity.
Qed.
