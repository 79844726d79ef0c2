(** The periodization downsampling kernel (dwt and swt) computes a circular
    convolution, stays in bounds and terminates. *)
From Verif Require Import Base BaseLemmas CConv Spec LoopLemmas ExtLemmas.

Section Per.
Variable C : CRing.
Add Ring Cring_ring_dp : (rth C).
Variable fuel : nat.
Variables inp flt : list C.
Let N := zlen inp.
Let F := zlen flt.
Hypothesis HN : 1 <= N.
Hypothesis HF : 1 <= F.
Variables step fstep : Z.
Hypothesis Hstep : 1 <= step.
Hypothesis Hfstep : 1 <= fstep.
Hypothesis Hfuel : N + F + step + fstep + 4 <= Z.of_nat fuel.
Variable pad : Z.
Hypothesis pad_range : 0 <= pad < step.
Hypothesis Hcase : fstep = 1 \/ (pad = 0 /\ (fstep | N)).
Hypothesis Hzero : forall t, ~ (fstep | t) -> gz flt t = r0.
Let M := N + pad.
Let e := pext pad inp.

Lemma pext_at p r : (M | p) -> 0 <= r < M -> e (p + r) = gz inp (Z.min r (N - 1)).
Proof. intros Hp Hr. unfold e, pext. fold N. fold M. rewrite mod_div_add by auto. reflexivity. Qed.

Lemma pext_in n : 0 <= n < N -> e n = gz inp n.
Proof.
  intros Hn. replace n with (0 + n) at 1 by lia. pose proof pad_range.
  rewrite pext_at; [f_equal; lia | apply Z.divide_0_r | unfold M; lia].
Qed.

Section I.
Variable i : Z.
Let T := fun j => gz flt j [*] e (i - j).
Let P := fun (j : Z) (s : C) => s = sumZ 0 j T.

Lemma T_zero j : ~ (fstep | j) -> T j = r0.
Proof. intros H. unfold T. rewrite Hzero by auto. ring. Qed.

Lemma T_big j : F <= j -> T j = r0.
Proof. intros H. unfold T. rewrite gz_big by auto. ring. Qed.

Lemma P_skip j j' s : 0 <= j <= j' -> (forall t, j <= t < j' -> ~ (fstep | t)) -> P j s -> P j' s.
Proof.
  unfold P. intros Hj Hn ->. rewrite (sumZ_split _ 0 j j') by lia.
  rewrite (sumZ_zero _ j j'); [ring|]. intros t Ht. apply T_zero. apply Hn. auto.
Qed.

Lemma P_step j s : 0 <= j -> (fstep | j) -> P j s -> P (j + fstep) (s [+] T j).
Proof.
  intros Hj Hd HP. apply (P_skip (j + 1)); [lia| |].
  - intros t Ht [q Hq]. destruct Hd as [q' Hq']. assert (q' < q < q' + 1) by nia. lia.
  - unfold P in *. rewrite HP, sumZ_last by lia. reflexivity.
Qed.

Lemma P_end j s : F <= j -> P j s -> s = conv flt e i.
Proof.
  unfold P, conv. fold F. intros Hj ->. rewrite (sumZ_split _ 0 F j) by lia.
  rewrite (sumZ_zero _ F j); [unfold T; ring|]. intros t Ht. apply T_big. lia.
Qed.

Lemma per_left_spec j0 s0 ks :
  0 <= i -> i < j0 -> j0 - fstep <= i -> (fstep | j0) -> P j0 s0 ->
  ks = (if 1 <? fstep then j0 - (i + 1) else 0) ->
  exists j, per_left fuel inp flt pad fstep ks (j0, s0) = Ok (j, conv flt e i).
Proof.
  intros Hi Hj0 Hj0' Hd HP Hks. pose proof pad_range as Hpad.
  unfold per_left. fold N F.
  destruct (Z.eq_dec fstep 1) as [E|E].
  - (* unit stride *)
    rewrite E in Hks, Hj0' |- *. cbn [Z.ltb] in Hks. replace ks with 0 by (subst; reflexivity).
    replace j0 with (i + 1) in * by lia. clear j0 Hj0 Hj0'.
    destruct (Z.le_gt_cases F (i + 1)) as [HFi|HFi].
    { exists (i + 1). destruct fuel as [|fu]; [lia|]. cbn [while].
      replace (i + 1 <? F) with false by lia. rewrite (P_end (i + 1) s0) by (auto; lia). reflexivity. }
    destruct (wrap2_spec fuel P 0 pad N F (fun j => j <? F)
      (fun j k s => acc flt inp j (N - 1) s) (fun j k s => acc flt inp j (N - 1 - k) s) (i + 1) s0)
      as (s & Hs & HPs); auto; try lia.
    + intros b j k a Hb Hbj HPa Hk Hj Hjk. rewrite acc_ok by (fold F N; lia). eexists; split; [reflexivity|].
      replace (gz inp (N - 1)) with (e (i - j)).
      * assert (HH := P_step j a ltac:(lia) ltac:(rewrite E; apply Z.divide_1_l) HPa); rewrite E in HH; exact HH.
      * replace (i - j) with ((i + 1 - b - M) + (M - 1 - k)) by lia. rewrite pext_at.
        -- f_equal. unfold M; lia.
        -- apply Z.divide_sub_r; [|apply Z.divide_refl].
           replace M with (pad - 0 + (N - 0)) by (unfold M; lia).
           replace (i + 1 - b) with (- (b - (i + 1))) by lia. apply Z.divide_opp_r; auto.
        -- unfold M; lia.
    + intros b j k a Hb Hbj HPa Hk Hj Hjk. rewrite acc_ok by (fold F N; lia). eexists; split; [reflexivity|].
      replace (gz inp (N - 1 - k)) with (e (i - j)).
      * assert (HH := P_step j a ltac:(lia) ltac:(rewrite E; apply Z.divide_1_l) HPa); rewrite E in HH; exact HH.
      * replace (i - j) with ((i + 1 - b - M) + (N - 1 - k)) by (unfold M; lia). rewrite pext_at.
        -- f_equal. lia.
        -- apply Z.divide_sub_r; [|apply Z.divide_refl].
           replace M with (pad - 0 + (N - 0)) by (unfold M; lia).
           replace (i + 1 - b) with (- (b - (i + 1))) by lia. apply Z.divide_opp_r; auto.
        -- unfold M; lia.
    + exists F. rewrite Hs. rewrite (P_end F s) by (auto; lia). reflexivity.
  - (* strided, no padding *)
    destruct Hcase as [|[Hp0 HdN]]; [contradiction|].
    replace (1 <? fstep) with true in Hks by lia.
    assert (HMN : M = N) by (unfold M; lia).
    assert (HfN : fstep <= N) by (apply Z.divide_pos_le; [lia|auto]).
    match goal with |- context [while fuel ?c ?b ?st0] =>
      destruct (while_inv (fun '(j, s) => P j s /\ j0 <= j /\ (fstep | j) /\ (F <= j \/ (N | j - j0)))
        (fun '(j, s) => F - j) c b) with (fuel := fuel) (s := st0)
        as ([j s] & Hw & (HPs & Hj & _) & Hc) end.
    + intros [j s] (HPs & Hj & Hdj & Hl) Hc. destruct Hl as [Hl|Hl]; [lia|].
      match goal with |- context [seg fuel fstep ks pad ?mo ?u (j, s)] =>
        destruct (seg_spec fuel P fstep ks pad F mo u j s)
          as (j1 & s1 & He1 & HP1 & Hj1 & Hd1 & Hl1 & He1') end; auto; try lia.
      rewrite He1. cbn [bind].
      assert (j1 = j) as -> by (destruct Hd1 as [q Hq]; destruct Hl1 as [|[_ Hl1]]; [lia|]; assert (q <= 0) by nia; nia). clear Hj1 Hd1 Hl1 He1' He1.
      match goal with |- context [seg fuel fstep ks N ?mo ?u (j, s1)] =>
        destruct (seg_spec fuel (fun j s => P j s /\ (fstep | j)) fstep ks N F mo u j s1)
          as (j2 & s2 & He2 & [HP2 Hdj2] & Hj2 & Hd2 & Hl2 & He2') end; auto; try lia.
      { intros j' k a [HPa Hdj'] Hk Hj' Hjk Hdk. rewrite acc_ok by (fold F N; lia).
        eexists; split; [reflexivity|]. split; [|apply Z.divide_add_r; [auto|apply Z.divide_refl]].
        replace (gz inp (N - 1 - k)) with (e (i - j')); [apply P_step; [lia|auto|exact HPa]|].
        replace (i - j') with ((- (j - j0) - M) + (N - 1 - k)) by lia.
        rewrite pext_at; [f_equal; lia| |lia].
        apply Z.divide_sub_r; [|apply Z.divide_refl]. apply Z.divide_opp_r. rewrite HMN. auto. }
      rewrite He2. eexists; split; [reflexivity|]. split; [|].
      * split; [exact HP2|]. split; [lia|]. split; [auto|].
        destruct (Z.le_gt_cases F j2) as [|Hlt]; [left; auto|right].
        replace (j2 - j0) with ((j - j0) + (j2 - j)) by lia. apply Z.divide_add_r; [auto|].
        assert (j2 - j = N); [|replace (j2 - j) with N by lia; apply Z.divide_refl].
        destruct Hd2 as [q Hq]. destruct HdN as [n Hn].
        assert (N - ks <= j2 - j < N - ks + fstep) by lia.
        assert (q = n) by nia. nia.
      * assert (j2 <> j); [|lia]. intro; subst j2. lia.
    + split; [exact HP|]. split; [lia|]. split; [auto|]. right.
      replace (j0 - j0) with 0 by lia. apply Z.divide_0_r.
    + lia.
    + lia.
    + exists j. rewrite Hw. rewrite (P_end j s) by (auto; lia). reflexivity.
Qed.

Lemma per_right_spec :
  N <= i -> i - N < F ->
  per_right fuel inp flt pad i (0, r0) = Ok (i - N + 1, sumZ 0 (i - N + 1) T).
Proof.
  intros Hi HiF. pose proof pad_range as Hpad.
  set (Q := fun (j : Z) (s : C) => s = sumZ (i - N - j + 1) (i - N + 1) T).
  assert (HQ0 : Q 0 r0) by (unfold Q; rewrite sumZ_empty by lia; ring).
  assert (HQstep : forall j s, 0 <= j -> Q j s -> Q (j + 1) (s [+] T (i - N - j))).
  { unfold Q. intros j s Hj ->. rewrite (sumZ_first _ (i - N - (j + 1) + 1)) by lia.
    replace (i - N - (j + 1) + 1) with (i - N - j) by lia. ring. }
  assert (HQend : forall s, Q (i - N + 1) s -> s = sumZ 0 (i - N + 1) T).
  { unfold Q. intros s ->. f_equal. lia. }
  unfold per_right. fold N.
  destruct (wrap2_spec fuel Q 0 pad N (i - N + 1) (fun j => N <=? i - j)
    (fun j k s => acc flt inp (i - N - j) (N - 1) s)
    (fun j k s => acc flt inp (i - N - j) k s) 0 r0)
    as (s & Hs & HQs); try exact HQ0; try lia; auto.
  - intros b j k a Hb Hbj HQ Hk Hj Hjk. rewrite acc_ok by (fold F N; lia). eexists; split; [reflexivity|].
    replace (gz inp (N - 1)) with (e (i - (i - N - j))); [apply HQstep; [lia|exact HQ]|].
    replace (i - (i - N - j)) with (b - 0 + (N + k)) by lia. rewrite pext_at.
    + f_equal. lia.
    + replace M with (pad - 0 + (N - 0)) by (unfold M; lia). auto.
    + unfold M. lia.
  - intros b j k a Hb Hbj HQ Hk Hj Hjk. rewrite acc_ok by (fold F N; lia). eexists; split; [reflexivity|].
    replace (gz inp k) with (e (i - (i - N - j))); [apply HQstep; [lia|exact HQ]|].
    replace (i - (i - N - j)) with ((b - 0 + M) + k) by (unfold M; lia). rewrite pext_at.
    + f_equal. lia.
    + apply Z.divide_add_r; [|apply Z.divide_refl].
      replace M with (pad - 0 + (N - 0)) by (unfold M; lia). auto.
    + unfold M. lia.
  - rewrite Hs. rewrite (HQend s) by exact HQs. reflexivity.
Qed.

Lemma align_spec j s : 0 <= j -> P j s ->
  let j' := if 1 <? fstep then j + (fstep - j mod fstep) mod fstep else j in
  P j' s /\ (fstep | j') /\ j <= j' /\ j' - fstep < j.
Proof.
  intros Hj HP. cbv zeta. destruct (Z.ltb_spec 1 fstep) as [E|E].
  - set (d := (fstep - j mod fstep) mod fstep).
    assert (0 <= d < fstep) by (apply Z.mod_pos_bound; lia).
    assert (Hd : (fstep | j + d)).
    { apply Z.mod_divide; [lia|]. unfold d. rewrite Zplus_mod_idemp_r.
      rewrite Z.add_sub_assoc. rewrite Zminus_mod_idemp_r.
      replace (j + fstep - j) with fstep by lia. apply Z.mod_same. lia. }
    split; [|split; [auto|lia]].
    apply (P_skip j); [lia| |exact HP].
    intros t Ht [q Hq]. destruct Hd as [q' Hq']. assert (q < q' < q + 1) by nia. lia.
  - replace fstep with 1 by lia. split; [auto|]. split; [apply Z.divide_1_l|]. lia.
Qed.

Lemma per_centre_spec j0 jend more s0 :
  (forall j, more j = (j <? jend)) ->
  0 <= j0 -> (fstep | j0) -> jend <= F -> i - j0 < N -> jend <= i + 1 -> P j0 s0 ->
  exists j s, forj fuel fstep more (fun j s => acc flt inp j (i - j) s) (j0, s0) = Ok (j, s) /\
    P j s /\ (fstep | j) /\ jend <= j /\ j0 <= j /\ (j = j0 \/ j - fstep < jend).
Proof.
  intros Hmore H0 Hd H2 H3 H4 HP.
  destruct (forj_spec fuel (fun j s => P j s /\ (fstep | j)) fstep jend more
     (fun j s => acc flt inp j (i - j) s) j0 s0) as (j & s & Hs & [HPs Hdj] & Hj); auto; try lia.
  - intros j a [HPa Hdj] Hj _. rewrite acc_ok by (fold N F; lia). eexists; split; [reflexivity|].
    split; [|apply Z.divide_add_r; [auto|apply Z.divide_refl]].
    replace (gz flt j [*] gz inp (i - j)) with (T j); [apply P_step; [lia|auto|exact HPa]|].
    unfold T. rewrite pext_in by lia. reflexivity.
  - exists j, s. repeat split; auto; lia.
Qed.

End I.

Definition per_out_len : Z := (N + step - 1) / step.

Lemma per_idx o : 0 <= o -> (step * o < N <-> o < per_out_len).
Proof.
  intros Ho. unfold per_out_len. split; intros H.
  - assert (o + 1 <= (N + step - 1) / step) by (apply Z.div_le_lower_bound; lia). lia.
  - assert (step * ((N + step - 1) / step) <= N + step - 1) by (apply Z.mul_div_le; lia).
    assert (step * (o + 1) <= step * ((N + step - 1) / step)) by (apply Z.mul_le_mono_nonneg_l; lia).
    lia.
Qed.

Variable out : list C.
Hypothesis Hout : zlen out = per_out_len.

Let Inv := fun '(i, o, out') =>
  0 <= o /\ i = step * o + F / 2 /\ zlen (out' : list C) = per_out_len /\
  forall t, 0 <= t < o -> gz out' t = conv flt e (step * t + F / 2).

Lemma per_inv_step i o (out' : list C) s :
  Inv (i, o, out') -> i < N + F / 2 -> s = conv flt e i ->
  exists out'', wr out' o s = Ok out'' /\ Inv (i + step, o + 1, out'').
Proof.
  intros (Ho & Hi & Hl & Ht) HiM Hs. assert (o < per_out_len) by (apply per_idx; lia).
  rewrite wr_ok by lia. eexists; split; [reflexivity|].
  cbn [Inv]. rewrite zlen_upd. repeat split; try lia.
  intros t Htr. rewrite gz_upd by lia. destruct (Z.eqb_spec t o) as [->|Hne].
  - rewrite Hs, Hi. reflexivity.
  - apply Ht. lia.
Qed.

Lemma periodization_spec_aux :
  (step - N mod step) mod step = pad ->
  exists out', downsampling_convolution_periodization fuel inp flt out step fstep = Ok out' /\
    zlen out' = per_out_len /\
    forall t, 0 <= t < per_out_len -> gz out' t = conv flt e (step * t + F / 2).
Proof.
  intros Hpd. unfold downsampling_convolution_periodization. fold N F. rewrite Hpd. clear Hpd.
  assert (HF2 : 0 <= F / 2 /\ F / 2 <= F) by lia. destruct HF2 as [HF2 HF2'].
  (* phase 1 *)
  match goal with |- context [while fuel ?c ?b (F / 2, 0, out)] =>
    destruct (while_inv Inv (fun '(i, o, out) => N - i) c b) with (fuel := fuel) (s := (F / 2, 0, out))
      as ([[i1 o1] out1] & Hw1 & Hi1 & Hc1) end.
  { intros [[i o] out'] HI Hc. pose proof HI as (Ho & Hi & Hl & Ht). assert (0 <= i) by nia.
    destruct (per_centre_spec i 0 (i + 1) (fun j => j <=? i) r0)
      as (j & s & Hj & HP & Hdj & Hj1 & Hj2 & Hj3); try lia; try apply Z.divide_0_r.
    { rewrite sumZ_empty by lia. reflexivity. }
    rewrite Hj. cbn [bind].
    destruct (per_left_spec i j s (if 1 <? fstep then j - (i + 1) else 0)) as (j' & Hj'); auto; try lia.
    rewrite Hj'. cbn [bind].
    destruct (per_inv_step i o out' (conv flt e i) HI) as (out'' & Hwr & HI'); [lia|reflexivity|].
    rewrite Hwr. cbn [bind]. eexists; split; [reflexivity|]. split; [exact HI'|lia]. }
  { cbn [Inv]. repeat split; auto; intros; lia. }
  { lia. }
  { lia. }
  rewrite Hw1. cbn [bind].
  (* phase 2 *)
  match goal with |- context [while fuel ?c ?b (i1, o1, out1)] =>
    destruct (while_inv (fun st => Inv st /\ let '(i, o, out) := st in (N <= i \/ F <= i)) (fun '(i, o, out) => N - i) c b)
      with (fuel := fuel) (s := (i1, o1, out1))
      as ([[i2 o2] out2] & Hw2 & [Hi2 _] & Hc2) end.
  { intros [[i o] out'] [HI HiF] Hc. pose proof HI as (Ho & Hi & Hl & Ht). assert (0 <= i) by nia.
    destruct (per_centre_spec i 0 F (fun j => j <? F) r0)
      as (j & s & Hj & HP & Hdj & Hj1 & Hj2 & Hj3); try lia; try apply Z.divide_0_r.
    { rewrite sumZ_empty by lia. reflexivity. }
    rewrite Hj. cbn [bind].
    destruct (per_inv_step i o out' s HI) as (out'' & Hwr & HI'); [lia|apply (P_end i j); auto|].
    rewrite Hwr. cbn [bind]. eexists; split; [reflexivity|]. split; [split; [exact HI'|lia]|lia]. }
  { split; [exact Hi1|]. lia. }
  { destruct Hi1. nia. }
  { lia. }
  rewrite Hw2. cbn [bind].
  (* phase 3 *)
  match goal with |- context [while fuel ?c ?b (i2, o2, out2)] =>
    destruct (while_inv (fun st => Inv st /\ let '(i, o, out) := st in N <= i) (fun '(i, o, out) => F - i) c b)
      with (fuel := fuel) (s := (i2, o2, out2))
      as ([[i3 o3] out3] & Hw3 & [Hi3 Hi3N] & Hc3) end.
  { intros [[i o] out'] [HI HiN] Hc. pose proof HI as (Ho & Hi & Hl & Ht).
    rewrite (per_right_spec i) by lia. cbn [bind].
    match goal with |- context [forj fuel fstep _ _ (?j', ?s')] =>
      destruct (align_spec i (i - N + 1) s') as (HPa & Hda & Hja & Hja'); [lia|reflexivity|];
      set (ja := j') in *; set (sa := s') in * end.
    cbv zeta in HPa, Hda, Hja, Hja'. fold ja in HPa, Hda, Hja, Hja'.
    assert (HfN : fstep <= N).
    { destruct Hcase as [|[_ HdN]]; [lia|]. apply Z.divide_pos_le; [lia|auto]. }
    destruct (per_centre_spec i ja (i + 1) (fun j => j <=? i) sa)
      as (j & s & Hj & HP & Hdj & Hj1 & Hj2 & Hj3); auto; try lia.
    rewrite Hj. cbn [bind].
    destruct (per_left_spec i j s (if 1 <? fstep then j - (i + 1) else 0)) as (j' & Hj'); auto; try lia.
    rewrite Hj'. cbn [bind].
    destruct (per_inv_step i o out' (conv flt e i) HI) as (out'' & Hwr & HI'); [lia|reflexivity|].
    rewrite Hwr. cbn [bind]. eexists; split; [reflexivity|]. split; [split; [exact HI'|lia]|lia]. }
  { split; [exact Hi2|]. lia. }
  { destruct Hi2. nia. }
  { lia. }
  rewrite Hw3. cbn [bind].
  (* phase 4 *)
  match goal with |- context [while fuel ?c ?b (i3, o3, out3)] =>
    destruct (while_inv (fun st => Inv st /\ let '(i, o, out) := st in N <= i /\ (F <= i \/ N + F / 2 <= i))
      (fun '(i, o, out) => N + F - i) c b)
      with (fuel := fuel) (s := (i3, o3, out3))
      as ([[i4 o4] out4] & Hw4 & [Hi4 _] & Hc4) end.
  { intros [[i o] out'] [HI HiN] Hc. pose proof HI as (Ho & Hi & Hl & Ht).
    rewrite (per_right_spec i) by lia. cbn [bind].
    match goal with |- context [forj fuel fstep _ _ (?j', ?s')] =>
      destruct (align_spec i (i - N + 1) s') as (HPa & Hda & Hja & Hja'); [lia|reflexivity|];
      set (ja := j') in *; set (sa := s') in * end.
    cbv zeta in HPa, Hda, Hja, Hja'. fold ja in HPa, Hda, Hja, Hja'.
    destruct (per_centre_spec i ja F (fun j => j <? F) sa)
      as (j & s & Hj & HP & Hdj & Hj1 & Hj2 & Hj3); auto; try lia.
    rewrite Hj. cbn [bind].
    destruct (per_inv_step i o out' s HI) as (out'' & Hwr & HI'); [lia|apply (P_end i j); auto|].
    rewrite Hwr. cbn [bind]. eexists; split; [reflexivity|]. split; [split; [exact HI'|lia]|lia]. }
  { split; [exact Hi3|]. lia. }
  { destruct Hi3. nia. }
  { lia. }
  rewrite Hw4. cbn [bind]. destruct Hi4 as (Ho & Hi & Hl & Ht).
  exists out4. repeat split; auto. intros t Htr. apply Ht. split; [lia|].
  assert (step * t < N) by (apply per_idx; lia). nia.
Qed.

End Per.

(** The kernel [downsampling_convolution_periodization]. [fstep = 1] is the dwt
    case; [fstep > 1] is the swt case (filter non-zero only at multiples of
    [fstep], data length a multiple of [fstep] and of [step]). *)
Theorem downsampling_convolution_periodization_spec (C : CRing) fuel (inp flt out : list C) step fstep :
  1 <= zlen inp -> 1 <= zlen flt -> 1 <= step -> 1 <= fstep ->
  let pad := (step - zlen inp mod step) mod step in
  fstep = 1 \/ (pad = 0 /\ (fstep | zlen inp)) ->
  (forall t, ~ (fstep | t) -> gz flt t = r0) ->
  zlen out = (zlen inp + step - 1) / step ->
  zlen inp + zlen flt + step + fstep + 4 <= Z.of_nat fuel ->
  downsampling_convolution_periodization fuel inp flt out step fstep
  = Ok (tab ((zlen inp + step - 1) / step)
            (fun k => conv flt (pext pad inp) (step * k + zlen flt / 2))).
Proof.
  intros HN HF Hs Hfs pad Hcase Hz Hout Hfuel.
  destruct (periodization_spec_aux C fuel inp flt HN HF step fstep Hs Hfs Hfuel pad
    ltac:(apply Z.mod_pos_bound; lia) Hcase Hz out Hout eq_refl)
    as (out' & He & Hl & Ht).
  rewrite He. f_equal. unfold per_out_len in *.
  assert (0 <= (zlen inp + step - 1) / step) by (apply Z.div_pos; lia).
  apply list_ext.
  - rewrite Hl, zlen_tab by lia. reflexivity.
  - intros i Hi. rewrite gz_tab by lia. apply Ht. lia.
Qed.
