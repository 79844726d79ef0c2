(** The upsampling kernels add a zero-stuffed convolution to the output buffer,
    stay in bounds and terminate. *)
From Verif Require Import Base BaseLemmas CConv Spec LoopLemmas ExtLemmas.

Section Up.
Variable C : CRing.
Add Ring Cring_ring_up : (rth C).
Variable fuel : nat.
Variables inp flt : list C.
Let N := zlen inp.
Let F := zlen flt.
Hypothesis HF : 2 <= F.
Hypothesis HF2 : F mod 2 = 0.
Variable H : Z.
Hypothesis HH : F = 2 * H.

Lemma radd_comm (a b : C) : a [+] b = b [+] a.
Proof. ring. Qed.

Lemma F_half : F / 2 = H.
Proof. lia. Qed.

Lemma up_conv_even (c : Z -> C) i :
  up_conv flt c (2 * i) = sumZ 0 H (fun j => gz flt (2 * j) [*] c (i - j)).
Proof.
  unfold up_conv. fold F. rewrite HH. rewrite sumZ_even_odd by lia.
  match goal with |- ?A [+] ?B = ?D => assert (EB : B = r0); [|assert (EA : A = D)] end.
  - apply sumZ_zero. intros t Ht.
    replace ((2 * i - (2 * t + 1)) mod 2 =? 0) with false by lia. reflexivity.
  - apply sumZ_ext. intros t Ht. replace ((2 * i - 2 * t) mod 2 =? 0) with true by lia.
    do 2 f_equal. lia.
  - rewrite EA, EB. ring.
Qed.

Lemma up_conv_odd (c : Z -> C) i :
  up_conv flt c (2 * i + 1) = sumZ 0 H (fun j => gz flt (2 * j + 1) [*] c (i - j)).
Proof.
  unfold up_conv. fold F. rewrite HH. rewrite sumZ_even_odd by lia.
  match goal with |- ?A [+] ?B = ?D => assert (EA : A = r0); [|assert (EB : B = D)] end.
  - apply sumZ_zero. intros t Ht.
    replace ((2 * i + 1 - 2 * t) mod 2 =? 0) with false by lia. reflexivity.
  - apply sumZ_ext. intros t Ht. replace ((2 * i + 1 - (2 * t + 1)) mod 2 =? 0) with true by lia.
    do 2 f_equal. lia.
  - rewrite EA, EB. ring.
Qed.

Definition adds (out0 out : list C) (o0 o1 : Z) (a b : C) : Prop :=
  zlen out = zlen out0 /\
  forall t, gz out t = gz out0 t [+] (if t =? o0 then a else r0) [+] (if t =? o1 then b else r0).

Lemma adds_refl out o0 o1 : adds out out o0 o1 r0 r0.
Proof.
  split; auto. intros t. destruct (t =? o0), (t =? o1); ring.
Qed.

Lemma add_to_ok (out : list C) oi fi ii :
  0 <= oi < zlen out -> 0 <= fi < F -> 0 <= ii < N ->
  add_to flt inp out oi fi ii
  = Ok (upd_nat out (Z.to_nat oi) (gz out oi [+] gz flt fi [*] gz inp ii)).
Proof. intros. unfold add_to. rewrite !rd_ok by auto. cbn [bind]. apply wr_ok. auto. Qed.

Lemma add_pair_adds out0 out o0 o1 a b fj ii :
  adds out0 out o0 o1 a b ->
  0 <= o0 < zlen out0 -> 0 <= o1 < zlen out0 -> 0 <= fj < H -> 0 <= ii < N ->
  exists out', add_pair flt inp o0 o1 fj ii out = Ok out' /\
    adds out0 out' o0 o1 (a [+] gz flt (2 * fj) [*] gz inp ii) (b [+] gz flt (2 * fj + 1) [*] gz inp ii).
Proof.
  intros [Hl Ht] H0 H1 Hfj Hii. unfold add_pair.
  rewrite add_to_ok by (rewrite ?Hl; lia). cbn [bind].
  rewrite add_to_ok by (rewrite ?zlen_upd, ?Hl; lia). eexists; split; [reflexivity|].
  split; [rewrite !zlen_upd; auto|]. intros t.
  rewrite gz_upd by (rewrite ?zlen_upd, ?Hl; lia).
  rewrite !gz_upd by (rewrite Hl; lia). rewrite !Ht.
  rewrite !Z.eqb_refl.
  destruct (Z.eqb_spec t o1), (Z.eqb_spec t o0), (Z.eqb_spec o1 o0), (Z.eqb_spec o0 o1); try lia; subst;
    rewrite ?Z.eqb_refl; try lia; ring.
Qed.

(** ** Full convolution *)

Section Full.
Hypothesis HN : 1 <= N.
Hypothesis Hfuel : N + F + 4 <= Z.of_nat fuel.
Variable out : list C.
Hypothesis Hout : zlen out = 2 * N + F - 2.
Let S := up_conv flt (gz inp).

Let Inv := fun '(i, o, out') =>
  0 <= i /\ o = 2 * i /\ zlen (out' : list C) = zlen out /\
  forall t, gz out' t = gz out t [+] (if (0 <=? t) && (t <? o) then S t else r0).

Lemma S_lo_hi i lo hi : 0 <= lo <= hi -> hi <= H -> lo <= Z.max 0 (i - N + 1) -> Z.min (i + 1) H <= hi ->
  S (2 * i) = sumZ lo hi (fun j => gz flt (2 * j) [*] gz inp (i - j)) /\
  S (2 * i + 1) = sumZ lo hi (fun j => gz flt (2 * j + 1) [*] gz inp (i - j)).
Proof.
  intros Hl Hh Hlo Hhi. unfold S. rewrite up_conv_even, up_conv_odd.
  split; symmetry; apply sumZ_widen; try lia; intros t Ht Hn.
  all: (destruct (Z.le_gt_cases 0 (i - t)); [rewrite (gz_big inp) by (fold N; lia)|rewrite (gz_neg inp) by lia]; ring).
Qed.

Lemma full_body i o out' more j0 :
  Inv (i, o, out') -> i < N + H -> 0 <= j0 -> j0 = Z.max 0 (i - N + 1) ->
  (forall j, more j = (j <? Z.min (i + 1) H)) ->
  exists j out'', forj fuel 1 more (fun j out => add_pair flt inp o (o + 1) j (i - j) out) (j0, out')
    = Ok (j, out'') /\ Inv (i + 1, o + 2, out'').
Proof.
  intros (Hi & Ho & Hl & Ht) HiM Hj0 Hj0' Hmore.
  set (hi := Z.min (i + 1) H) in *.
  destruct (forj1_spec fuel (fun j out'' => adds out' out'' o (o + 1)
     (sumZ j0 j (fun j => gz flt (2 * j) [*] gz inp (i - j)))
     (sumZ j0 j (fun j => gz flt (2 * j + 1) [*] gz inp (i - j)))) hi more
     (fun j out => add_pair flt inp o (o + 1) j (i - j) out) j0 out') as (out'' & He & Ha); auto; try lia.
  - intros j a Ha Hj. rewrite !sumZ_last by lia. apply add_pair_adds; auto; try lia.
  - rewrite !sumZ_empty by lia. apply adds_refl.
  - exists hi, out''. split; [exact He|]. destruct Ha as [Hal Hat].
    assert (Hss : S (2 * i) = sumZ j0 hi (fun j => gz flt (2 * j) [*] gz inp (i - j)) /\
      S (2 * i + 1) = sumZ j0 hi (fun j => gz flt (2 * j + 1) [*] gz inp (i - j)))
      by (apply S_lo_hi; lia).
    destruct Hss as [Hs0 Hs1]. rewrite <- Hs0, <- Hs1 in Hat.
    split; [lia|]. split; [lia|]. split; [congruence|].
    intros t. rewrite Hat, Ht. rewrite <- Ho in *.
    destruct (Z.eqb_spec t o) as [->|]; [|destruct (Z.eqb_spec t (o + 1)) as [->|]].
    + replace (o =? o + 1) with false by lia.
      replace ((0 <=? o) && (o <? o)) with false by lia.
      replace ((0 <=? o) && (o <? o + 2)) with true by lia. ring.
    + replace ((0 <=? o + 1) && (o + 1 <? o)) with false by lia.
      replace ((0 <=? o + 1) && (o + 1 <? o + 2)) with true by lia. ring.
    + replace ((0 <=? t) && (t <? o + 2)) with ((0 <=? t) && (t <? o)) by lia. ring.
Qed.


Lemma full_aux : exists out', upsampling_convolution_full fuel inp flt out = Ok out' /\
  zlen out' = zlen out /\ forall t, 0 <= t < zlen out -> gz out' t = gz out t [+] S t.
Proof.
  unfold upsampling_convolution_full. fold N F. rewrite F_half.
  replace (F <? 2) with false by lia. replace (negb (F mod 2 =? 0)) with false by (rewrite HF2; reflexivity).
  clear HF2.
  match goal with |- context [while fuel ?c ?b (0, 0, out)] =>
    destruct (while_inv Inv (fun '(i, o, out) => N - i) c b) with (fuel := fuel) (s := (0, 0, out))
      as ([[i1 o1] out1] & Hw1 & Hi1 & Hc1) end.
  { intros [[i o] out'] HI Hc. pose proof HI as (Hi & _).
    destruct (full_body i o out' (fun j => j <=? i) 0) as (j & out'' & He & HI'); auto; try lia.
    rewrite He. eexists; split; [reflexivity|]. split; [exact HI'|lia]. }
  { cbn [Inv]. repeat split; auto; try lia. intros t.
    replace ((0 <=? t) && (t <? 0)) with false by lia. ring. }
  { lia. }
  { lia. }
  rewrite Hw1. cbn [bind].
  match goal with |- context [while fuel ?c ?b (i1, o1, out1)] =>
    destruct (while_inv (fun st => Inv st /\ let '(i, o, out) := st in N <= i \/ H <= i) (fun '(i, o, out) => N - i) c b)
      with (fuel := fuel) (s := (i1, o1, out1))
      as ([[i2 o2] out2] & Hw2 & [Hi2 _] & Hc2) end.
  { intros [[i o] out'] [HI HiF] Hc. pose proof HI as (Hi & _).
    destruct (full_body i o out' (fun j => j <? H) 0) as (j & out'' & He & HI'); auto; try lia.
    rewrite He. eexists; split; [reflexivity|]. split; [split; [exact HI'|lia]|lia]. }
  { split; [exact Hi1|]. lia. }
  { destruct Hi1; lia. }
  { lia. }
  rewrite Hw2. cbn [bind].
  match goal with |- context [while fuel ?c ?b (i2, o2, out2)] =>
    destruct (while_inv (fun st => Inv st /\ let '(i, o, out) := st in N <= i) (fun '(i, o, out) => H - i) c b)
      with (fuel := fuel) (s := (i2, o2, out2))
      as ([[i3 o3] out3] & Hw3 & [Hi3 Hi3N] & Hc3) end.
  { intros [[i o] out'] [HI HiF] Hc. pose proof HI as (Hi & _).
    destruct (full_body i o out' (fun j => j <=? i) (i - (N - 1))) as (j & out'' & He & HI'); auto; try lia.
    rewrite He. eexists; split; [reflexivity|]. split; [split; [exact HI'|lia]|lia]. }
  { split; [exact Hi2|]. lia. }
  { destruct Hi2; lia. }
  { lia. }
  rewrite Hw3. cbn [bind].
  match goal with |- context [while fuel ?c ?b (i3, o3, out3)] =>
    destruct (while_inv (fun st => Inv st /\ let '(i, o, out) := st in N <= i /\ H <= i) (fun '(i, o, out) => N + H - i) c b)
      with (fuel := fuel) (s := (i3, o3, out3))
      as ([[i4 o4] out4] & Hw4 & [Hi4 _] & Hc4) end.
  { intros [[i o] out'] [HI HiF] Hc. pose proof HI as (Hi & _).
    destruct (full_body i o out' (fun j => j <? H) (i - (N - 1))) as (j & out'' & He & HI'); auto; try lia.
    rewrite He. eexists; split; [reflexivity|]. split; [split; [exact HI'|lia]|lia]. }
  { split; [exact Hi3|]. lia. }
  { destruct Hi3; lia. }
  { lia. }
  rewrite Hw4. cbn [bind]. destruct Hi4 as (Hi & Ho & Hl & Ht).
  exists out4. split; [reflexivity|]. split; [auto|]. intros t Htr. rewrite Ht.
  replace ((0 <=? t) && (t <? o4)) with true by lia. reflexivity.
Qed.

End Full.

(** ** Valid part of the convolution, one coefficient array at a time *)

Section Valid.
Variable m : mode.
Hypothesis Hm : m <> PERIODIZATION.
Hypothesis HN : H <= N.
Hypothesis Hfuel : N + F + 4 <= Z.of_nat fuel.
Variable out : list C.
Hypothesis Hout : zlen out = 2 * N - F + 2.
Let S := fun n => up_conv flt (gz inp) (n + F - 2).

Lemma valid_aux : exists out', upsampling_convolution_valid_sf fuel inp flt out m = Ok out' /\
  zlen out' = zlen out /\ forall t, 0 <= t < zlen out -> gz out' t = gz out t [+] S t.
Proof.
  assert (E : upsampling_convolution_valid_sf fuel inp flt out m
    = upsampling_convolution_valid_sf fuel inp flt out ZEROPAD) by (destruct m; reflexivity || congruence).
  rewrite E. unfold upsampling_convolution_valid_sf. fold N F. rewrite F_half.
  replace (negb (F mod 2 =? 0) || (N <? H)) with false by lia. clear HF2.
  match goal with |- context [while fuel ?c ?b ?st0] =>
    destruct (while_inv (fun '(o, i, out') => o = 2 * (i - (H - 1)) /\ H - 1 <= i /\ zlen (out' : list C) = zlen out /\
         forall t, gz out' t = gz out t [+] (if (0 <=? t) && (t <? o) then S t else r0)) (fun '(o, i, out) => N - i) c b)
      with (fuel := fuel) (s := st0)
      as ([[o1 i1] out1] & Hw1 & (Ho & Hi & Hl & Ht) & Hc1) end.
  - intros [[o i] out'] (Ho & Hi & Hl & Ht) Hc.
    match goal with |- context [forj fuel 1 ?mo ?u (0, (r0, r0))] =>
      destruct (forj1_spec fuel (fun j st => st = (sumZ 0 j (fun j => gz flt (2 * j) [*] gz inp (i - j)),
          sumZ 0 j (fun j => gz flt (2 * j + 1) [*] gz inp (i - j)))) H mo u 0 (r0, r0)) as (st & He & Hst) end.
    + reflexivity.
    + intros j [se so] [= -> ->] Hj. rewrite acc_ok by (fold F N; lia). cbn [bind].
      rewrite acc_ok by (fold F N; lia). cbn [bind]. eexists; split; [reflexivity|].
      rewrite !sumZ_last by lia. replace (j * 2) with (2 * j) by lia. reflexivity.
    + rewrite !sumZ_empty by lia. reflexivity.
    + lia.
    + lia.
    + rewrite He. subst st. cbn [bind]. rewrite <- up_conv_even, <- up_conv_odd.
      rewrite rd_ok by lia. cbn [bind]. rewrite wr_ok by lia. cbn [bind].
      rewrite rd_ok by (rewrite zlen_upd; lia). cbn [bind]. rewrite wr_ok by (rewrite zlen_upd; lia). cbn [bind].
      eexists; split; [reflexivity|]. split; [|lia].
      split; [lia|]. split; [lia|]. split; [rewrite !zlen_upd; auto|].
      intros t. rewrite !gz_upd by (rewrite ?zlen_upd; lia).
      replace (o + 1 =? o) with false by lia. rewrite !Ht.
      replace (2 * i) with (o + F - 2) by lia. replace (o + F - 2 + 1) with (o + 1 + F - 2) by lia.
      fold (S o). fold (S (o + 1)).
      replace ((0 <=? o) && (o <? o)) with false by lia.
      replace ((0 <=? o + 1) && (o + 1 <? o)) with false by lia.
      destruct (Z.eqb_spec t (o + 1)) as [->|]; [|destruct (Z.eqb_spec t o) as [->|]].
      * replace ((0 <=? o + 1) && (o + 1 <? o + 2)) with true by lia. ring.
      * replace ((0 <=? o) && (o <? o + 2)) with true by lia. ring.
      * replace ((0 <=? t) && (t <? o + 2)) with ((0 <=? t) && (t <? o)) by lia. ring.
  - split; [lia|]. split; [lia|]. split; [auto|]. intros t.
    replace ((0 <=? t) && (t <? 0)) with false by lia. ring.
  - lia.
  - lia.
  - rewrite Hw1. cbn [bind]. exists out1. split; [reflexivity|]. split; [auto|].
    intros t Htr. rewrite Ht. replace ((0 <=? t) && (t <? o1)) with true by lia. reflexivity.
Qed.

End Valid.

(** ** Periodization *)

Section Periodic.
Hypothesis HN : 1 <= N.
Hypothesis Hfuel : N + F + 4 <= Z.of_nat fuel.
Variable out : list C.
Hypothesis Hout : zlen out = 2 * N.
Let c := fun k => gz inp (k mod N).
Let S := fun n => up_conv flt c (n + H - 1).

Lemma c_at p r : (N | p) -> 0 <= r < N -> c (p + r) = gz inp r.
Proof. intros Hp Hr. unfold c. rewrite mod_div_add by auto. reflexivity. Qed.

Lemma c_in r : 0 <= r < N -> c r = gz inp r.
Proof. intros. replace r with (0 + r) at 1 by lia. apply c_at; auto. apply Z.divide_0_r. Qed.

Section Row.
Variables i o0 o1 : Z.
Variable outb : list C.
Hypothesis Hoe : 0 <= o0 < zlen outb.
Hypothesis Hoo : 0 <= o1 < zlen outb.
Let T0 := fun j => gz flt (2 * j) [*] c (i - j).
Let T1 := fun j => gz flt (2 * j + 1) [*] c (i - j).
Let P := fun (j : Z) (out' : list C) => adds outb out' o0 o1 (sumZ 0 j T0) (sumZ 0 j T1).

Lemma P_step1 j ii out' : P j out' -> 0 <= j < H -> 0 <= ii < N -> c (i - j) = gz inp ii ->
  exists out'', add_pair flt inp o0 o1 j ii out' = Ok out'' /\ P (j + 1) out''.
Proof.
  intros HP Hj Hii Hc. destruct (add_pair_adds outb out' o0 o1 _ _ j ii HP) as (out'' & He & Ha); auto.
  exists out''. split; [exact He|]. unfold P. rewrite !sumZ_last by lia. unfold T0 at 2, T1 at 2.
  rewrite Hc. exact Ha.
Qed.

Lemma P_start : P 0 outb.
Proof. unfold P. rewrite !sumZ_empty by lia. apply adds_refl. Qed.

Lemma uper_centre j0 M more out' :
  (forall j, more j = (j <? M)) -> P j0 out' -> 0 <= j0 <= M -> M <= H -> M <= i + 1 -> i - j0 < N ->
  exists out'', forj fuel 1 more (fun j out => add_pair flt inp o0 o1 j (i - j) out) (j0, out') = Ok (M, out'') /\
    P M out''.
Proof.
  intros Hmore HP Hj0 HM HMi Hi. apply forj1_spec; auto; try lia.
  intros j a HPa Hj. apply P_step1; auto; try lia. apply c_in. lia.
Qed.

Lemma uper_left_spec out' : 0 <= i -> i + 1 <= H -> P (i + 1) out' ->
  exists out'', uper_left fuel inp flt o0 o1 (i + 1, out') = Ok (H, out'') /\ P H out''.
Proof.
  intros Hi HiH HP. unfold uper_left. fold N F. rewrite F_half.
  apply wrap1_spec; auto; try lia.
  intros b j k a Hb Hbj HPa Hk Hj Hjk. apply P_step1; auto; try lia.
  replace (i - j) with ((- (b - (i + 1)) - N) + (N - 1 - k)) by lia. apply c_at; [|lia].
  apply Z.divide_sub_r; [|apply Z.divide_refl]. apply Z.divide_opp_r.
  replace N with (N - 0) by lia. auto.
Qed.

(* as above when the centre part already covered the whole filter *)
Lemma uper_left_none j out' : H <= j -> uper_left fuel inp flt o0 o1 (j, out') = Ok (j, out').
Proof.
  intros Hj. unfold uper_left. fold N F. rewrite F_half. destruct fuel as [|fu]; [lia|].
  cbn [while]. replace (j <? H) with false by lia. reflexivity.
Qed.

Lemma uright_gen more (HNi : N <= i) (HiH : i - N < H) :
  (forall j, more j = (j <? i - N + 1)) ->
  exists out'', while fuel (fun '(j, out) => more j)
    (fun js => seg fuel 1 0 N more
                 (fun j k out => add_pair flt inp o0 o1 (i - N - j) k out) js) (0, outb)
   = Ok (i - N + 1, out'') /\ P (i - N + 1) out''.
Proof.
  intros Hmore.
  set (Q := fun (j : Z) (out' : list C) => adds outb out' o0 o1
       (sumZ (i - N - j + 1) (i - N + 1) T0) (sumZ (i - N - j + 1) (i - N + 1) T1)).
  destruct (wrap1_spec fuel Q 0 N (i - N + 1) more
    (fun j k out => add_pair flt inp o0 o1 (i - N - j) k out) 0 outb) as (out'' & He & HQ); auto; try lia.
  - intros b j k a Hb Hbj HQ Hk Hj Hjk.
    destruct (add_pair_adds outb a o0 o1 _ _ (i - N - j) k HQ) as (a' & He & Ha); auto; try lia.
    exists a'. split; [exact He|]. unfold Q.
    rewrite !(sumZ_first _ (i - N - (j + 1) + 1)) by lia.
    replace (i - N - (j + 1) + 1) with (i - N - j) by lia.
    replace (T0 (i - N - j)) with (gz flt (2 * (i - N - j)) [*] gz inp k).
    replace (T1 (i - N - j)) with (gz flt (2 * (i - N - j) + 1) [*] gz inp k).
    { rewrite (radd_comm (gz flt (2 * (i - N - j)) [*] gz inp k)), (radd_comm (gz flt (2 * (i - N - j) + 1) [*] gz inp k)).
      exact Ha. }
    + unfold T1. f_equal. replace (i - (i - N - j)) with ((b - 0 + N) + k) by lia. symmetry. apply c_at; [|lia].
      apply Z.divide_add_r; [|apply Z.divide_refl]. replace N with (N - 0) by lia. auto.
    + unfold T0. f_equal. replace (i - (i - N - j)) with ((b - 0 + N) + k) by lia. symmetry. apply c_at; [|lia].
      apply Z.divide_add_r; [|apply Z.divide_refl]. replace N with (N - 0) by lia. auto.
  - unfold Q. rewrite !sumZ_empty by lia. apply adds_refl.
  - exists out''. split; [exact He|]. unfold Q in HQ. unfold P.
    replace (i - N - (i - N + 1) + 1) with 0 in HQ by lia. exact HQ.
Qed.

Lemma P_final out' : P H out' -> adds outb out' o0 o1 (up_conv flt c (2 * i)) (up_conv flt c (2 * i + 1)).
Proof. unfold P. rewrite up_conv_even, up_conv_odd. auto. Qed.

End Row.

Lemma up_conv_period n : up_conv flt c (n + 2 * N) = up_conv flt c n.
Proof.
  unfold up_conv. apply sumZ_ext. intros t Ht.
  replace ((n + 2 * N - t) mod 2) with ((n - t) mod 2) by lia.
  destruct ((n - t) mod 2 =? 0); [|reflexivity]. f_equal. unfold c.
  replace ((n + 2 * N - t) / 2) with ((n - t) / 2 + 1 * N) by lia. rewrite Z_mod_plus_full. reflexivity.
Qed.

Variables start par : Z.
Hypothesis Hpar : par = 0 \/ par = 1.
Hypothesis Hstart : H = 2 * start + 1 - par.
Hypothesis Hstart0 : 0 <= start.

Let done_ := fun o t => (0 <=? t) && ((t <? o) || ((par =? 1) && (t =? 2 * N - 1))).
Let Inv := fun '(i, o, out') =>
  start <= i /\ o = 2 * (i - start) + par /\ zlen (out' : list C) = 2 * N /\
  forall t, gz out' t = gz out t [+] (if done_ o t then S t else r0).

Lemma uper_inv_step i o out' out'' :
  Inv (i, o, out') -> i < N + start - par ->
  adds out' out'' o (o + 1) (up_conv flt c (2 * i)) (up_conv flt c (2 * i + 1)) ->
  Inv (i + 1, o + 2, out'').
Proof.
  intros (Hi & Ho & Hl & Ht) HiM [Hal Hat].
  split; [lia|]. split; [lia|]. split; [congruence|]. intros t. rewrite Hat, Ht.
  assert (Hs0 : up_conv flt c (2 * i) = S o) by (unfold S; f_equal; lia).
  assert (Hs1 : up_conv flt c (2 * i + 1) = S (o + 1)) by (unfold S; f_equal; lia).
  rewrite Hs0, Hs1. unfold done_.
  destruct (Z.eqb_spec t o) as [->|]; [|destruct (Z.eqb_spec t (o + 1)) as [->|]].
  - replace (o =? o + 1) with false by lia.
    match goal with |- context [if ?b then S o else r0] => replace b with false by lia end.
    match goal with |- context [if ?b then S o else r0] => replace b with true by lia end. ring.
  - match goal with |- context [if ?b then S (o + 1) else r0] => replace b with false by lia end.
    match goal with |- context [if ?b then S (o + 1) else r0] => replace b with true by lia end. ring.
  - match goal with |- _ [+] (if ?b then S t else r0) [+] _ [+] _ = _ [+] (if ?b' then _ else _) =>
      replace b' with b by lia end. ring.
Qed.

Lemma uper_start out' :
  zlen out' = 2 * N ->
  (par = 0 -> out' = out) ->
  (par = 1 -> adds out out' (2 * N - 1) 0 (up_conv flt c (2 * (N + start - 1))) (up_conv flt c (2 * (N + start - 1) + 1))) ->
  Inv (start, par, out').
Proof.
  intros Hl H0 H1. split; [lia|]. split; [lia|]. split; [auto|].
  intros t. unfold done_. destruct Hpar as [E|E].
  - rewrite (H0 E), E. match goal with |- context [if ?b then S t else r0] => replace b with false by lia end. ring.
  - destruct (H1 E) as [_ Ht]. rewrite Ht, E.
    assert (Hs0 : up_conv flt c (2 * (N + start - 1)) = S (2 * N - 1)) by (unfold S; f_equal; lia).
    assert (Hs1 : up_conv flt c (2 * (N + start - 1) + 1) = S 0).
    { unfold S. replace (2 * (N + start - 1) + 1) with ((0 + H - 1) + 2 * N) by lia. apply up_conv_period. }
    rewrite Hs0, Hs1.
    destruct (Z.eqb_spec t (2 * N - 1)) as [->|]; [|destruct (Z.eqb_spec t 0) as [->|]].
    + replace (2 * N - 1 =? 0) with false by lia.
      match goal with |- context [if ?b then S _ else r0] => replace b with true by lia end. ring.
    + match goal with |- context [if ?b then S _ else r0] => replace b with true by lia end. ring.
    + match goal with |- context [if ?b then S _ else r0] => replace b with false by lia end. ring.
Qed.

Lemma uper_aux : exists out', upsampling_convolution_valid_sf_periodization fuel inp flt out = Ok out' /\
  zlen out' = 2 * N /\ forall t, 0 <= t < 2 * N -> gz out' t = gz out t [+] S t.
Proof.
  unfold upsampling_convolution_valid_sf_periodization. fold N F.
  replace (negb (F mod 2 =? 0)) with false by (rewrite HF2; reflexivity).
  replace (F / 4) with start by lia. rewrite F_half.
  set (end_ := N + start - (if negb (H mod 2 =? 0) then 0 else 1)).
  assert (Hend : end_ = N + start - par).
  { unfold end_. destruct Hpar; subst par; [replace (H mod 2 =? 0) with false by lia|replace (H mod 2 =? 0) with true by lia]; reflexivity. }
  clearbody end_. subst end_.
  (* 540-565 *)
  match goal with |- context [bind (if _ then ?B else _) _] => set (blk := B) end.
  assert (Hblk : exists out', (if H mod 2 =? 0 then blk else Ok (0, out)) = Ok (par, out') /\ Inv (start, par, out')).
  { destruct Hpar as [E|E].
    - replace (H mod 2 =? 0) with false by lia. exists out. split; [rewrite E; reflexivity|].
      apply uper_start; auto. intros; lia.
    - replace (H mod 2 =? 0) with true by lia. unfold blk. clear blk.
      set (i := N + start - 1).
      destruct (uright_gen i (2 * N - 1) 0 out ltac:(lia) ltac:(lia) (fun j => j <=? start - 1))
        as (oa & Ha & HPa); try lia.
      replace (fun (j k : Z) (out0 : list C) => add_pair flt inp (2 * N - 1) 0 (i - N - j) k out0) with
        (fun (j k : Z) (out0 : list C) => add_pair flt inp (2 * N - 1) 0 (start - 1 - j) k out0) in Ha.
      2: { replace (start - 1) with (i - N) by lia. reflexivity. }
      rewrite Ha. cbn [bind].
      destruct (uper_centre i (2 * N - 1) 0 out ltac:(lia) ltac:(lia) (i - N + 1) (Z.min (i + 1) H)
        (fun j => (j <=? i) && (j <? H)) oa) as (ob & Hb & HPb); auto; try lia.
      rewrite Hb. cbn [bind].
      assert (Hc : exists j oc, uper_left fuel inp flt (2 * N - 1) 0 (Z.min (i + 1) H, ob) = Ok (j, oc) /\
        adds out oc (2 * N - 1) 0 (up_conv flt c (2 * i)) (up_conv flt c (2 * i + 1))).
      { destruct (Z.le_gt_cases H (i + 1)).
        - rewrite Z.min_r in * by lia. exists H, ob. split; [apply (uper_left_none i _ _ out); lia|].
          apply P_final; auto.
        - rewrite Z.min_l in * by lia.
          destruct (uper_left_spec i (2 * N - 1) 0 out ltac:(lia) ltac:(lia) ob) as (oc & Hc & HPc); auto; try lia.
          exists H, oc. split; auto. apply P_final; auto. }
      destruct Hc as (j & oc & Hc & Had). rewrite Hc. cbn [bind].
      exists oc. split; [rewrite E; reflexivity|]. apply uper_start; [destruct Had; lia|intros; lia|auto]. }
  destruct Hblk as (oB & -> & HIB). clear blk. cbn [bind].
  (* 567-580 *)
  match goal with |- context [while fuel ?c ?b (start, par, oB)] =>
    destruct (while_inv Inv (fun '(i, o, out) => N - i) c b) with (fuel := fuel) (s := (start, par, oB))
      as ([[i1 o1] out1] & Hw1 & Hi1 & Hc1) end.
  { intros [[i o] out'] HI Hc. pose proof HI as (Hi & Ho & Hl & _).
    assert (HiH : i < N + start - par) by lia.
    destruct (uper_centre i o (o + 1) out' ltac:(lia) ltac:(lia) 0 (i + 1) (fun j => j <=? i) out')
      as (oa & Ha & HPa); auto; try lia. { apply P_start. }
    rewrite Ha. cbn [bind].
    destruct (uper_left_spec i o (o + 1) out' ltac:(lia) ltac:(lia) oa) as (ob & Hb & HPb); auto; try lia.
    rewrite Hb. cbn [bind]. eexists; split; [reflexivity|].
    split; [apply (uper_inv_step i o out'); auto; apply P_final; auto|lia]. }
  { exact HIB. }
  { lia. }
  { lia. }
  rewrite Hw1. cbn [bind].
  (* 582-588 *)
  match goal with |- context [while fuel ?c ?b (i1, o1, out1)] =>
    destruct (while_inv (fun st => Inv st /\ let '(i, o, out) := st in N <= i \/ H <= i) (fun '(i, o, out) => N - i) c b)
      with (fuel := fuel) (s := (i1, o1, out1))
      as ([[i2 o2] out2] & Hw2 & [Hi2 _] & Hc2) end.
  { intros [[i o] out'] [HI HiF] Hc. pose proof HI as (Hi & Ho & Hl & _).
    assert (HiH : i < N + start - par) by lia.
    destruct (uper_centre i o (o + 1) out' ltac:(lia) ltac:(lia) 0 H (fun j => j <? H) out')
      as (oa & Ha & HPa); auto; try lia. { apply P_start. }
    rewrite Ha. cbn [bind]. eexists; split; [reflexivity|].
    split; [split; [apply (uper_inv_step i o out'); auto; apply P_final; auto|lia]|lia]. }
  { split; [exact Hi1|]. lia. }
  { destruct Hi1; lia. }
  { lia. }
  rewrite Hw2. cbn [bind].
  (* 590-610 *)
  match goal with |- context [while fuel ?c ?b (i2, o2, out2)] =>
    destruct (while_inv (fun st => Inv st /\ let '(i, o, out) := st in N <= i) (fun '(i, o, out) => H - i) c b)
      with (fuel := fuel) (s := (i2, o2, out2))
      as ([[i3 o3] out3] & Hw3 & [Hi3 Hi3N] & Hc3) end.
  { intros [[i o] out'] [HI HiF] Hc. pose proof HI as (Hi & Ho & Hl & _).
    assert (HiH : i < N + start - par) by lia.
    destruct (uright_gen i o (o + 1) out' ltac:(lia) ltac:(lia) (fun j => N <=? i - j))
        as (oa & Ha & HPa); try lia.
    unfold uper_right. fold N. rewrite Ha. cbn [bind].
    destruct (uper_centre i o (o + 1) out' ltac:(lia) ltac:(lia) (i - N + 1) (i + 1) (fun j => (j <=? i) && (j <? H)) oa)
      as (ob & Hb & HPb); auto; try lia.
    rewrite Hb. cbn [bind].
    destruct (uper_left_spec i o (o + 1) out' ltac:(lia) ltac:(lia) ob) as (oc & Hc' & HPc); auto; try lia.
    rewrite Hc'. cbn [bind]. eexists; split; [reflexivity|].
    split; [split; [apply (uper_inv_step i o out'); auto; apply P_final; auto|lia]|lia]. }
  { split; [exact Hi2|]. lia. }
  { destruct Hi2; lia. }
  { lia. }
  rewrite Hw3. cbn [bind].
  (* 612-625 *)
  match goal with |- context [while fuel ?c ?b (i3, o3, out3)] =>
    destruct (while_inv (fun st => Inv st /\ let '(i, o, out) := st in N <= i /\ (H <= i \/ N + start - par <= i)) (fun '(i, o, out) => N + H - i) c b)
      with (fuel := fuel) (s := (i3, o3, out3))
      as ([[i4 o4] out4] & Hw4 & [Hi4 Hi4'] & Hc4) end.
  { intros [[i o] out'] [HI HiF] Hc. pose proof HI as (Hi & Ho & Hl & _).
    assert (HiH : i < N + start - par) by lia.
    destruct (uright_gen i o (o + 1) out' ltac:(lia) ltac:(lia) (fun j => N <=? i - j))
        as (oa & Ha & HPa); try lia.
    unfold uper_right. fold N. rewrite Ha. cbn [bind].
    destruct (uper_centre i o (o + 1) out' ltac:(lia) ltac:(lia) (i - N + 1) H (fun j => (j <=? i) && (j <? H)) oa)
      as (ob & Hb & HPb); auto; try lia.
    rewrite Hb. cbn [bind]. eexists; split; [reflexivity|].
    split; [split; [apply (uper_inv_step i o out'); auto; apply P_final; auto|lia]|lia]. }
  { split; [exact Hi3|]. lia. }
  { destruct Hi3; lia. }
  { lia. }
  rewrite Hw4. cbn [bind]. destruct Hi4 as (Hi & Ho & Hl & Ht).
  exists out4. split; [reflexivity|]. split; [auto|]. intros t Htr. rewrite Ht. unfold done_.
  match goal with |- context [if ?b then S _ else r0] => replace b with true by lia end. reflexivity.
Qed.

End Periodic.
End Up.

(** ** Final statements *)

Theorem upsampling_convolution_full_spec (C : CRing) fuel (inp flt out : list C) :
  1 <= zlen inp -> 2 <= zlen flt -> zlen flt mod 2 = 0 ->
  zlen out = 2 * zlen inp + zlen flt - 2 ->
  zlen inp + zlen flt + 4 <= Z.of_nat fuel ->
  upsampling_convolution_full fuel inp flt out
  = Ok (tab (zlen out) (fun n => gz out n [+] up_conv flt (gz inp) n)).
Proof.
  intros HN HF HF2 Hout Hfuel.
  destruct (full_aux C fuel inp flt HF HF2 (zlen flt / 2) ltac:(lia) HN Hfuel out Hout) as (out' & He & Hl & Ht).
  rewrite He. f_equal. apply list_ext.
  - rewrite zlen_tab by lia. auto.
  - intros i Hi. rewrite gz_tab by lia. apply Ht. lia.
Qed.

(** Both synthesis kernels: the output buffer is incremented by the synthesis. *)
Theorem upsampling_convolution_valid_sf_spec (C : CRing) fuel (inp flt out : list C) m :
  1 <= zlen inp -> 2 <= zlen flt -> zlen flt mod 2 = 0 ->
  (m <> PERIODIZATION -> zlen flt / 2 <= zlen inp) ->
  zlen out = rec_len m (zlen inp) (zlen flt) ->
  zlen inp + zlen flt + 4 <= Z.of_nat fuel ->
  upsampling_convolution_valid_sf fuel inp flt out m
  = Ok (tab (zlen out) (fun n => gz out n [+] gz (synthesis m flt inp) n)).
Proof.
  intros HN HF HF2 Hmin Hout Hfuel.
  assert (Hex : exists out', upsampling_convolution_valid_sf fuel inp flt out m = Ok out' /\
    zlen out' = zlen out /\ forall t, 0 <= t < zlen out -> gz out' t = gz out t [+] gz (synthesis m flt inp) t).
  { assert (Hd : m = PERIODIZATION \/ m <> PERIODIZATION) by (destruct m; auto; right; discriminate).
    destruct Hd as [->|Hm].
    - cbn [upsampling_convolution_valid_sf rec_len synthesis] in *.
      destruct (uper_aux C fuel inp flt HF HF2 (zlen flt / 2) ltac:(lia) HN Hfuel out Hout (zlen flt / 4)
           (if (zlen flt / 2) mod 2 =? 0 then 1 else 0)) as (out' & He & Hl & Ht).
      + destruct (_ =? 0); auto.
      + destruct (Z.eqb_spec ((zlen flt / 2) mod 2) 0); lia.
      + exists out'. split; [auto|]. split; [lia|]. intros t Htr. rewrite Ht by lia. rewrite gz_tab by lia. reflexivity.
    - replace (rec_len m (zlen inp) (zlen flt)) with (2 * zlen inp - zlen flt + 2) in Hout by (destruct m; reflexivity || congruence).
      replace (synthesis m flt inp) with (synthesis ZEROPAD flt inp) by (destruct m; reflexivity || congruence).
      destruct (valid_aux C fuel inp flt HF HF2 (zlen flt / 2) ltac:(lia) m Hm (Hmin Hm)
        Hfuel out Hout) as (out' & He & Hl & Ht).
      exists out'. split; [exact He|]. split; [exact Hl|]. intros t Htr. rewrite Ht by lia.
      cbn [synthesis]. rewrite gz_tab by lia. reflexivity. }
  destruct Hex as (out' & He & Hl & Ht). rewrite He. f_equal. pose proof (zlen_nonneg out). apply list_ext.
  - rewrite zlen_tab by lia. auto.
  - intros i Hi. rewrite gz_tab by lia. apply Ht. lia.
Qed.
