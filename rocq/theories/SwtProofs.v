(** The stationary transform: closed form, shift invariance, inverse, energy. *)
From Verif Require Import Base BaseLemmas CConv Spec ExtLemmas DownPer Lengths LengthsProofs Dwt DwtProofs PR Linear MultilevelProofs Swt SwtSpec.

(** Enough fuel and memory for a stationary transform up to level [L]. *)
Definition swt_resources (fuel : nat) (N F L : Z) : Prop :=
  resources fuel N F /\ N + (F + 1) * 2 ^ (L - 1) + 8 <= Z.of_nat fuel /\ F * 2 ^ (L - 1) < max_alloc /\ L <= 31.

Lemma pow2_le a b : 0 <= a <= b -> 2 ^ a <= 2 ^ b.
Proof. intros. apply Z.pow_le_mono_r; lia. Qed.
Lemma pow2_pos a : 0 <= a -> 1 <= 2 ^ a.
Proof. intros. change 1 with (2 ^ 0). apply pow2_le. lia. Qed.
Lemma pow2_div a b : 0 <= a <= b -> (2 ^ a | 2 ^ b).
Proof. intros. exists (2 ^ (b - a)). rewrite <- Z.pow_add_r by lia. f_equal. lia. Qed.

Lemma swt_resources_le fuel N F L L' : 0 <= F -> 1 <= L' <= L -> swt_resources fuel N F L -> swt_resources fuel N F L'.
Proof.
  intros HF HL (H1 & H2 & H3 & H4). assert (2 ^ (L' - 1) <= 2 ^ (L - 1)) by (apply pow2_le; lia).
  assert (F * 2 ^ (L' - 1) <= F * 2 ^ (L - 1)) by (apply Z.mul_le_mono_nonneg_l; lia).
  split; [auto|]. repeat split; lia.
Qed.

Lemma foldM_tab {A T} (I : Z -> T -> Prop) (f : T -> A -> res T) n (h : Z -> A) s :
  0 <= n -> I 0 s ->
  (forall k s, 0 <= k < n -> I k s -> exists s', f s (h k) = Ok s' /\ I (k + 1) s') ->
  exists s', foldM f s (tab n h) = Ok s' /\ I n s'.
Proof.
  intros Hn H0 Hs. unfold tab.
  assert (G : forall m a s, Z.of_nat (a + m) = n -> I (Z.of_nat a) s ->
    exists s', foldM f s (map (fun k => h (Z.of_nat k)) (seq a m)) = Ok s' /\ I n s').
  { induction m as [|m IH]; intros a s' Ha HI; cbn [seq map foldM].
    - exists s'. split; auto. replace n with (Z.of_nat a) by lia. auto.
    - destruct (Hs (Z.of_nat a) s') as (s'' & E & HI'); auto; [lia|]. rewrite E. cbn [bind].
      apply IH; [lia|]. replace (Z.of_nat (S a)) with (Z.of_nat a + 1) by lia. auto. }
  apply (G (Z.to_nat n) 0%nat s); auto. lia.
Qed.

Lemma every_other_tab {A} (g : Z -> A) n : 0 <= n -> every_other (tab (2 * n) g) = tab n (fun k => g (2 * k)).
Proof.
  intros Hn. unfold tab. replace (Z.to_nat (2 * n)) with (2 * Z.to_nat n)%nat by lia.
  set (m := Z.to_nat n). clearbody m. 
  assert (G : forall a, every_other (map (fun k => g (Z.of_nat k)) (seq (2 * a) (2 * m))) = map (fun k => g (2 * Z.of_nat k)) (seq a m)).
  { induction m as [|m IH]; intros a; [reflexivity|].
    replace (2 * S m)%nat with (S (S (2 * m))) by lia. cbn [seq map every_other]. f_equal; [f_equal; lia|].
    replace (S (S (2 * a))) with (2 * S a)%nat by lia. apply IH. }
  apply (G 0%nat).
Qed.

Lemma tab_cons {A} n (f : Z -> A) : 1 <= n -> tab n f = f 0 :: tab (n - 1) (fun k => f (k + 1)).
Proof.
  intros H. unfold tab. replace (Z.to_nat n) with (S (Z.to_nat (n - 1))) by lia. cbn [seq map]. f_equal.
  rewrite <- seq_shift, map_map. apply map_ext. intros a. f_equal. lia.
Qed.

Lemma every_other_tab_odd {A} (g : Z -> A) n : 0 <= n -> every_other (tab (2 * n + 1) g) = tab (n + 1) (fun k => g (2 * k)).
Proof.
  intros Hn. unfold tab. replace (Z.to_nat (2 * n + 1)) with (2 * Z.to_nat n + 1)%nat by lia.
  replace (Z.to_nat (n + 1)) with (Z.to_nat n + 1)%nat by lia. set (m := Z.to_nat n). clearbody m.
  assert (G : forall a, every_other (map (fun k => g (Z.of_nat k)) (seq (2 * a) (2 * m + 1))) = map (fun k => g (2 * Z.of_nat k)) (seq a (m + 1))).
  { induction m as [|m IH]; intros a.
    - cbn [Nat.add Nat.mul seq map every_other]. f_equal. f_equal. lia.
    - replace (2 * S m + 1)%nat with (S (S (2 * m + 1))) by lia. cbn [seq map every_other Nat.add]. f_equal; [f_equal; lia|].
      replace (S (S (2 * a))) with (2 * S a)%nat by lia. apply IH. }
  apply (G 0%nat).
Qed.

Lemma evens_tab {A} (g : Z -> A) n : 0 <= n -> evens (tab n g) = tab ((n + 1) / 2) (fun k => g (2 * k)).
Proof.
  intros Hn. unfold evens. destruct (Z.eq_dec (n mod 2) 0).
  - replace n with (2 * (n / 2)) at 1 by lia. rewrite every_other_tab by lia. f_equal. lia.
  - replace n with (2 * (n / 2) + 1) at 1 by lia. rewrite every_other_tab_odd by lia. f_equal. lia.
Qed.
Lemma odds_tab {A} (g : Z -> A) n : 0 <= n -> odds (tab n g) = tab (n / 2) (fun k => g (2 * k + 1)).
Proof.
  intros Hn. unfold odds. destruct (Z.eq_dec n 0) as [->|]; [reflexivity|].
  rewrite tab_cons by lia. cbn [tl]. change every_other with (@evens A). rewrite evens_tab by lia.
  f_equal. f_equal. lia.
Qed.

Lemma foldM_app {A T} (f : T -> A -> res T) l1 : forall s l2, foldM f s (l1 ++ l2) = (s' <- foldM f s l1 ;; foldM f s' l2).
Proof. induction l1 as [|a l1 IH]; intros s l2; cbn; auto. destruct (f s a); cbn; auto. Qed.

Section P.
Variable C : CRing.
Add Ring Cring_ring_sw : (rth C).
Variable fuel : nat.

Lemma zlen_swt_step l (h x : list C) : zlen (swt_step l h x) = zlen x.
Proof. unfold swt_step. apply zlen_tab. apply zlen_nonneg. Qed.
Lemma zlen_swt_approx h s n (x : list C) : zlen (swt_approx h s n x) = zlen x.
Proof. induction n as [|n IH]; cbn [swt_approx]; auto. rewrite zlen_swt_step. auto. Qed.
Lemma zlen_swt_detail h0 h1 s n (x : list C) : zlen (swt_detail h0 h1 s n x) = zlen x.
Proof. unfold swt_detail. rewrite zlen_swt_step. apply zlen_swt_approx. Qed.

(** The zero-inserted filter. *)
Lemma swt_fill (h : list C) st : 1 <= st -> zlen h + 2 < Z.of_nat fuel ->
  exists e, while fuel (fun '(i, e) => i <? zlen h)
        (fun '(i, e) => v <- rd h i ;; e <- wr e (i * st) v ;; Ok (i + 1, e)) (0, repeat r0 (Z.to_nat (zlen h * st)))
    = Ok (zlen h, e) /\ zlen e = zlen h * st /\
    (forall t, gz e (t * st) = gz h t) /\ (forall t, ~ (st | t) -> gz e t = r0).
Proof.
  intros Hst Hf. pose proof (zlen_nonneg h) as Hh. assert (0 <= zlen h * st) by lia.
  destruct (while_inv (fun '(i, e) => 0 <= i <= zlen h /\ zlen e = zlen h * st /\
      (forall t, gz e (t * st) = if t <? i then gz h t else r0) /\ (forall t, ~ (st | t) -> gz e t = r0))
    (fun '(i, e) => zlen h - i) (fun '(i, e) => i <? zlen h)
    (fun '(i, e) => v <- rd h i ;; e <- wr e (i * st) v ;; Ok (i + 1, e))) with (fuel := fuel)
    (s := (0, repeat (r0 : C) (Z.to_nat (zlen h * st)))) as ([i e] & Hw & (Hi & Hl & Hv & Hz) & Hc).
  - intros [i e] (Hi & Hl & Hv & Hz) Hc. rewrite rd_ok by lia. cbn [bind].
    assert (i * st < zlen e) by (rewrite Hl; apply Z.mul_lt_mono_pos_r; lia).
    rewrite wr_ok by lia. cbn [bind]. eexists; split; [reflexivity|]. split; [|lia].
    split; [lia|]. split; [rewrite zlen_upd; auto|]. split.
    + intros t. rewrite gz_upd by lia. rewrite Hv.
      destruct (Z.eqb_spec (t * st) (i * st)) as [E|E].
      * assert (t = i) by (apply (Z.mul_reg_r t i st); lia). subst. replace (i <? i + 1) with true by lia. reflexivity.
      * assert (t <> i) by congruence. replace (t <? i + 1) with (t <? i) by lia. reflexivity.
    + intros t Ht. rewrite gz_upd by lia. destruct (Z.eqb_spec t (i * st)) as [->|]; auto.
      exfalso. apply Ht. exists i. reflexivity.
  - split; [lia|]. split; [rewrite zlen_repeat; lia|]. split.
    + intros t. rewrite gz_repeat0. destruct (Z.ltb_spec t 0); auto. rewrite gz_neg by lia. reflexivity.
    + intros t _. apply gz_repeat0.
  - lia.
  - lia.
  - exists e. assert (i = zlen h) by lia. subst i. split; [auto|]. split; [auto|]. split; [|auto].
    intros t. rewrite Hv. destruct (Z.ltb_spec t (zlen h)); auto. rewrite gz_big by lia. reflexivity.
Qed.

Lemma sumZ_stride (f : Z -> C) n st : 1 <= st -> 0 <= n ->
  (forall t, ~ (st | t) -> f t = r0) ->
  sumZ 0 (n * st) f = sumZ 0 n (fun t => f (t * st)).
Proof.
  intros Hst Hn Hz. replace n with (Z.of_nat (Z.to_nat n)) by lia. generalize (Z.to_nat n). clear n Hn.
  induction n as [|n IH]; [rewrite !sumZ_empty by lia; reflexivity|].
  rewrite Nat2Z.inj_succ. unfold Z.succ. rewrite sumZ_last by lia.
  rewrite (sumZ_split C 0 (Z.of_nat n * st)) by lia. rewrite IH. f_equal.
  apply (sumZ_single C _ _ (Z.of_nat n * st) f); [lia|]. intros t Ht Hne. apply Hz. intros (q & ->).
  assert (Z.of_nat n < q) by (apply (Z.mul_lt_mono_pos_r st); lia).
  assert (q < Z.of_nat n + 1) by (apply (Z.mul_lt_mono_pos_r st); lia). lia.
Qed.

(** The C routine computes the closed form. *)
Theorem c_swt_spec (x h out : list C) level :
  1 <= level -> 1 <= zlen x -> (2 ^ level | zlen x) -> 2 <= zlen h -> zlen h mod 2 = 0 ->
  zlen out = zlen x -> swt_resources fuel (zlen x) (zlen h) level ->
  c_swt fuel x h out level = Ok (swt_step level h x).
Proof.
  intros HL Hx Hdiv Hh Hh2 Hout (Hr1 & Hr2 & Hr3 & Hr4).
  unfold c_swt. replace (level <? 1) with false by lia.
  destruct (swt_max_level_spec (zlen x) Hx) as (j & Hj & Hj0 & _). rewrite Hj. cbn [bind].
  assert (level <= j) by (apply (swt_max_level_iff (zlen x) j level Hx Hj); auto; lia).
  replace (j <? level) with false by lia. unfold swt_buffer_length. rewrite Hout, Z.eqb_refl. cbn [negb].
  assert (Hst : 1 <= 2 ^ (level - 1)) by (apply pow2_pos; lia).
  assert (Hcl : forall e : list C, zlen e = zlen h * 2 ^ (level - 1) ->
     (forall t, gz e (t * 2 ^ (level - 1)) = gz h t) -> (forall t, ~ (2 ^ (level - 1) | t) -> gz e t = r0) ->
     downsampling_convolution_periodization fuel x e out 1 (2 ^ (level - 1)) = Ok (swt_step level h x)).
  { intros e He Hv Hz. rewrite downsampling_convolution_periodization_spec; try lia; auto.
    - f_equal. unfold swt_step. replace ((zlen x + 1 - 1) / 1) with (zlen x) by lia. apply tab_ext. intros n Hn.
      unfold conv. rewrite He. rewrite sumZ_stride; try lia.
      + apply sumZ_ext. intros m Hm. rewrite Hv. f_equal. unfold pext.
        replace ((1 - zlen x mod 1) mod 1) with 0 by (rewrite Z.mod_1_r; reflexivity). rewrite Z.add_0_r.
        rewrite Z.min_l by (pose proof (Z.mod_pos_bound (1 * n + zlen h * 2 ^ (level - 1) / 2 - m * 2 ^ (level - 1)) (zlen x)); lia).
        f_equal. f_equal. replace (zlen h) with (2 * (zlen h / 2)) at 1 by lia.
        replace (2 * (zlen h / 2) * 2 ^ (level - 1)) with ((zlen h / 2) * 2 ^ (level - 1) * 2) by lia.
        rewrite Z.div_mul by lia. lia.
      + intros t Ht. rewrite Hz by auto. ring.
    - right. split; [rewrite !Z.mod_1_r; reflexivity|]. apply Z.divide_trans with (2 ^ level); auto. apply pow2_div; lia. }
  destruct (Z.ltb_spec 1 level).
  - replace (zlen h * 2 ^ (level - 1) <? max_alloc) with true by lia. cbn [bind].
    replace (31 <? level) with false by lia.
    destruct (swt_fill h (2 ^ (level - 1)) Hst) as (e & Hw & He & Hv & Hz).
    { destruct Hr1. lia. }
    rewrite Hw. cbn [bind]. apply Hcl; auto.
  - assert (level = 1) by lia. subst level. change (2 ^ (1 - 1)) with 1 in *. apply Hcl; try lia.
    + intros t. f_equal. lia.
    + intros t Ht. exfalso. apply Ht. apply Z.divide_1_l.
Qed.

(** Items produced by the transform. *)
Definition swt_full (h0 h1 : list C) s n x : list (swt_item (list C)) :=
  map (fun j => SPair (swt_approx h0 s j x) (swt_detail h0 h1 s j x)) (rev (seq 1 n)).
Definition swt_trim (h0 h1 : list C) s n x : list (swt_item (list C)) :=
  SArr (swt_approx h0 s n x) :: map (fun j => SArr (swt_detail h0 h1 s j x)) (rev (seq 1 n)).
Definition swt_out (trim : bool) (h0 h1 : list C) s n x := if trim then swt_trim h0 h1 s n x else swt_full h0 h1 s n x.

Lemma swt_loop_spec w s (x : list C) trim : wf_bank w -> 1 <= zlen x -> 0 <= s ->
  forall n k ret, (2 ^ (s + Z.of_nat (k + n)) | zlen x) -> swt_resources fuel (zlen x) (dec_len w) (s + Z.of_nat (k + n)) ->
  swt_loop fuel (swt_approx (dec_lo w) s k x) w (s + Z.of_nat k + 1) n trim ret =
  Ok (ret ++ map (fun j => if trim then SArr (swt_detail (dec_lo w) (dec_hi w) s j x)
                           else SPair (swt_approx (dec_lo w) s j x) (swt_detail (dec_lo w) (dec_hi w) s j x)) (seq (S k) n),
      swt_approx (dec_lo w) s (k + n) x).
Proof.
  intros Hw Hx Hs. pose proof Hw as (H1 & H2 & H3 & H4 & H5).
  induction n as [|n IH]; intros k ret Hd Hr; cbn [swt_loop].
  - cbn [seq map]. rewrite app_nil_r, Nat.add_0_r. reflexivity.
  - assert (Hlen : zlen (swt_approx (dec_lo w) s k x) = zlen x) by apply zlen_swt_approx.
    rewrite Hlen. unfold swt_buffer_length.
    destruct (np_zeros_ok C (zlen x)) as (z & Hz & Hzl & _). { destruct Hr as ((_ & ?) & _). lia. }
    rewrite Hz. cbn [bind]. unfold swt_d, swt_a.
    assert (Hd' : (2 ^ (s + Z.of_nat k + 1) | zlen x)).
    { apply Z.divide_trans with (2 ^ (s + Z.of_nat (k + S n))); auto. apply pow2_div; lia. }
    assert (Hr' : swt_resources fuel (zlen x) (dec_len w) (s + Z.of_nat k + 1)).
    { apply swt_resources_le with (s + Z.of_nat (k + S n)); auto; lia. }
    rewrite !c_swt_spec; rewrite ?Hlen, ?H1; fold (dec_len w); auto; try lia. cbn [as_runtime bind].
    cbn [bind as_runtime].
    specialize (IH (S k)). cbn [swt_approx] in IH.
    replace (s + Z.of_nat (S k)) with (s + Z.of_nat k + 1) in IH by lia.
    rewrite IH; [|replace (S k + n)%nat with (k + S n)%nat by lia; auto ..].
    cbn [seq map]. rewrite <- app_assoc. cbn [app]. 
    replace (k + S n)%nat with (S k + n)%nat by lia. cbn [Nat.add].
    unfold swt_detail at 3 4. cbn [swt_approx].
    replace (S k - 1)%nat with k by lia.
    replace (s + Z.of_nat (S k)) with (s + Z.of_nat k + 1) by lia. reflexivity.
Qed.

Theorem swt_single_spec w (x : list C) level s trim : wf_bank w -> 1 <= zlen x -> 0 <= s -> 1 <= level ->
  (2 ^ (s + level) | zlen x) -> swt_resources fuel (zlen x) (dec_len w) (s + level) ->
  swt_single fuel x w level s trim = Ok (swt_out trim (dec_lo w) (dec_hi w) s (Z.to_nat level) x).
Proof.
  intros Hw Hx Hs HL Hd Hr. unfold swt_single.
  assert (Heven : zlen x mod 2 = 0).
  { apply Z.mod_divide; [lia|]. apply Z.divide_trans with (2 ^ (s + level)); auto.
    change 2 with (2 ^ 1) at 1. apply pow2_div. lia. }
  rewrite Heven. cbn [Z.eqb negb]. replace (zlen x <? 1) with false by lia. replace (level <? 1) with false by lia.
  replace (s <? 0) with false by lia.
  destruct (swt_max_level_spec (zlen x) Hx) as (j & Hj & Hj0 & _). rewrite Hj. cbn [bind].
  assert (s + level <= j) by (apply (swt_max_level_iff (zlen x) j _ Hx Hj); auto; lia).
  replace (j <=? s) with false by lia. replace (j <? s + level) with false by lia.
  pose proof (swt_loop_spec w s x trim Hw Hx Hs (Z.to_nat level) 0 []) as HH. cbn [swt_approx Nat.add app] in HH.
  replace (s + Z.of_nat 0) with s in HH by lia. rewrite HH; try (rewrite Z2Nat.id by lia; auto).
  cbn [bind]. f_equal. unfold swt_out, swt_trim, swt_full. destruct trim.
  - rewrite rev_app_distr. cbn [rev app]. f_equal. rewrite map_rev. reflexivity.
  - rewrite map_rev. reflexivity.
Qed.

(** Which requests are accepted. *)
Theorem swt_single_guard w (x : list C) level s trim :
  wf_bank w -> 0 <= s -> swt_resources fuel (zlen x) (dec_len w) (Z.max 1 (s + level)) ->
  ((exists r, swt_single fuel x w level s trim = Ok r) <-> (1 <= zlen x /\ 1 <= level /\ (2 ^ (s + level) | zlen x))) /\
  (~ (1 <= zlen x /\ 1 <= level /\ (2 ^ (s + level) | zlen x)) -> swt_single fuel x w level s trim = Err ValueError).
Proof.
  intros Hw Hs Hr.
  assert (Hno : ~ (1 <= zlen x /\ 1 <= level /\ (2 ^ (s + level) | zlen x)) -> swt_single fuel x w level s trim = Err ValueError).
  { intros Hn. unfold swt_single. destruct (Z.eqb_spec (zlen x mod 2) 0); cbn [negb]; [|reflexivity].
    destruct (Z.ltb_spec (zlen x) 1); [reflexivity|]. destruct (Z.ltb_spec level 1); [reflexivity|].
    replace (s <? 0) with false by lia.
    destruct (swt_max_level_spec (zlen x) ltac:(lia)) as (j & Hj & Hj0 & _). rewrite Hj. cbn [bind].
    destruct (Z.leb_spec j s); [reflexivity|]. destruct (Z.ltb_spec j (s + level)); [reflexivity|].
    exfalso. apply Hn. repeat split; try lia. apply (swt_max_level_iff (zlen x) j (s + level) ltac:(lia) Hj); lia. }
  split; [|exact Hno]. split.
  - intros (r & Hr'). destruct (Z_lt_ge_dec (zlen x) 1); [rewrite Hno in Hr' by lia; discriminate|].
    destruct (Z_lt_ge_dec level 1); [rewrite Hno in Hr' by lia; discriminate|].
    destruct (Znumtheory.Zdivide_dec (2 ^ (s + level)) (zlen x)); [repeat split; auto; lia|].
    rewrite Hno in Hr' by tauto. discriminate.
  - intros (H1 & H2 & H3). eexists. apply swt_single_spec; auto. rewrite Z.max_r in Hr by lia. auto.
Qed.

(** ** Shift invariance *)
Lemma gz_swt_step l (h x : list C) n : 0 <= n < zlen x -> gz (swt_step l h x) n =
  sumZ 0 (zlen h) (fun m => gz h m [*] gz x ((n + 2 ^ (l - 1) * (zlen h / 2 - m)) mod zlen x)).
Proof. intros H. unfold swt_step. rewrite gz_tab by lia. reflexivity. Qed.

Theorem swt_step_roll l (h x : list C) s : swt_step l h (roll s x) = roll s (swt_step l h x).
Proof.
  destruct (Z.eq_dec (zlen x) 0) as [E|E].
  { apply zlen_nil_inv in E. subst. reflexivity. }
  assert (1 <= zlen x) by (pose proof (zlen_nonneg x); lia).
  apply list_ext.
  - rewrite zlen_roll, !zlen_swt_step, zlen_roll. reflexivity.
  - intros n Hn. rewrite zlen_swt_step, zlen_roll in Hn.
    replace (gz (roll s (swt_step l h x)) n) with (gz (roll s (swt_step l h x)) (n mod zlen (swt_step l h x))).
    2:{ rewrite zlen_swt_step. rewrite (Z.mod_small n) by lia. reflexivity. }
    rewrite gz_roll_mod by (rewrite zlen_swt_step; auto). rewrite zlen_swt_step.
    rewrite !gz_swt_step by (rewrite ?zlen_roll; auto; apply Z.mod_pos_bound; lia).
    rewrite zlen_roll. apply sumZ_ext. intros m Hm. f_equal.
    rewrite gz_roll_mod by lia. f_equal. rewrite Zplus_mod_idemp_l. f_equal. lia.
Qed.

Lemma swt_approx_roll h s n (x : list C) r : swt_approx h s n (roll r x) = roll r (swt_approx h s n x).
Proof. induction n as [|n IH]; cbn [swt_approx]; auto. rewrite IH. apply swt_step_roll. Qed.
Lemma swt_detail_roll h0 h1 s n (x : list C) r : swt_detail h0 h1 s n (roll r x) = roll r (swt_detail h0 h1 s n x).
Proof. unfold swt_detail. rewrite swt_approx_roll. apply swt_step_roll. Qed.

Definition item_map {A B} (f : A -> B) (it : swt_item A) : swt_item B :=
  match it with SPair a d => SPair (f a) (f d) | SArr d => SArr (f d) end.

Lemma swt_out_roll trim h0 h1 s n (x : list C) r :
  swt_out trim h0 h1 s n (roll r x) = map (item_map (roll r)) (swt_out trim h0 h1 s n x).
Proof.
  unfold swt_out, swt_trim, swt_full. destruct trim; cbn [map item_map]; rewrite ?map_map.
  - f_equal; [f_equal; apply swt_approx_roll|]. apply map_ext. intros j. cbn [item_map]. f_equal. apply swt_detail_roll.
  - apply map_ext. intros j. cbn [item_map]. f_equal; [apply swt_approx_roll|apply swt_detail_roll].
Qed.

(** ** Cosets *)

Definition coset (st f : Z) (x : list C) : list C := tab (zlen x / st) (fun i => gz x (f + st * i)).

Lemma coset_mod st f M t : 0 <= f < st -> 1 <= M -> (f + st * t) mod (st * M) = f + st * (t mod M).
Proof.
  intros Hf HM. rewrite (Z_div_mod_eq_full t M) at 1.
  replace (f + st * (M * (t / M) + t mod M)) with ((f + st * (t mod M)) + (t / M) * (st * M)) by lia.
  rewrite Z_mod_plus_full. apply Z.mod_small. pose proof (Z.mod_pos_bound t M ltac:(lia)).
  assert (st * (t mod M) <= st * (M - 1)) by (apply Z.mul_le_mono_nonneg_l; lia). nia.
Qed.

Lemma coset_even l (h x : list C) f : 1 <= l -> 1 <= zlen x -> (2 ^ l | zlen x) -> 0 <= f < 2 ^ (l - 1) ->
  coset (2 * 2 ^ (l - 1)) f (swt_step l h x) = analysis PERIODIZATION h (coset (2 ^ (l - 1)) f x).
Proof.
  intros Hl Hx (q & Hq) Hf. set (st := 2 ^ (l - 1)) in *.
  assert (Hst : 2 ^ l = 2 * st) by (unfold st; rewrite <- Z.pow_succ_r by lia; f_equal; lia).
  assert (Hq1 : 1 <= q) by nia. rewrite Hst in Hq.
  assert (Hy : zlen (coset st f x) = 2 * q).
  { unfold coset. rewrite zlen_tab by (apply Z.div_pos; lia). rewrite Hq. replace (q * (2 * st)) with (2 * q * st) by lia. apply Z.div_mul. lia. }
  unfold coset at 1. rewrite zlen_swt_step, Hq, Z.div_mul by lia. unfold analysis. rewrite Hy. cbn [coeff_len first_pos].
  replace ((2 * q + 1) / 2) with q by lia. apply tab_ext. intros k Hk.
  assert (0 <= f + 2 * st * k < zlen x) by nia.
  rewrite gz_swt_step by auto. fold st. unfold conv. apply sumZ_ext. intros m Hm. f_equal.
  rewrite ext_per_even by (rewrite Hy; lia). rewrite Hy. pose proof (Z.mod_pos_bound (2 * k + zlen h / 2 - m) (2 * q) ltac:(lia)).
  unfold coset. rewrite gz_tab by (rewrite Hq; replace (q * (2 * st)) with (2 * q * st) by lia; rewrite Z.div_mul by lia; lia).
  f_equal. rewrite Hq. replace (q * (2 * st)) with (st * (2 * q)) by lia.
  rewrite <- coset_mod by lia. f_equal. lia.
Qed.

Lemma coset_odd l (h x : list C) f : 1 <= l -> 1 <= zlen x -> (2 ^ l | zlen x) -> 0 <= f < 2 ^ (l - 1) ->
  coset (2 * 2 ^ (l - 1)) (f + 2 ^ (l - 1)) (swt_step l h x) = analysis PERIODIZATION h (roll (-1) (coset (2 ^ (l - 1)) f x)).
Proof.
  intros Hl Hx (q & Hq) Hf. set (st := 2 ^ (l - 1)) in *.
  assert (Hst : 2 ^ l = 2 * st) by (unfold st; rewrite <- Z.pow_succ_r by lia; f_equal; lia).
  assert (Hq1 : 1 <= q) by nia. rewrite Hst in Hq.
  assert (Hy : zlen (coset st f x) = 2 * q).
  { unfold coset. rewrite zlen_tab by (apply Z.div_pos; lia). rewrite Hq. replace (q * (2 * st)) with (2 * q * st) by lia. apply Z.div_mul. lia. }
  unfold coset at 1. rewrite zlen_swt_step, Hq, Z.div_mul by lia. unfold analysis. rewrite zlen_roll, Hy. cbn [coeff_len first_pos].
  replace ((2 * q + 1) / 2) with q by lia. apply tab_ext. intros k Hk.
  assert (0 <= f + st + 2 * st * k < zlen x) by nia.
  rewrite gz_swt_step by auto. fold st. unfold conv. apply sumZ_ext. intros m Hm. f_equal.
  rewrite ext_per_even by (rewrite zlen_roll, Hy; lia). rewrite zlen_roll. rewrite gz_roll_mod by lia. rewrite Hy.
  pose proof (Z.mod_pos_bound (2 * k + zlen h / 2 - m - -1) (2 * q) ltac:(lia)).
  unfold coset. rewrite gz_tab by (rewrite Hq; replace (q * (2 * st)) with (2 * q * st) by lia; rewrite Z.div_mul by lia; lia).
  f_equal. rewrite Hq. replace (q * (2 * st)) with (st * (2 * q)) by lia.
  rewrite <- coset_mod by lia. f_equal. lia.
Qed.

(** ** Inverse *)

Lemma gather_tab (a : list C) n g : (forall k, 0 <= k < n -> 0 <= g k < zlen a) ->
  gather a (tab n g) = Ok (tab n (fun k => gz a (g k))).
Proof.
  intros H. unfold tab. 
  assert (G : forall m s, (Z.of_nat (s + m) <= n \/ m = O) -> gather a (map (fun k => g (Z.of_nat k)) (seq s m)) = Ok (map (fun k => gz a (g (Z.of_nat k))) (seq s m))).
  { induction m as [|m IH]; intros s Hs; cbn [seq map gather]; auto.
    unfold np_get. rewrite rd_ok by (apply H; lia). cbn [bind]. rewrite IH by lia. reflexivity. }
  apply G. lia.
Qed.

Lemma roll1_roll (x : list C) : roll1 x = roll 1 x.
Proof.
  unfold roll1. destruct (rev x) as [|l r] eqn:E.
  - apply (f_equal (@rev _)) in E. rewrite rev_involutive in E. subst. reflexivity.
  - apply (f_equal (@rev _)) in E. rewrite rev_involutive in E. cbn [rev] in E. subst x.
    set (y := rev r). assert (Hl : zlen (y ++ [l]) = zlen y + 1) by (rewrite zlen_app; reflexivity).
    pose proof (zlen_nonneg y).
    apply list_ext.
    + rewrite zlen_roll, zlen_cons, Hl. reflexivity.
    + intros i Hi. rewrite zlen_cons in Hi.
      unfold roll. rewrite gz_tab by lia. rewrite gz_cons, gz_app, Hl.
      destruct (Z.eqb_spec i 0).
      * subst. replace ((0 - 1) mod (zlen y + 1)) with (zlen y).
        2:{ replace (0 - 1) with (zlen y + (-1) * (zlen y + 1)) by lia. rewrite Z_mod_plus_full, Z.mod_small by lia. reflexivity. }
        replace (zlen y <? zlen y) with false by lia. rewrite Z.sub_diag. reflexivity.
      * rewrite Z.mod_small by lia. replace (i - 1 <? zlen y) with true by lia. reflexivity.
Qed.

Lemma roll_roll (x : list C) : 1 <= zlen x -> roll 1 (roll (-1) x) = x.
Proof.
  intros H. rewrite <- (tab_gz x) at 2. unfold roll at 1. rewrite zlen_roll. apply tab_ext. intros i Hi.
  rewrite gz_roll_mod by auto. f_equal. replace (i - 1 - -1) with i by lia. apply Z.mod_small. lia.
Qed.

Lemma combine_tab {A B} n (f : Z -> A) (g : Z -> B) : combine (tab n f) (tab n g) = tab n (fun k => (f k, g k)).
Proof. unfold tab. induction (seq 0 (Z.to_nat n)); cbn; f_equal; auto. Qed.

Lemma scatter_arange (a v : list C) f st M : 0 <= f < st -> zlen v = M -> zlen a = st * M ->
  exists r, scatter a (tab M (fun k => f + st * k)) v = Ok r /\ zlen r = zlen a /\
    forall n, 0 <= n < zlen a -> gz r n = if n mod st =? f then gz v (n / st) else gz a n.
Proof.
  intros Hf Hv Ha. unfold scatter. assert (0 <= M) by (rewrite <- Hv; apply zlen_nonneg).
  rewrite zlen_tab by auto. rewrite Hv, Z.eqb_refl. cbn [negb].
  assert (Ec : combine (tab M (fun k => f + st * k)) v = tab M (fun k => (f + st * k, gz v k))).
  { rewrite <- combine_tab. f_equal. rewrite <- Hv. symmetry. apply tab_gz. }
  rewrite Ec.
  destruct (foldM_tab (fun K r => zlen r = zlen a /\
     forall n, 0 <= n < zlen a -> gz r n = if (n mod st =? f) && (n / st <? K) then gz v (n / st) else gz a n)
     (fun a '(i, v) => match wr a i v with OOB => Err IndexError | r => r end) M (fun k => (f + st * k, gz v k)) a)
     as (r & Hr & Hl & Hg); auto.
  - split; auto. intros n Hn. assert (0 <= n / st) by (apply Z.div_pos; lia). 
    replace (n / st <? 0) with false by lia. rewrite andb_false_r. reflexivity.
  - intros k s Hk (Hl & Hg). assert (0 <= f + st * k < zlen s) by nia.
    rewrite wr_ok by auto. eexists; split; [reflexivity|]. rewrite zlen_upd. split; auto.
    intros n Hn. rewrite gz_upd by auto. rewrite Hg by auto.
    assert (En : n = st * (n / st) + n mod st) by (apply Z.div_mod; lia).
    pose proof (Z.mod_pos_bound n st ltac:(lia)).
    destruct (Z.eqb_spec n (f + st * k)) as [E|E].
    + assert (Hq : n / st = k) by (rewrite E; replace (f + st * k) with (f + k * st) by lia; rewrite Z.div_add, Z.div_small by lia; lia).
      assert (Hm : n mod st = f) by (rewrite Hq in En; lia). rewrite Hq, Hm, Z.eqb_refl. replace (k <? k + 1) with true by lia. reflexivity.
    + destruct (Z.eqb_spec (n mod st) f); cbn [andb]; auto.
      assert (n / st <> k) by (intros Hq; apply E; rewrite Hq in En; lia).
      replace (n / st <? k + 1) with (n / st <? k) by lia. reflexivity.
  - exists r. split; auto. split; auto. intros n Hn. rewrite Hg by auto.
    assert (n / st < M) by (apply Z.div_lt_upper_bound; lia). replace (n / st <? M) with true by lia. rewrite andb_true_r. reflexivity.
Qed.

(** Synthesis with [w'] inverts analysis with [w]. *)
Definition pr_pair (w w' : wavelet C) : Prop :=
  pr_bank (dec_lo w) (dec_hi w) (rec_lo w') (rec_hi w') /\ wf_bank w'.

Lemma tab_ext_even (y : list C) : 1 <= zlen y -> zlen y mod 2 = 0 ->
  tab (zlen y + zlen y mod 2) (ext PERIODIZATION y) = y.
Proof.
  intros H H2. rewrite H2, Z.add_0_r. rewrite <- (tab_gz y) at 3. apply tab_ext. intros n Hn.
  rewrite ext_per_even by auto. rewrite Z.mod_small by lia. reflexivity.
Qed.

Lemma idwt_analysis_pair w w' (y : list C) : pr_pair w w' -> 1 <= zlen y -> zlen y mod 2 = 0 ->
  resources fuel (zlen y) (dec_len w') ->
  idwt_single fuel (analysis PERIODIZATION (dec_lo w) y) (analysis PERIODIZATION (dec_hi w) y) w' PERIODIZATION = Ok y.
Proof.
  intros (Hpr & Hw') Hy Hy2 Hr. pose proof Hpr as (H1 & H2 & H3 & H4 & H5 & _). pose proof Hw' as (G1 & G2 & G3 & G4 & G5).
  assert (Ha : forall h : list C, zlen h = zlen (dec_lo w) -> zlen (analysis PERIODIZATION h y) = zlen y / 2).
  { intros h Hh. rewrite zlen_analysis by lia. cbn [coeff_len]. lia. }
  rewrite idwt_single_spec; auto.
  - f_equal. rewrite analysis_synthesis; auto. apply tab_ext_even; auto.
  - rewrite !Ha; auto.
  - rewrite Ha; auto. lia.
  - rewrite Ha by auto. cbn [rec_len]. lia.
  - rewrite Ha by auto. apply resources_le with (zlen y); auto. lia.
Qed.

Lemma iswt_first_spec w w' half l (x output : list C) f :
  pr_pair w w' -> half [+] half = r1 -> 1 <= l -> 1 <= zlen x -> (2 ^ l | zlen x) -> 0 <= f < 2 ^ (l - 1) ->
  resources fuel (zlen x) (dec_len w') -> zlen output = zlen x ->
  (forall n, 0 <= n < zlen x -> n mod 2 ^ (l - 1) = f -> gz output n = gz (swt_step l (dec_lo w) x) n) ->
  exists r, iswt_first fuel half w' (swt_step l (dec_hi w) x) (2 ^ (l - 1)) output f = Ok r /\ zlen r = zlen x /\
    forall n, 0 <= n < zlen x -> gz r n = if n mod 2 ^ (l - 1) =? f then gz x n else gz output n.
Proof.
  intros Hpr Hhalf Hl Hx Hd Hf Hr Hout Hov. pose proof Hd as (q & Hq). set (st := 2 ^ (l - 1)) in *.
  assert (Hst : 2 ^ l = 2 * st) by (unfold st; rewrite <- Z.pow_succ_r by lia; f_equal; lia).
  assert (Hq1 : 1 <= q) by nia. rewrite Hst in Hq.
  set (M := 2 * q). assert (HM : zlen x = st * M) by (unfold M; lia).
  unfold iswt_first. rewrite zlen_swt_step. unfold arange.
  replace ((zlen x - f + st - 1) / st) with M.
  2:{ apply Z.div_unique with (st - 1 - f); lia. }
  rewrite evens_tab, odds_tab by lia.
  replace ((M + 1) / 2) with q by (unfold M; lia). replace (M / 2) with q by (unfold M; lia).
  assert (Hin : forall k, 0 <= k < M -> 0 <= f + st * k < zlen x) by (intros; nia).
  assert (Hmod : forall k, (f + st * k) mod st = f).
  { intros k. replace (f + st * k) with (f + k * st) by lia. rewrite Z_mod_plus_full. apply Z.mod_small. lia. }
  rewrite !gather_tab by (intros k Hk; rewrite ?zlen_swt_step, ?Hout; apply Hin; unfold M; lia). cbn [bind].
  set (y := coset st f x).
  assert (Hy : zlen y = M).
  { unfold y, coset. rewrite zlen_tab by (apply Z.div_pos; lia). rewrite HM. replace (st * M) with (M * st) by lia. apply Z.div_mul. lia. }
  assert (Hce : forall h, tab q (fun k => gz (swt_step l h x) (f + st * (2 * k))) = analysis PERIODIZATION h y).
  { intros h. pose proof (coset_even l h x f Hl Hx Hd Hf) as E. fold st in E. fold y in E. rewrite <- E. unfold coset. rewrite zlen_swt_step, Hq, Z.div_mul by lia.
    apply tab_ext. intros k Hk. f_equal. lia. }
  assert (Hco : forall h, tab q (fun k => gz (swt_step l h x) (f + st * (2 * k + 1))) = analysis PERIODIZATION h (roll (-1) y)).
  { intros h. pose proof (coset_odd l h x f Hl Hx Hd Hf) as E. fold st in E. fold y in E. rewrite <- E. unfold coset. rewrite zlen_swt_step, Hq, Z.div_mul by lia.
    apply tab_ext. intros k Hk. f_equal. lia. }
  rewrite (tab_ext q (fun k => gz output (f + st * (2 * k))) (fun k => gz (swt_step l (dec_lo w) x) (f + st * (2 * k)))).
  2:{ intros k Hk. apply Hov; [apply Hin; unfold M; lia|apply Hmod]. }
  rewrite (tab_ext q (fun k => gz output (f + st * (2 * k + 1))) (fun k => gz (swt_step l (dec_lo w) x) (f + st * (2 * k + 1)))).
  2:{ intros k Hk. apply Hov; [apply Hin; unfold M; lia|apply Hmod]. }
  rewrite !Hce, !Hco.
  assert (HM2 : M mod 2 = 0) by (unfold M; lia).
  assert (HMx : M <= zlen x) by nia. 
  rewrite (idwt_analysis_pair w w' y) by (auto; rewrite ?Hy; auto; try lia; apply resources_le with (zlen x); auto; lia). cbn [bind].
  rewrite (idwt_analysis_pair w w' (roll (-1) y)) by (auto; rewrite ?zlen_roll, ?Hy; auto; try lia; apply resources_le with (zlen x); auto; lia). cbn [bind].
  rewrite roll1_roll, roll_roll by lia. rewrite Z.eqb_refl. cbn [negb].
  replace (map (fun '(a, b) => (a [+] b) [*] half) (combine y y)) with y.
  2:{ clear - Hhalf. induction y as [|a y IH]; cbn; auto. rewrite <- IH. f_equal.
      transitivity (a [*] (half [+] half)); [rewrite Hhalf; ring|ring]. }
  destruct (scatter_arange output y f st M Hf Hy) as (r & E & Hrl & Hrg); [lia|].
  exists r. split; [exact E|]. split; [lia|]. intros n Hn. rewrite Hrg by lia.
  destruct (Z.eqb_spec (n mod st) f); auto. unfold y, coset. 
  assert (Hs0 : 0 < st) by (destruct Hf; apply Z.le_lt_trans with f; assumption). clear - Hn HM Hs0 e. clearbody st M.
  assert (0 <= n / st < zlen x / st).
  { split; [apply Z.div_pos; lia|]. replace (zlen x) with (M * st) by lia. rewrite Z.div_mul by lia.
    apply Z.div_lt_upper_bound; [lia|]. rewrite <- HM. lia. }
  rewrite gz_tab by auto. f_equal. rewrite <- e. rewrite Z.add_comm. symmetry. apply Z.div_mod. lia.
Qed.

Lemma iswt_level_spec w w' half l (x : list C) :
  pr_pair w w' -> half [+] half = r1 -> 1 <= l -> 1 <= zlen x -> (2 ^ l | zlen x) ->
  resources fuel (zlen x) (dec_len w') ->
  foldM (iswt_first fuel half w' (swt_step l (dec_hi w) x) (2 ^ (l - 1))) (swt_step l (dec_lo w) x) (tab (2 ^ (l - 1)) (fun k => k)) = Ok x.
Proof.
  intros Hpr Hhalf Hl Hx Hd Hr. assert (Hst : 1 <= 2 ^ (l - 1)) by (apply pow2_pos; lia).
  destruct (foldM_tab (fun K r => zlen r = zlen x /\ forall n, 0 <= n < zlen x ->
      gz r n = if n mod 2 ^ (l - 1) <? K then gz x n else gz (swt_step l (dec_lo w) x) n)
    (iswt_first fuel half w' (swt_step l (dec_hi w) x) (2 ^ (l - 1))) (2 ^ (l - 1)) (fun k => k) (swt_step l (dec_lo w) x))
    as (r & E & Hrl & Hrg); [lia| | |].
  - split; [apply zlen_swt_step|]. intros n Hn. pose proof (Z.mod_pos_bound n (2 ^ (l - 1)) ltac:(lia)).
    replace (_ <? 0) with false by lia. reflexivity.
  - intros k s Hk (Hsl & Hsg).
    destruct (iswt_first_spec w w' half l x s k) as (r & E & Hrl & Hrg); auto.
    + intros n Hn Hm. rewrite Hsg by auto. rewrite Hm. replace (k <? k) with false by lia. reflexivity.
    + exists r. split; auto. split; auto. intros n Hn. rewrite Hrg, Hsg by auto.
      destruct (Z.eqb_spec (n mod 2 ^ (l - 1)) k) as [Ek|Ek].
      * rewrite Ek. replace (k <? k + 1) with true by lia. reflexivity.
      * replace (n mod 2 ^ (l - 1) <? k + 1) with (n mod 2 ^ (l - 1) <? k) by lia. reflexivity.
  - rewrite E. f_equal. apply list_ext; auto. intros n Hn. rewrite Hrg by lia.
    pose proof (Z.mod_pos_bound n (2 ^ (l - 1)) ltac:(lia)). replace (_ <? _) with true by lia. reflexivity.
Qed.

Lemma iswt_loop_spec w w' half (x : list C) n :
  pr_pair w w' -> half [+] half = r1 -> 1 <= zlen x -> (2 ^ Z.of_nat n | zlen x) ->
  resources fuel (zlen x) (dec_len w') ->
  iswt_loop fuel half w' (swt_approx (dec_lo w) 0 n x)
    (map (fun j => swt_detail (dec_lo w) (dec_hi w) 0 j x) (rev (seq 1 n))) = Ok x.
Proof.
  intros Hpr Hhalf Hx. induction n as [|n IH]; intros Hd Hr; [reflexivity|].
  rewrite seq_S, rev_app_distr. cbn [rev app map iswt_loop].
  rewrite !zlen_map, !zlen_rev. cbn [swt_approx]. unfold swt_detail at 1.
  replace (1 + n - 1)%nat with n by lia. replace (0 + Z.of_nat (1 + n)) with (Z.of_nat (S n)) by lia.
  replace (0 + Z.of_nat (S n)) with (Z.of_nat (S n)) by lia.
  replace (zlen (seq 1 n)) with (Z.of_nat (S n) - 1) by (unfold zlen; rewrite seq_length; lia).
  rewrite iswt_level_spec; auto; rewrite ?zlen_swt_approx; auto; [|lia].
  cbn [bind]. apply IH; auto. apply Z.divide_trans with (2 ^ Z.of_nat (S n)); auto. apply pow2_div. lia.
Qed.

Lemma mapM_details_trim h0 h1 s (x : list C) l : mapM (item_detail true) (map (fun j => SArr (swt_detail h0 h1 s j x)) l) = Ok (map (fun j => swt_detail h0 h1 s j x) l).
Proof. induction l as [|a l IH]; cbn; auto. rewrite IH. reflexivity. Qed.
Lemma mapM_details_full h0 h1 s (x : list C) l : mapM (item_detail false) (map (fun j => SPair (swt_approx h0 s j x) (swt_detail h0 h1 s j x)) l) = Ok (map (fun j => swt_detail h0 h1 s j x) l).
Proof. induction l as [|a l IH]; cbn; auto. rewrite IH. reflexivity. Qed.

Lemma iswt_out w w' half (x : list C) trim n :
  pr_pair w w' -> half [+] half = r1 -> 1 <= zlen x -> (1 <= n)%nat -> (2 ^ Z.of_nat n | zlen x) ->
  resources fuel (zlen x) (dec_len w') ->
  iswt fuel half (swt_out trim (dec_lo w) (dec_hi w) 0 n x) w' None = Ok x.
Proof.
  intros Hpr Hhalf Hx Hn Hd Hr. unfold iswt, swt_out. destruct trim.
  - unfold swt_trim. rewrite mapM_details_trim. cbn [bind]. apply iswt_loop_spec; auto.
  - unfold swt_full. destruct (map _ (rev (seq 1 n))) eqn:E.
    + exfalso. apply (f_equal (@length _)) in E. rewrite map_length, rev_length, seq_length in E. cbn in E. lia.
    + rewrite <- E, mapM_details_full. cbn [bind].
      destruct n; [lia|]. rewrite seq_S, rev_app_distr in E. cbn [rev app map] in E. injection E as <- _.
      change (1 + n)%nat with (S n). apply (iswt_loop_spec w w' half x (S n)); auto.
Qed.

Lemma gz_scale (f : list C) s i : gz (map (fun v => v [*] s) f) i = gz f i [*] s.
Proof. apply (gz_map (C := C) (D := C) (fun v => v [*] s)). ring. Qed.

Lemma rescale_wf s (w : wavelet C) : wf_bank w -> wf_bank (rescale s w).
Proof. unfold wf_bank, rescale, dec_len. cbn. rewrite !zlen_map. auto. Qed.

Lemma rescale_len s (w : wavelet C) : dec_len (rescale s w) = dec_len w.
Proof. unfold dec_len, rescale. cbn. apply zlen_map. Qed.

Lemma rescale_pair s t (w : wavelet C) : s [*] t = r1 -> pr_wavelet w -> pr_pair (rescale s w) (rescale t w).
Proof.
  intros Hst Hpr. split; [|apply rescale_wf, pr_wf; auto].
  destruct Hpr as (H1 & H2 & H3 & H4 & H5 & H6). unfold pr_bank, rescale. cbn.
  rewrite !zlen_map. repeat (split; [assumption|]). intros p k Hp. rewrite <- (H6 p k Hp).
  apply sumZ_ext. intros m Hm. destruct (_ =? p); auto. rewrite !gz_scale.
  transitivity ((gz (rec_lo w) m [*] gz (dec_lo w) (k - m) [+] gz (rec_hi w) m [*] gz (dec_hi w) (k - m)) [*] (s [*] t)); [ring|].
  rewrite Hst. ring.
Qed.

Lemma pr_pair_self (w : wavelet C) : pr_wavelet w -> pr_pair w w.
Proof. intros H. split; auto using pr_wf. Qed.

Theorem iswt_swt w (x : list C) level trim norm half :
  pr_wavelet w -> half [+] half = r1 ->
  match norm with Some (sq2, isq2) => sq2 [*] isq2 = r1 | None => True end ->
  1 <= zlen x -> 1 <= level -> (2 ^ level | zlen x) -> swt_resources fuel (zlen x) (dec_len w) level ->
  exists cs, swt fuel x w (Some level) 0 trim (option_map snd norm) = Ok cs /\
    iswt fuel half cs w (option_map fst norm) = Ok x.
Proof.
  intros Hpr Hhalf Hn Hx HL Hd Hr. pose proof (pr_wf w Hpr) as Hw. unfold swt. cbn [bind].
  assert (Hd' : (2 ^ Z.of_nat (Z.to_nat level) | zlen x)) by (rewrite Z2Nat.id by lia; auto).
  destruct norm as [[sq2 isq2]|]; cbn [option_map fst snd].
  - eexists. split.
    + apply swt_single_spec; auto using rescale_wf; try lia. rewrite rescale_len. auto.
    + unfold iswt at 1. 
      pose proof (iswt_out (rescale isq2 w) (rescale sq2 w) half x trim (Z.to_nat level)) as HH. unfold iswt in HH.
      apply HH; auto; try lia.
      * apply rescale_pair; auto. rewrite <- Hn. ring.
      * rewrite rescale_len. apply Hr.
  - eexists. split; [apply swt_single_spec; auto; lia|].
    apply iswt_out; auto using pr_pair_self; try lia. apply Hr.
Qed.

(** ** Energy *)

Lemma energy_roll (x : list C) s : 1 <= zlen x -> energy (roll s x) = energy x.
Proof.
  intros H. unfold energy, inner. rewrite zlen_roll. unfold roll at 1 2.
  set (f := fun n => gz x (n mod zlen x) [*] gz x (n mod zlen x)).
  transitivity (sumZ 0 (zlen x) (fun n => f (n + - s))).
  - apply sumZ_ext. intros t Ht. rewrite !gz_tab by lia. reflexivity.
  - rewrite (sumZ_period C f (zlen x) (- s)).
    + apply sumZ_ext. intros t Ht. unfold f. rewrite Z.mod_small by lia. reflexivity.
    + lia.
    + intros n. unfold f. replace (n + zlen x) with (n + 1 * zlen x) by lia. rewrite Z_mod_plus_full. reflexivity.
Qed.

(** The energy is the sum of the energies of the cosets. *)
Lemma sumZ_coset (f : Z -> C) st M : 0 <= st -> 0 <= M ->
  sumZ 0 (st * M) f = sumZ 0 st (fun r => sumZ 0 M (fun k => f (r + st * k))).
Proof.
  intros Hst HM. rewrite sumZ_swap. replace M with (Z.of_nat (Z.to_nat M)) by lia. generalize (Z.to_nat M).
  induction n as [|n IH]; [rewrite Z.mul_0_r, !sumZ_empty by lia; reflexivity|].
  rewrite Nat2Z.inj_succ. unfold Z.succ. rewrite sumZ_last by lia. rewrite <- IH.
  rewrite (sumZ_split C 0 (st * Z.of_nat n)) by lia. f_equal.
  rewrite (sumZ_shift C 0 st (st * Z.of_nat n)). replace (0 + st * Z.of_nat n) with (st * Z.of_nat n) by lia.
  replace (st + st * Z.of_nat n) with (st * (Z.of_nat n + 1)) by lia. apply sumZ_ext. intros t Ht. f_equal. lia.
Qed.

Lemma energy_coset (x : list C) st M : 1 <= st -> 1 <= M -> zlen x = st * M ->
  energy x = sumZ 0 st (fun r => energy (coset st r x)).
Proof.
  intros Hst HM Hx. unfold energy at 1, inner. rewrite Hx, sumZ_coset by lia.
  apply sumZ_ext. intros r Hr. unfold energy, inner, coset. rewrite Hx. replace (st * M) with (M * st) by lia.
  rewrite Z.div_mul by lia. rewrite zlen_tab by lia. apply sumZ_ext. intros k Hk. rewrite !gz_tab by lia. reflexivity.
Qed.

Lemma analysis_scale m s (h x : list C) : analysis m (map (fun v => v [*] s) h) x = vscal s (analysis m h x).
Proof.
  unfold analysis, vscal. rewrite zlen_map. unfold tab at 2. rewrite map_map. unfold tab. apply map_ext. intros k.
  unfold conv. rewrite zlen_map, <- sumZ_scal. apply sumZ_ext. intros j Hj. rewrite gz_scale. ring.
Qed.
Lemma energy_vscal s (x : list C) : energy (vscal s x) = s [*] s [*] energy x.
Proof.
  unfold energy, inner. rewrite zlen_vscal, <- sumZ_scal. apply sumZ_ext. intros. rewrite !gz_vscal. ring.
Qed.

Lemma swt_step_energy l (h0 h1 x : list C) s :
  pr_bank h0 h1 (rev h0) (rev h1) -> (r1 [+] r1) [*] (s [*] s) = r1 ->
  1 <= l -> 1 <= zlen x -> (2 ^ l | zlen x) ->
  energy (swt_step l (map (fun v => v [*] s) h0) x) [+] energy (swt_step l (map (fun v => v [*] s) h1) x) = energy x.
Proof.
  intros Hpr Hs Hl Hx Hd. pose proof Hd as (q & Hq). set (st := 2 ^ (l - 1)).
  assert (Hst1 : 1 <= st) by (apply pow2_pos; lia).
  assert (Hst : 2 ^ l = 2 * st) by (unfold st; rewrite <- Z.pow_succ_r by lia; f_equal; lia).
  assert (Hq1 : 1 <= q) by nia. rewrite Hst in Hq.
  rewrite !(energy_coset (swt_step _ _ _) (2 * st) q) by (rewrite ?zlen_swt_step; lia).
  rewrite (energy_coset x st (2 * q)) by lia.
  assert (Hsh : forall f : Z -> C, sumZ 0 (2 * st) f = sumZ 0 st f [+] sumZ 0 st (fun r => f (r + st))).
  { intros f. replace (2 * st) with (st + st) by lia. rewrite (sumZ_split C 0 st (st + st)) by lia. f_equal. rewrite (sumZ_shift C 0 st st). replace (0 + st) with st by lia. apply sumZ_ext. intros. f_equal. lia. }
  rewrite !Hsh.
  transitivity (sumZ 0 st (fun r => (energy (coset (2 * st) r (swt_step l (map (fun v => v [*] s) h0) x)) [+] energy (coset (2 * st) (r + st) (swt_step l (map (fun v => v [*] s) h0) x)))
    [+] (energy (coset (2 * st) r (swt_step l (map (fun v => v [*] s) h1) x)) [+] energy (coset (2 * st) (r + st) (swt_step l (map (fun v => v [*] s) h1) x))))).
  { rewrite !sumZ_add. ring. }
  apply sumZ_ext. intros r Hr. unfold st. rewrite !(coset_even l _ x r), !(coset_odd l _ x r) by auto. fold st.
  rewrite !analysis_scale, !energy_vscal. set (y := coset st r x).
  assert (Hy : zlen y = 2 * q).
  { unfold y, coset. rewrite zlen_tab by (apply Z.div_pos; lia). rewrite Hq. replace (q * (2 * st)) with (2 * q * st) by lia. apply Z.div_mul. lia. }
  pose proof (analysis_energy C h0 h1 y Hpr ltac:(lia) ltac:(rewrite Hy; lia)) as E1.
  pose proof (analysis_energy C h0 h1 (roll (-1) y) Hpr ltac:(rewrite zlen_roll; lia) ltac:(rewrite zlen_roll, Hy; lia)) as E2.
  rewrite energy_roll in E2 by lia.
  transitivity (s [*] s [*] (energy (analysis PERIODIZATION h0 y) [+] energy (analysis PERIODIZATION h1 y))
     [+] s [*] s [*] (energy (analysis PERIODIZATION h0 (roll (-1) y)) [+] energy (analysis PERIODIZATION h1 (roll (-1) y)))); [ring|].
  rewrite E1, E2. transitivity ((r1 [+] r1) [*] (s [*] s) [*] energy y); [ring|]. rewrite Hs. ring.
Qed.

Definition sum_list (l : list C) : C := fold_right radd r0 l.
Definition items_energy (l : list (swt_item (list C))) : C :=
  sum_list (map (fun it => match it with SArr d => energy d | SPair a d => energy a [+] energy d end) l).

Lemma swt_trim_energy (h0 h1 x : list C) s n :
  pr_bank h0 h1 (rev h0) (rev h1) -> (r1 [+] r1) [*] (s [*] s) = r1 ->
  1 <= zlen x -> (2 ^ Z.of_nat n | zlen x) ->
  items_energy (swt_trim (map (fun v => v [*] s) h0) (map (fun v => v [*] s) h1) 0 n x) = energy x.
Proof.
  intros Hpr Hs Hx. unfold items_energy, swt_trim. cbn [map]. rewrite map_map.
  induction n as [|n IH]; intros Hd.
  - cbn. ring.
  - rewrite seq_S, rev_app_distr. cbn [rev app map sum_list fold_right].
    assert (Hd' : (2 ^ Z.of_nat n | zlen x)) by (apply Z.divide_trans with (2 ^ Z.of_nat (S n)); auto; apply pow2_div; lia).
    specialize (IH Hd'). cbn [sum_list fold_right] in IH. 
    cbn [swt_approx]. unfold swt_detail at 1. replace (1 + n - 1)%nat with n by lia.
    replace (0 + Z.of_nat (1 + n)) with (Z.of_nat (S n)) by lia. replace (0 + Z.of_nat (S n)) with (Z.of_nat (S n)) by lia.
    set (a := swt_approx (map (fun v => v [*] s) h0) 0 n x) in *.
    assert (Ha : zlen a = zlen x) by apply zlen_swt_approx.
    pose proof (swt_step_energy (Z.of_nat (S n)) h0 h1 a s Hpr Hs ltac:(lia) ltac:(lia) ltac:(rewrite Ha; auto)) as E.
    rewrite <- IH, <- E. ring.
Qed.

End P.
Arguments item_map {A B}. Arguments swt_out {C}. Arguments swt_full {C}. Arguments swt_trim {C}. Arguments items_energy {C}.
