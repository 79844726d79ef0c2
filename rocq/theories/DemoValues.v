(** The values of the demo signals. *)
From Coq Require Import Ascii String QArith Qround ZArith List Lia.
Import ListNotations.
From Verif Require Import Base BaseLemmas CConv Dwt Swt Names CwtReal Demo DemoSpec DemoProofs DemoMain DemoValuesSpec.
From Coq Require Import Reals Lra.
Open Scope list_scope. Open Scope Z_scope.

Section A.
Context {A : Type}.
Implicit Types f v : list A.
Definition at_ f (d : A) (k : Z) : A := nth (Z.to_nat k) f d.
Lemma at_tab n (g : Z -> A) d k : 0 <= k < n -> at_ (tab n g) d k = g k.
Proof. intros. unfold at_, tab. rewrite (nth_indep _ d (g (Z.of_nat 0))) by (rewrite map_length, seq_length; lia). rewrite (map_nth (fun k => g (Z.of_nat k))), seq_nth by lia. f_equal. lia. Qed.
Lemma at_repeat (x d : A) n k : 0 <= k < n -> at_ (repeat x (Z.to_nat n)) d k = x.
Proof. intros. unfold at_. rewrite (nth_indep _ d x) by (rewrite repeat_length; lia). apply nth_repeat. Qed.
Lemma nth_firstn_lt' f d j k : (j < k)%nat -> nth j (firstn k f) d = nth j f d.
Proof. revert j f. induction k as [|k IH]; intros j f H; [lia|]. destruct f as [|x f]; [destruct j; auto|]. destruct j; cbn; auto. apply IH. lia. Qed.
Lemma nth_skipn' f d j k : nth j (skipn k f) d = nth (k + j) f d.
Proof. revert f. induction k as [|k IH]; intros f; cbn; auto. destruct f; cbn; auto. destruct j; auto. Qed.
Lemma at_cut f d a b k : 0 <= a -> 0 <= k < b - a -> at_ (cut_ f a b) d k = at_ f d (a + k).
Proof. intros. unfold at_, cut_. rewrite nth_firstn_lt' by lia. rewrite nth_skipn'. f_equal. lia. Qed.
Lemma at_rev f d k : 0 <= k < zlen f -> at_ (rev f) d k = at_ f d (zlen f - 1 - k).
Proof. unfold zlen, at_. intros. rewrite rev_nth by lia. f_equal. lia. Qed.
Lemma at_app f v d k : 0 <= k -> at_ (f ++ v) d k = if k <? zlen f then at_ f d k else at_ v d (k - zlen f).
Proof.
  intros H0. unfold at_, zlen. destruct (Z.ltb_spec k (Z.of_nat (List.length f))).
  - rewrite app_nth1 by lia. auto.
  - rewrite app_nth2 by lia. f_equal. lia.
Qed.
Lemma at_from_down f d i k : 0 <= i < zlen f -> 0 <= k <= i -> at_ (from_down f i) d k = at_ f d (i - k).
Proof.
  intros. unfold from_down, down. replace (i <? 0) with false by lia. rewrite Z.min_l by lia. rewrite at_rev; rewrite zl_firstn by lia; [|lia].
  unfold at_. rewrite nth_firstn_lt' by lia. f_equal. lia.
Qed.
Lemma put_at f a b v : 0 <= a <= b -> b <= zlen f -> zlen v = b - a -> exists g, put f a b v = Ok g /\ zlen g = zlen f /\
  forall d k, 0 <= k < zlen f -> at_ g d k = if (a <=? k) && (k <? b) then at_ v d (k - a) else at_ f d k.
Proof.
  intros Ha Hb Hv. rewrite put_eq by auto. rewrite spread_ok by auto. cbn [bind]. eexists. split; [reflexivity|].
  split; [rewrite !zl_app, zl_firstn, zl_skipn by lia; lia|]. intros d k Hk. rewrite at_app, zl_firstn by lia.
  destruct (Z.ltb_spec k a).
  - replace (a <=? k) with false by lia. cbn [andb]. unfold at_. apply nth_firstn_lt'. lia.
  - replace (a <=? k) with true by lia. cbn [andb]. rewrite at_app by lia. destruct (Z.ltb_spec (k - a) (zlen v)).
    + replace (k <? b) with true by lia. auto.
    + replace (k <? b) with false by lia. unfold at_. rewrite nth_skipn'. f_equal. lia.
Qed.
Lemma put_down_at f i j v : i < zlen f -> -1 <= j <= i -> (i = j \/ 0 <= j) -> zlen v = i - j -> exists g, put_down f i j v = Ok g /\ zlen g = zlen f /\
  forall d k, 0 <= k < zlen f -> at_ g d k = if (j + 1 <=? k) && (k <? i + 1) then at_ v d (i - k) else at_ f d k.
Proof.
  intros Hi Hj Hd Hv. unfold put_down. destruct Hd as [->|Hd].
  - rewrite Z.leb_refl, spread_ok by lia. cbn [bind]. eexists. split; [reflexivity|]. split; auto. intros. replace ((j + 1 <=? k) && (k <? j + 1)) with false by lia. auto.
  - unfold down. replace (i <? 0) with false by lia. replace (j <? 0) with false by lia. rewrite !Z.min_l by lia.
    destruct (Z.leb_spec i j).
    + rewrite spread_ok by lia. cbn [bind]. eexists. split; [reflexivity|]. split; auto. intros. replace ((j + 1 <=? k) && (k <? i + 1)) with false by lia. auto.
    + rewrite spread_ok by lia. cbn [bind]. eexists. split; [reflexivity|].
      split; [rewrite !zl_app, zl_firstn, zl_skipn, zl_rev by lia; lia|]. intros d k Hk. rewrite at_app, zl_firstn by lia.
      destruct (Z.ltb_spec k (j + 1)).
      * replace (j + 1 <=? k) with false by lia. cbn [andb]. unfold at_. apply nth_firstn_lt'. lia.
      * replace (j + 1 <=? k) with true by lia. cbn [andb]. rewrite at_app, zl_rev by lia. destruct (Z.ltb_spec (k - (j + 1)) (zlen v)).
        -- replace (k <? i + 1) with true by lia. rewrite at_rev by lia. unfold at_. f_equal. lia.
        -- replace (k <? i + 1) with false by lia. unfold at_. rewrite nth_skipn'. f_equal. lia.
Qed.
End A.
Lemma at_map {A B} (g : A -> B) f d d' k : 0 <= k < zlen f -> at_ (map g f) d k = g (at_ f d' k).
Proof. unfold zlen, at_. intros. rewrite (nth_indep _ d (g d')) by (rewrite map_length; lia). apply map_nth. Qed.
Lemma at_combine {A B} (a : list A) (b : list B) d e k : zlen a = zlen b -> at_ (combine a b) (d, e) k = (at_ a d k, at_ b e k).
Proof. unfold zlen, at_. intros. apply combine_nth. lia. Qed.
Lemma times_at a b : zlen a = zlen b -> exists c, times a b = Ok c /\ zlen c = zlen a /\
  forall k x y, 0 <= k < zlen a -> at_ a None k = Some x -> at_ b None k = Some y -> at_ c None k = Some (x * y)%R.
Proof.
  intros H. unfold times. replace (zlen a =? zlen b) with true by lia. eexists. split; [reflexivity|]. split; [rewrite zl_map; apply zl_combine; auto|].
  intros k x y Hk Ea Eb. rewrite (at_map _ _ _ (None, None)) by (rewrite zl_combine; auto). rewrite at_combine by auto. rewrite Ea, Eb. reflexivity.
Qed.

Lemma nz n : (1 <= n)%Z -> IZR n <> 0%R.
Proof. intros. apply IZR_neq. lia. Qed.
Section D.
Variables tcount hcount : Z -> Z.
Notation ds := (demo_signal tcount hcount).
Open Scope R_scope.

Lemma peak_eq t p h w : 0 < w -> h / (1 + Rabs ((t - p) / w)) ^ 4 = peak t (p, h, w).
Proof.
  intros Hw. unfold peak. unfold Rdiv at 2. rewrite Rabs_mult, (Rabs_right (/ w)) by (apply Rle_ge, Rlt_le, Rinv_0_lt_compat; auto).
  pose proof (Rabs_pos (t - p)). field. split; lra.
Qed.
Lemma bumps_peaks t : bumps t = peaks_at t.
Proof.
  unfold bumps, peaks_at, peaks, positions. cbn [combine map DemoSpec.sum rsum fold_right]. rewrite !peak_eq by lra.
  repeat (apply f_equal2; [unfold peak; repeat (apply f_equal2 || apply f_equal); try lra; auto|]); lra.
Qed.
Lemma samples_grid (f : R -> R) (g : Z -> R) n : (0 <= tcount n)%Z -> (forall m, (1 <= m <= tcount n)%Z -> f (IZR m / IZR n) = g m) ->
  samples (map (fun t => Some (f t)) (tgrid tcount n)) (tcount n) g.
Proof.
  intros H G. destruct (sampled_grid tcount f n H) as (A & B). split; auto. intros m Hm. rewrite B by lia. rewrite <- G by lia. do 3 f_equal.
  rewrite minus_IZR. ring.
Qed.
Ltac decs := try replace 0.6902 with (6902 / 10000) by lra; try replace 0.3333 with (3333 / 10000) by lra; try replace 0.5 with (1 / 2) by lra; try replace 0.125 with (1 / 8) by lra;
  try replace 1.05 with (105 / 100) by lra; try replace 0.05 with (5 / 100) by lra.
Theorem grid_values s n : In (lower s) ["bumps"; "hisine"; "losine"; "linchirp"; "twochirp"; "quadchirp"; "mishmash"; "wernersorrows"]%string -> (1 <= n)%Z -> (0 <= tcount n)%Z ->
  exists f g, ds s (Some n) = Ok (DReal f) /\ samples f (tcount n) g /\ forall m, value (lower s) (IZR n) m = Some (g m).
Proof.
  intros Hs Hn Ht. pose proof (nz n Hn) as N0. cbn [In] in Hs.
  assert (S2 : forall c m, PI * (IZR m / IZR n) * (IZR n * c * (IZR m / IZR n)) = PI * c * IZR m ^ 2 / IZR n) by (intros; field; auto).
  destruct Hs as [Hs|[Hs|[Hs|[Hs|[Hs|[Hs|[Hs|[Hs|[]]]]]]]]]; rewrite <- Hs; symmetry in Hs; unfold demo_signal; rewrite Hs; cbv zeta; replace (n <? 1)%Z with false by lia;
    cbn -[IZR pow value]; eexists; unfold value; cbn -[IZR pow tone sweep2 sweep3 peaks_at].
  - exists (fun m => peaks_at (IZR m / IZR n)). split; [reflexivity|]. split; [apply (samples_grid bumps); auto; intros; apply bumps_peaks|auto].
  - exists (tone (6902 / 10000)). split; [reflexivity|]. split; [apply (samples_grid (hisine (IZR n))); auto|auto]. intros. unfold hisine, tone. decs. f_equal. field. auto.
  - exists (tone (3333 / 10000)). split; [reflexivity|]. split; [apply (samples_grid (losine (IZR n))); auto|auto]. intros. unfold losine, tone. decs. f_equal. field. auto.
  - exists (sweep2 (1 / 2) (IZR n)). split; [reflexivity|]. split; [apply (samples_grid (linchirp (IZR n))); auto|auto]. intros. unfold linchirp, sweep2. decs. f_equal. field. auto.
  - exists (fun m => sweep2 1 (IZR n) m + sweep2 (1 / 3) (IZR n) m). split; [reflexivity|]. split; [apply (samples_grid (twochirp (IZR n))); auto|auto]. intros. unfold twochirp, sweep2.
    f_equal; f_equal; field; auto.
  - exists (sweep3 (1 / 3) (IZR n)). split; [reflexivity|]. split; [apply (samples_grid (quadchirp (IZR n))); auto|auto]. intros. unfold quadchirp, sweep3. f_equal. field. auto.
  - exists (fun m => sweep3 (1 / 3) (IZR n) m + tone (6902 / 10000) m + sweep2 (1 / 8) (IZR n) m). split; [reflexivity|].
    split; [apply (samples_grid (mishmash (IZR n))); auto|auto]. intros. unfold mishmash, sweep3, sweep2, tone. decs. f_equal; [f_equal|]; f_equal; field; auto.
  - exists (fun m => sweep3 (1 / 2) (IZR n) m + tone (6902 / 10000) m + sweep2 1 (IZR n) m + peaks_at (IZR m / IZR n)). split; [reflexivity|].
    split; [apply (samples_grid (wernersorrows (IZR n))); auto|auto]. intros. unfold wernersorrows, sweep3, sweep2, tone. decs. rewrite bumps_peaks. f_equal. f_equal; [f_equal|]; f_equal; field; auto.
Qed.
(** The samples of Doppler up to the time 1. *)
Theorem doppler_values s n : lower s = "doppler"%string -> (1 <= n)%Z -> tcount n = n ->
  exists f, ds s (Some n) = Ok (DReal f) /\ samples f n (fun m => sqrt (IZR (m * (n - m))) / IZR n * sin (42 * PI * IZR n / IZR (20 * m + n))).
Proof.
  intros Hs Hn Ht. pose proof (nz n Hn) as N0. unfold demo_signal. rewrite Hs. cbv zeta. replace (n <? 1)%Z with false by lia. cbn -[IZR pow]. eexists. split; [reflexivity|].
  assert (P : 0 < IZR n) by (apply IZR_lt; lia).
  assert (L : zlen (tgrid tcount n) = n) by (unfold tgrid; rewrite zl_tab; lia). split; [rewrite zl_map; auto|]. intros m Hm.
  change (at_ (map doppler (tgrid tcount n)) None (m - 1) = Some (sqrt (IZR (m * (n - m))) / IZR n * sin (42 * PI * IZR n / IZR (20 * m + n)))).
  rewrite (at_map _ _ _ 0) by lia. unfold tgrid. rewrite at_tab by lia. unfold doppler, nsqrt. decs.
  assert (M : 0 <= IZR (m * (n - m))) by (apply IZR_le; nia). replace (IZR (m - 1) + 1) with (IZR m) by (rewrite minus_IZR; ring).
  assert (E : IZR m / IZR n * (1 - IZR m / IZR n) = IZR (m * (n - m)) * (/ IZR n * / IZR n)) by (rewrite mult_IZR, minus_IZR; field; auto).
  assert (I : 0 < / IZR n) by (apply Rinv_0_lt_compat; auto).
  rewrite E. destruct (Rlt_dec _ 0) as [X|X]; [exfalso; apply (Rle_not_lt _ _ (Rmult_le_pos _ _ M (Rlt_le _ _ (Rmult_lt_0_compat _ _ I I)))); exact X|].
  rewrite sqrt_mult_alt by auto. rewrite sqrt_square by lra. f_equal. unfold Rdiv at 1. f_equal. f_equal. rewrite plus_IZR, mult_IZR.
  assert (0 <= IZR m) by (apply IZR_le; lia). field. repeat split; auto; lra.
Qed.
End D.
Open Scope R_scope.
(** ** HypChirps *)
Lemma fade_eq p e : (2 <= p)%Z -> (1 + sin (- PI / 2 + IZR e / IZR (p - 1) * PI)) / 2 = fade p e.
Proof.
  intros Hp. assert (IZR (p - 1) <> 0) by (apply IZR_neq; lia). unfold fade. set (x := PI * IZR e / (2 * IZR (p - 1))).
  replace (- PI / 2 + IZR e / IZR (p - 1) * PI) with (- (PI / 2 - 2 * x)) by (unfold x; field; auto).
  rewrite sin_neg, sin_shift, cos_2a_sin. field.
Qed.
Ltac put_at_step := match goal with |- context [put ?f ?a ?b ?v] =>
    let g := fresh "g" in let Hg := fresh "Hg" in let Ag := fresh "Ag" in
    destruct (put_at f a b v) as (g & -> & Hg & Ag); [len|len|len|]; cbn [bind]; rewrite ?zl_repeat in Hg, Ag by lia; rewrite ?Hg in Ag end.
(** The envelope of [L] samples as it is computed. *)
Lemma envelope_ok L p q : (2 <= p)%Z -> (p <= L - p)%Z -> (q = p)%Z -> exists g h, put (repeat (Some 1) (Z.to_nat L)) 0 p (rising p (IZR (p - 1)) false) = Ok g /\
  put g (L - p) L (rev (cut_ g 0 q)) = Ok h /\ zlen h = L /\ forall e, (0 <= e < L)%Z -> at_ h None e = Some (envelope L p e).
Proof.
  intros Hp HL ->. unfold rising.
  put_at_step. exists g. match goal with |- context [put ?f ?a ?b ?v] => destruct (put_at f a b v) as (h & -> & Hh & Ah); [len|len|len|] end.
  exists h. split; [auto|]. split; auto. split; [lia|]. intros e He. rewrite Ah by lia.
  assert (F : forall e, (0 <= e < p)%Z -> at_ g None e = Some (fade p e)).
  { intros e' He'. rewrite Ag by lia. replace (_ && _)%bool with true by lia. rewrite at_tab by lia. rewrite Z.sub_0_r, fade_eq by auto. auto. }
  unfold envelope. destruct (Z.ltb_spec e p).
  - replace (_ && _)%bool with false by lia. apply F. lia.
  - destruct (Z.leb_spec (L - p) e).
    + replace (_ && _)%bool with true by lia. rewrite at_rev; rewrite zl_cut by lia; [|lia]. rewrite at_cut by lia. rewrite F by lia. f_equal. f_equal. lia.
    + replace (_ && _)%bool with false by lia. rewrite Ag by lia. replace (_ && _)%bool with false by lia. apply at_repeat. lia.
Qed.
Lemma within_ind a b t : Demo.ind (rlt a t) * Demo.ind (rlt t b) = within a b t.
Proof. unfold Demo.ind, rlt, within. destruct (Rlt_dec a t), (Rlt_dec t b); ring. Qed.
Lemma hyper_eq n t : sin (15 * IZR n * PI / 1024 / (0.8 - t)) * Demo.ind (rlt 0.1 t) * Demo.ind (rlt t 0.68) + sin (5 * IZR n * PI / 1024 / (0.8 - t)) * Demo.ind (rlt 0.1 t) * Demo.ind (rlt t 0.75) = hyperbolas (IZR n) t.
Proof.
  unfold hyperbolas. rewrite !Rmult_assoc, !within_ind.
  replace 0.1 with (1 / 10) by lra. replace 0.68 with (68 / 100) by lra. replace 0.75 with (75 / 100) by lra. replace 0.8 with (8 / 10) by lra.
  f_equal; f_equal; f_equal; unfold Rdiv; ring.
Qed.
Section D.
Variables tcount hcount : Z -> Z.
Notation ds := (demo_signal tcount hcount).
Theorem hypchirps_values s n : lower s = "hypchirps"%string -> (12 <= n)%Z -> hcount n = n -> exists L c f, (20 * L - 10 <= 13 * n <= 20 * L + 10)%Z /\ (n <= 10 * c < n + 10)%Z /\
  ds s (Some n) = Ok (DReal f) /\ samples f n (fun m => hyperbolas (IZR n) ((IZR m + 1 / 1000) / IZR n) * (if ((m <? c) || (L + c <=? m))%Z%bool then 0 else envelope L (L / 4) (m - c))).
Proof.
  intros Hs Hn Hh. exists (rne (13 * n) 20), ((n + 9) / 10)%Z. destruct (hyp_envelope n ltac:(lia)) as (A1 & A2 & A3 & A4). pose proof (rne_bounds (13 * n) 20 ltac:(lia)) as B.
  pose proof (Z.div_mod (n + 9) 10 ltac:(lia)). pose proof (Z.mod_pos_bound (n + 9) 10 ltac:(lia)).
  unfold demo_signal. rewrite Hs. cbv zeta. replace (n <? 1)%Z with false by lia. cbn -[IZR pow hypchirps envelope rne Z.div Z.mul Z.sub Z.add].
  unfold hypchirps. cbv zeta. rewrite Hh. set (L := rne (13 * n) 20) in *. set (c := ((n + 9) / 10)%Z) in *.
  assert (P2 : (2 <= L / 4)%Z) by (apply Z.div_le_lower_bound; lia). set (p := (L / 4)%Z) in *. replace (p =? 1)%Z with false by lia.
  destruct (envelope_ok L p p ltac:(lia) ltac:(lia) eq_refl) as (g & h & -> & E & Hz & He). cbn [bind]. rewrite E. cbn [bind]. clear E g.
  put_at_step.
  match goal with |- context [times ?a ?b] => destruct (times_at a b) as (f & -> & K4 & K5); [len|] end. exists f. split; [lia|]. split; [lia|]. split; [reflexivity|].
  assert (Z4 : zlen f = n) by (rewrite K4; len). split; [auto|]. intros m Hm. change (at_ f None (m - 1) = Some (hyperbolas (IZR n) ((IZR m + 1 / 1000) / IZR n) * (if ((m <? c) || (L + c <=? m))%Z%bool then 0 else envelope L p (m - c)))).
  apply K5; [lia| |].
  - rewrite (at_map _ _ _ 0) by len. f_equal. rewrite (at_map _ _ _ 0) by len. rewrite at_tab by lia. rewrite hyper_eq. f_equal. f_equal. rewrite minus_IZR. lra.
  - rewrite Ag by lia. destruct (Z.ltb_spec m c); cbn [orb].
    + replace (_ && _)%bool with false by lia. apply at_repeat. lia.
    + destruct (Z.leb_spec (L + c) m).
      * replace (_ && _)%bool with false by lia. apply at_repeat. lia.
      * replace (_ && _)%bool with true by lia. rewrite at_cut by lia. rewrite He by lia. f_equal. f_equal. lia.
Qed.
End D.
