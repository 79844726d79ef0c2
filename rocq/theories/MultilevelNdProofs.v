(** Proofs about the multilevel n-D transforms. *)
From Coq Require Import Ascii String.
From Verif Require Import Base BaseLemmas CConv Spec ExtLemmas Lengths Dwt DwtProofs PR Linear Multilevel MultilevelProofs Swt SwtProofs Nd NdSpec NdLinear Axis AxisProofs AxisProofs2 Multidim MultidimProofs MultidimFacts MultilevelNd.
From Coq Require Import Permutation.

(** ** Dictionaries *)
Lemma ad_keys_head n : ad_keys n = all_a n :: tl (ad_keys n).
Proof. induction n as [|n IH]; cbn; auto. rewrite IH. reflexivity. Qed.

Lemma ad_keys_NoDup n : NoDup (ad_keys n).
Proof.
  induction n as [|n IH]; cbn; [constructor; [intros []|constructor]|].
  assert (Inj : forall c, NoDup (map (String c) (ad_keys n))).
  { intros c. apply FinFun.Injective_map_NoDup; auto. intros x y E. injection E; auto. }
  pose proof (Inj "a"%char) as Ha. pose proof (Inj "d"%char) as Hd. clear Inj IH.
  induction (ad_keys n) as [|k t IH] using rev_ind; cbn; auto.
  clear IH. revert Ha Hd. generalize (t ++ [k]). clear. intros l.
  assert (G : forall l l', NoDup (map (String "a"%char) l) -> NoDup (map (String "d"%char) l') ->
    NoDup (map (String "a"%char) l ++ map (String "d"%char) l')); [|intros; apply G; auto].
  clear. induction l as [|k l IH]; cbn; intros l' Ha Hd; auto. inversion Ha; subst. constructor; auto.
  intros Hi. apply in_app_or in Hi. destruct Hi as [Hi|Hi]; [auto|].
  apply in_map_iff in Hi. destruct Hi as (q & E & _). discriminate.
Qed.

Lemma dset_not_in {A} (d : dict A) k v : ~ In k (map fst d) -> dset d k v = d ++ [(k, v)].
Proof.
  induction d as [|[k' v'] d IH]; cbn; intros H; auto.
  destruct (String.eqb_spec k' k) as [->|]; [exfalso; apply H; left; auto|]. f_equal. apply IH. tauto.
Qed.

Lemma distinct_le l : (distinct l <= List.length l)%nat.
Proof. induction l as [|a l IH]; cbn; auto. destruct (in_dec _ _ _); lia. Qed.
Lemma distinct_NoDup l : NoDup l -> distinct l = List.length l.
Proof. induction 1; cbn; auto. destruct (in_dec _ _ _); [tauto|]. lia. Qed.
Lemma distinct_NoDup_inv l : distinct l = List.length l -> NoDup l.
Proof.
  induction l as [|a l IH]; cbn; intros H; [constructor|]. pose proof (distinct_le l).
  destruct (in_dec _ _ _); [lia|]. constructor; auto.
Qed.

Section MNP.
Variable C : CRing.
Variable fuel : nat.
Variable junk : Z -> C.
Notation step := (step C).

Lemma fix_coeffs_some (D : dict (sarr C)) n : (forall k v, In (k, v) D -> String.length k = n /\ all_ad k = true) ->
  fix_coeffs (map (fun '(k, v) => (k, Some v)) D) = Ok D.
Proof. clear junk.
  intros HD. unfold fix_coeffs.
  assert (F1 : existsb (fun '(_, v) => match v with None => true | Some _ => false end) (map (fun '(k, v) => (k, Some v)) D) = false)
    by (clear; induction D as [|[k v] D IH]; cbn; auto).
  rewrite F1.
  assert (F2 : existsb (fun '(k, _) => negb (all_ad k)) (map (fun '(k, v) => (k, Some v)) D) = false).
  { clear F1. induction D as [|[k v] D IH]; cbn [map existsb]; auto.
    destruct (HD k v (or_introl eq_refl)) as (_ & ->). cbn. apply IH. intros; apply (HD k0 v0); right; auto. }
  rewrite F2. rewrite map_map.
  assert (F3 : map (fun x : string * sarr C => let '(k, _) := let '(k, v) := x in (k, Some v) in String.length k) D = repeat n (List.length D)).
  { clear -HD. induction D as [|[k v] D IH]; cbn [map List.length repeat]; auto.
    destruct (HD k v (or_introl eq_refl)) as (-> & _). f_equal. apply IH. intros; apply (HD k0 v0); right; auto. }
  rewrite F3.
  assert (F4 : forallb (fun n0 => Nat.eqb n0 (hd 0%nat (repeat n (List.length D)))) (repeat n (List.length D)) = true).
  { destruct D as [|e D]; [reflexivity|]. cbn [List.length repeat hd]. apply forallb_forall. intros y Hy.
    change (n :: repeat n (List.length D)) with (repeat n (S (List.length D))) in Hy. apply repeat_spec in Hy. subst. apply Nat.eqb_refl. }
  rewrite F4. cbn [negb]. f_equal. clear. induction D as [|[k v] D IH]; cbn; auto. f_equal. auto.
Qed.

(** ** Specification: iterated approximations and details *)
Fixpoint appr (plan : list step) (j : nat) (x : nd C) : nd C :=
  match j with O => x | S j' => band C (all_a (List.length plan)) plan (appr plan j' x) end.
Definition det (plan : list step) (y : nd C) : dict (sarr C) :=
  map (fun k => (k, of_nd (band C k plan y))) (tl (ad_keys (List.length plan))).

Definition lev_step (plan : list step) (sh : list Z) : list Z := fold_left (fun sh s => step_shape C s sh) plan sh.
Fixpoint lev_shape (plan : list step) (j : nat) (sh : list Z) : list Z :=
  match j with O => sh | S j' => lev_step plan (lev_shape plan j' sh) end.
Definition levels_good (B sh : list Z) (plan : list step) (n : nat) : Prop :=
  forall j, (j < n)%nat -> plan_good C fuel B (lev_shape plan j sh) plan.

Lemma appr_S plan j x : appr plan (S j) x = appr plan j (band C (all_a (List.length plan)) plan x).
Proof. clear junk. induction j as [|j IH]; cbn in *; auto. rewrite IH. reflexivity. Qed.
Lemma lev_shape_S plan j sh : lev_shape plan (S j) sh = lev_shape plan j (lev_step plan sh).
Proof. clear junk. induction j as [|j IH]; cbn in *; auto. rewrite IH. reflexivity. Qed.
Lemma all_a_length n : String.length (all_a n) = n.
Proof. clear junk. induction n; cbn; auto. Qed.
Lemma all_a_in n : In (all_a n) (ad_keys n).
Proof. clear junk. rewrite ad_keys_head. left; auto. Qed.

Lemma band_a_shape plan (x : nd C) : plan_ok C fuel plan (nshape x) ->
  nshape (band C (all_a (List.length plan)) plan x) = lev_step plan (nshape x).
Proof. clear junk. intros H. apply (band_shape C fuel); auto. apply all_a_length. Qed.

Lemma lev_step_length plan : forall sh, List.length (lev_step plan sh) = List.length sh.
Proof. clear junk.
  unfold lev_step. induction plan as [|s p IH]; intros sh; cbn; auto. rewrite IH. unfold step_shape. apply setn_length.
Qed.
Lemma lev_shape_length plan j sh : List.length (lev_shape plan j sh) = List.length sh.
Proof. clear junk. induction j; cbn [lev_shape]; auto. rewrite lev_step_length. auto. Qed.

Lemma appr_wf plan B n (x : nd C) : nd_wf x -> levels_good B (nshape x) plan n ->
  nd_wf (appr plan n x) /\ nshape (appr plan n x) = lev_shape plan n (nshape x).
Proof. clear junk.
  intros Hx. induction n as [|n IH]; intros Hg; cbn [appr lev_shape]; auto.
  destruct IH as (W & E); [intros j Hj; apply Hg; lia|].
  pose proof (Hg n ltac:(lia)) as G. rewrite <- E in G.
  split.
  - apply (band_wf C fuel); auto. apply (plan_good_ok _ _ _ _ _ G).
  - rewrite band_a_shape by (apply (plan_good_ok _ _ _ _ _ G)). rewrite E. reflexivity.
Qed.

(** ** wavedecn *)
Lemma resolves_len n w m axes plan : resolves C n w m axes plan -> List.length axes = List.length plan.
Proof. clear junk. intros (R1 & _). apply (f_equal (@List.length Z)) in R1. unfold norm_axes in R1. rewrite !map_length in R1. auto. Qed.

Lemma dget_head {A} (k : string) (v : A) d : dget ((k, v) :: d) k = Some v.
Proof. clear junk. cbn. rewrite String.eqb_refl. reflexivity. Qed.

Lemma wavedecn_loop_spec w m axes plan B : plan <> [] ->
  forall n (a : sarr C) acc, sarr_ok C a -> 1 <= ndim a <= 64 ->
  resolves C (ndim a) w m axes plan -> levels_good B (sshape a) plan n ->
  exists r, wavedecn_loop fuel junk a w m axes n acc
    = Ok (r, rev (acc ++ map (fun j => det plan (appr plan j (val C a))) (seq 0 n))) /\
    sarr_ok C r /\ val C r = appr plan n (val C a) /\ (n <> O -> r = of_nd (val C r)).
Proof.
  intros Hne. induction n as [|n IH]; intros a acc Hok Hn HR Hg; cbn [wavedecn_loop].
  - exists a. cbn [seq map]. rewrite app_nil_r. split; auto. split; auto. split; auto. congruence.
  - pose proof (Hg O ltac:(lia)) as G. cbn [lev_shape] in G.
    pose proof (plan_good_ok _ _ _ _ _ G) as Hpo.
    rewrite (dwtn_bands C fuel junk a w m (Some axes) plan) by auto. cbn [bind].
    rewrite (resolves_len _ _ _ _ _ HR). rewrite ad_keys_head. cbn [map]. unfold dgetE.
    rewrite dget_head. cbn [bind dremove]. rewrite String.eqb_refl.
    set (a' := of_nd (band C (all_a (List.length plan)) plan (val C a))).
    assert (W : nd_wf (band C (all_a (List.length plan)) plan (val C a))).
    { apply (band_wf C fuel); [apply val_wf; auto|]. rewrite nshape_val. auto. }
    assert (Sa : sshape a' = lev_step plan (sshape a)).
    { unfold a'. cbn [of_nd sshape]. rewrite band_a_shape; rewrite nshape_val; auto. }
    assert (Na : ndim a' = ndim a) by (unfold ndim, zlen; rewrite Sa, lev_step_length; auto).
    assert (Va : val C a' = band C (all_a (List.length plan)) plan (val C a)) by (apply val_of_nd; auto).
    destruct (IH a' (acc ++ [det plan (val C a)])) as (r & Er & Or & Vr & Hr).
    + apply of_nd_ok; auto.
    + rewrite Na. auto.
    + rewrite Na. auto.
    + intros j Hj. rewrite Sa. rewrite <- lev_shape_S. apply Hg. lia.
    + exists r. unfold det at 1 in Er. rewrite Er. split; [|split; [auto|split]].
      * do 3 f_equal. rewrite <- app_assoc. f_equal. cbn [seq map app appr]. f_equal.
        rewrite <- seq_shift, map_map. apply map_ext. intros j. rewrite Va, <- appr_S. reflexivity.
      * rewrite Vr, Va, <- appr_S. reflexivity.
      * intros _. destruct n; [|apply Hr; lia]. cbn in Er. injection Er as <-. unfold a' at 1. rewrite Va. reflexivity.
Qed.

(** Resolution of the axes. *)
Lemma py_index_ok sh a (k : nat) : (if a <? 0 then a + zlen sh else a) = Z.of_nat k -> (k < List.length sh)%nat ->
  py_index sh a = Ok (nthz k sh).
Proof. clear junk.
  intros E Hk. unfold py_index, zlen in *. destruct (a <? 0) eqn:Ha.
  - replace ((a <? - Z.of_nat (List.length sh)) || (Z.of_nat (List.length sh) <=? a)) with false by lia.
    rewrite E, Nat2Z.id. reflexivity.
  - replace ((a <? - Z.of_nat (List.length sh)) || (Z.of_nat (List.length sh) <=? a)) with false by lia.
    rewrite E, Nat2Z.id. reflexivity.
Qed.

Lemma axes_sizes_ok sh : forall axes (plan : list step),
  norm_axes (zlen sh) axes = map (fun s => Z.of_nat (st_ax C s)) plan ->
  (forall s, In s plan -> (st_ax C s < List.length sh)%nat) ->
  axes_sizes sh axes = Ok (map (fun s => nthz (st_ax C s) sh) plan).
Proof. clear junk.
  intros axes plan E Hp. unfold axes_sizes.
  assert (G : mapM (py_index sh) axes = Ok (map (fun s => nthz (st_ax C s) sh) plan)); [|rewrite G; reflexivity].
  revert plan E Hp. induction axes as [|a axes IH]; intros [|s p] E Hp; cbn in E; try discriminate; auto.
  injection E as E1 E2. cbn [mapM map]. rewrite (py_index_ok sh a (st_ax C s)) by (auto; apply Hp; left; auto).
  cbn [bind]. rewrite (IH p) by (auto; intros; apply Hp; right; auto). reflexivity.
Qed.

Lemma norm_axes_NoDup n axes (plan : list step) : norm_axes n axes = map (fun s => Z.of_nat (st_ax C s)) plan ->
  NoDup (map (st_ax C) plan) -> NoDup axes.
Proof. clear junk.
  intros E H. apply (NoDup_map_inv (fun a => if a <? 0 then a + n else a)). unfold norm_axes in E. rewrite E.
  rewrite <- (map_map (st_ax C) Z.of_nat). apply FinFun.Injective_map_NoDup; auto. intros x y; lia.
Qed.

Lemma prep_axes_ok sh axes (plan : list step) : 1 <= zlen sh ->
  norm_axes (zlen sh) (default_axes (zlen sh) axes) = map (fun s => Z.of_nat (st_ax C s)) plan ->
  NoDup (map (st_ax C) plan) -> (forall s, In s plan -> (st_ax C s < List.length sh)%nat) ->
  prep_axes sh axes = Ok (default_axes (zlen sh) axes, map (fun s => nthz (st_ax C s) sh) plan).
Proof. clear junk.
  intros Hn E Hd Ha. unfold prep_axes. replace (zlen sh <? 1) with false by lia.
  fold (default_axes (zlen sh) axes).
  rewrite (distinct_NoDup (default_axes (zlen sh) axes)) by (apply (norm_axes_NoDup _ _ _ E Hd)). rewrite Nat.eqb_refl. cbn [negb].
  rewrite (axes_sizes_ok sh _ plan) by auto. reflexivity.
Qed.

Definition level_pairs (sh : list Z) (plan : list step) : list (Z * Z) :=
  map (fun s => (nthz (st_ax C s) sh, dec_len (st_w C s))) plan.

Lemma combine_pairs sh (plan : list step) :
  combine (map (fun s => nthz (st_ax C s) sh) plan) (map dec_len (map (st_w C) plan)) = level_pairs sh plan.
Proof. clear junk. induction plan as [|s p IH]; cbn; auto. f_equal. exact IH. Qed.

(** The box and the resources for the first level serve all levels. *)
Lemma nthz_lev_step plan : forall sh s, NoDup (map (st_ax C) plan) -> In s plan -> (st_ax C s < List.length sh)%nat ->
  nthz (st_ax C s) (lev_step plan sh) = coeff_len (st_m C s) (nthz (st_ax C s) sh) (dec_len (st_w C s)).
Proof. clear junk.
  unfold lev_step. induction plan as [|t p IH]; intros sh s Hd Hs Ha; cbn [fold_left]; [destruct Hs|].
  inversion Hd as [|? ? Hni Hd']; subst. destruct Hs as [->|Hs].
  - clear IH. assert (G : forall p sh, ~ In (st_ax C s) (map (st_ax C) p) ->
      nthz (st_ax C s) (fold_left (fun sh s => step_shape C s sh) p sh) = nthz (st_ax C s) sh).
    { clear. induction p as [|t p IH]; intros sh Hni; cbn [fold_left]; auto. rewrite IH by (intros H; apply Hni; right; auto).
      unfold step_shape. apply nthz_setn_ne. intros E. apply Hni. left; auto. }
    rewrite G by auto. unfold step_shape. rewrite nthz_setn by auto. reflexivity.
  - rewrite IH; auto.
    + unfold step_shape. rewrite nthz_setn_ne; auto. intros E. apply Hni. rewrite <- E. apply in_map. auto.
    + unfold step_shape. rewrite setn_length. auto.
Qed.
Lemma nthz_lev_step_ne plan : forall sh k, ~ In k (map (st_ax C) plan) -> nthz k (lev_step plan sh) = nthz k sh.
Proof. clear junk.
  unfold lev_step. induction plan as [|t p IH]; intros sh k Hni; cbn [fold_left]; auto.
  rewrite IH by (intros H; apply Hni; right; auto).
  unfold step_shape. apply nthz_setn_ne. intros E. apply Hni. left; auto.
Qed.

Lemma nthz_lev_shape plan j sh s : NoDup (map (st_ax C) plan) -> In s plan -> (st_ax C s < List.length sh)%nat ->
  nthz (st_ax C s) (lev_shape plan j sh) = approx_len (st_m C s) (dec_len (st_w C s)) j (nthz (st_ax C s) sh).
Proof. clear junk.
  intros Hd Hs Ha. induction j as [|j IH]; cbn [lev_shape approx_len]; auto.
  rewrite nthz_lev_step by (auto; rewrite lev_shape_length; auto). rewrite IH. reflexivity.
Qed.
Lemma nthz_lev_shape_ne plan j sh k : ~ In k (map (st_ax C) plan) -> nthz k (lev_shape plan j sh) = nthz k sh.
Proof. clear junk. intros H. induction j; cbn [lev_shape]; auto. rewrite nthz_lev_step_ne; auto. Qed.

Lemma shape_ok_nthz l : (forall k, (k < List.length l)%nat -> 0 <= nthz k l) -> shape_ok l.
Proof. clear junk.
  induction l as [|a l IH]; intros H; constructor.
  - apply (H O). cbn; lia.
  - apply IH. intros k Hk. apply (H (S k)). cbn; lia.
Qed.

Theorem levels_good_intro B sh plan n : plan_good C fuel B sh plan ->
  (forall s, In s plan -> levels_ok (st_m C s) (dec_len (st_w C s)) n (nthz (st_ax C s) sh)) ->
  levels_good B sh plan n.
Proof. clear junk.
  intros (H1 & H2 & H3 & H4 & H5 & H6) Hl j Hj.
  assert (A : forall s, In s plan -> 1 <= approx_len (st_m C s) (dec_len (st_w C s)) j (nthz (st_ax C s) sh)
     <= Z.max (nthz (st_ax C s) sh) (dec_len (st_w C s))).
  { intros s Hs. destruct (H6 s Hs) as (Hok & _). destruct (step_len _ _ _ _ Hok) as (N1 & _).
    destruct Hok as (_ & (_ & _ & _ & _ & HF) & _). apply approx_len_pos; auto. }
  assert (D : forall k, (exists s, In s plan /\ st_ax C s = k) \/ ~ In k (map (st_ax C) plan)).
  { intros k. destruct (in_dec Nat.eq_dec k (map (st_ax C) plan)) as [Hi|Hi]; auto. left.
    apply in_map_iff in Hi. destruct Hi as (s & E & Hs). eauto. }
  split; auto. split; [rewrite lev_shape_length; auto|]. split; [|split; [|split; [auto|]]].
  - apply shape_ok_nthz. intros k Hk. rewrite lev_shape_length in Hk. destruct (D k) as [(s & Hs & <-)|Hni].
    + rewrite nthz_lev_shape by auto. specialize (A s Hs). lia.
    + rewrite nthz_lev_shape_ne by auto. apply shape_ok_nth. auto.
  - intros k. destruct (D k) as [(s & Hs & <-)|Hni].
    + destruct (H6 s Hs) as ((Ha & _) & Hb). rewrite nthz_lev_shape by auto. specialize (A s Hs). lia.
    + rewrite nthz_lev_shape_ne by auto. auto.
  - intros s Hs. destruct (H6 s Hs) as ((Ha & Hw & Hm & Hr) & Hb). rewrite nthz_lev_shape by auto. specialize (A s Hs).
    split; [|lia]. unfold step_ok. rewrite lev_shape_length, nthz_lev_shape by auto.
    repeat split; auto; try apply Hw; try (unfold resources in *; lia). apply (Hl s Hs j Hj).
Qed.

Theorem wavedecn_spec (data : sarr C) w m level axes plan B l :
  sarr_ok C data -> 1 <= ndim data <= 64 -> plan <> [] ->
  resolves C (ndim data) w m (default_axes (ndim data) axes) plan ->
  plan_good C fuel B (sshape data) plan ->
  check_level (level_pairs (sshape data) plan) level = Ok l ->
  (forall s, In s plan -> levels_ok (st_m C s) (dec_len (st_w C s)) (Z.to_nat l) (nthz (st_ax C s) (sshape data))) ->
  exists a, wavedecn fuel junk data w m level axes
    = Ok (a, map (fun j => det plan (appr plan j (val C data))) (rev (seq 0 (Z.to_nat l)))) /\
    sarr_ok C a /\ val C a = appr plan (Z.to_nat l) (val C data).
Proof.
  intros Hok Hn Hne HR Hg Hl Hlev. pose proof HR as (R1 & R2 & R3).
  pose proof Hg as (_ & _ & _ & _ & Hd & H6).
  unfold wavedecn. rewrite (prep_axes_ok (sshape data) axes plan); auto.
  2: { unfold ndim in Hn. lia. }
  2: { intros s Hs. apply (H6 s Hs). }
  cbn [bind]. change (zlen (sshape data)) with (ndim data). rewrite (resolves_len _ _ _ _ _ HR), R2. cbn [bind]. rewrite combine_pairs, Hl. cbn [bind].
  destruct (wavedecn_loop_spec w m (default_axes (ndim data) axes) plan B Hne (Z.to_nat l) data [] Hok Hn HR) as (r & Er & Or & Vr & _).
  { apply levels_good_intro; auto. }
  exists r. rewrite Er. rewrite app_nil_l, map_rev. auto.
Qed.

(** ** waverecn *)
(** [a] extends [z] by at most one slice per axis. *)
Definition covers (a : sarr C) (z : nd C) : Prop :=
  sarr_ok C a /\ Forall2 (fun s t => 0 <= s - t <= 1) (sshape a) (nshape z) /\
  forall idx, valid (nshape z) idx -> ndget (val C a) idx = ndget z idx.

Lemma valid_le s : forall t idx, Forall2 (fun s t => 0 <= s - t <= 1) s t -> valid t idx -> valid s idx.
Proof. clear junk.
  induction s as [|a s IH]; intros t idx H Hv; inversion H; subst; destruct idx; cbn in *; auto.
  destruct Hv. split; [lia|]. eapply IH; eauto.
Qed.

Lemma val_get (a : sarr C) idx : valid (sshape a) idx -> ndget (val C a) idx = gz (smem a) (sbase a + dot idx (sstrides a)).
Proof. clear junk. intros H. unfold val. rewrite ndget_ndtab by auto. reflexivity. Qed.

Lemma view_spec (a : sarr C) z : covers a z -> nd_wf z ->
  sarr_ok C (view a (nshape z)) /\ val C (view a (nshape z)) = z.
Proof. clear junk.
  intros ((O1 & O2 & O3) & Hs & Hv) Hz.
  assert (HL : List.length (sshape a) = List.length (nshape z)) by (clear -Hs; induction Hs; cbn; auto).
  assert (Ok' : sarr_ok C (view a (nshape z))).
  { split; [apply Hz|]. split; [cbn; lia|]. intros idx Hi. apply O3. cbn in Hi. eapply valid_le; eauto. }
  split; auto. apply nd_ext; auto; [apply val_wf; auto|]. intros idx Hi. cbn in Hi.
  rewrite val_get by auto. cbn [view smem sbase sstrides]. rewrite <- val_get by (eapply valid_le; eauto). apply Hv. auto.
Qed.

Lemma covers_paxs r plan (z : nd C) : sarr_ok C r -> val C r = paxs C plan z -> nd_wf z ->
  (forall s, In s plan -> (st_ax C s < List.length (nshape z))%nat) -> covers r z.
Proof.
  intros Hr Hv Hz Ha. split; auto. split.
  - rewrite <- (nshape_val C r), Hv, paxs_shape by auto. unfold odd_up.
    assert (H : Forall2 (fun s t => 0 <= s - t <= 1)
       (map (fun k => let n := nthz k (nshape z) in if in_dec Nat.eq_dec k (map (st_ax C) plan) then n + n mod 2 else n) (seq 0 (List.length (nshape z))))
       (map (fun k => nthz k (nshape z)) (seq 0 (List.length (nshape z))))).
    { induction (seq 0 (List.length (nshape z))) as [|k t IH]; cbn [map]; constructor; auto. cbv zeta.
      destruct (in_dec _ _ _); lia. }
    replace (map (fun k => nthz k (nshape z)) (seq 0 (List.length (nshape z)))) with (nshape z) in H; auto.
    apply nth_ext'; [rewrite map_length, seq_length; auto|]. intros k Hk. rewrite nthz_map_seq by auto. reflexivity.
  - intros idx Hi. rewrite Hv. apply paxs_get; auto.
Qed.

Lemma covers_exact (a : sarr C) (z : nd C) : covers a z -> nd_wf z -> sshape a = nshape z -> val C a = z.
Proof. clear junk.
  intros (Ho & _ & Hv) Hz E. apply nd_ext; auto; [apply val_wf; auto|]. intros idx Hi. rewrite nshape_val, E in Hi. auto.
Qed.

Lemma det_keys plan y k v : In (k, v) (det plan y) -> In k (ad_keys (List.length plan)) /\ k <> all_a (List.length plan) /\ v = of_nd (band C k plan y).
Proof. clear junk.
  intros Hi. apply in_map_iff in Hi. destruct Hi as (q & E & Hq). injection E as <- <-.
  pose proof (ad_keys_NoDup (List.length plan)) as Hd. rewrite ad_keys_head in Hd. inversion Hd; subst.
  split; [rewrite ad_keys_head; right; auto|]. split; auto. intros ->. auto.
Qed.

Lemma det_nonempty plan y : plan <> [] -> exists k v t, det plan y = (k, v) :: t.
Proof. clear junk.
  intros H. unfold det. destruct plan as [|s p]; [congruence|]. cbn [List.length ad_keys]. rewrite ad_keys_head.
  cbn [map app tl]. destruct (map (String "a"%char) (tl (ad_keys (List.length p)))) as [|k t]; cbn [app map]; eauto.
Qed.

(** One step of waverecn. *)
Lemma waverecn_step w m axes plan B (a : sarr C) (z : nd C) (first : bool) : plan <> [] -> nd_wf z ->
  plan_good C fuel B (nshape z) plan -> (forall s, In s plan -> pr_wavelet (st_w C s)) ->
  resolves C (zlen (nshape z)) w m axes plan ->
  covers a (band C (all_a (List.length plan)) plan z) ->
  (first = true -> sshape a = lev_step plan (nshape z)) ->
  exists a' r, (if first then Ok (Some a) else match_coeff_dims (Some a) (det plan z)) = Ok (Some a') /\
    idwtn fuel junk (dset (map (fun '(k, v) => (k, Some v)) (det plan z)) (all_a (List.length axes)) (Some a')) w m (Some axes) = Ok (Some r) /\
    sarr_ok C r /\ val C r = paxs C plan z.
Proof.
  intros Hne Hz Hg Hpr HR Hc Hf. pose proof (plan_good_ok _ _ _ _ _ Hg) as Hpo.
  set (y := band C (all_a (List.length plan)) plan z) in *.
  assert (Wy : nd_wf y) by (apply (band_wf C fuel); auto).
  assert (Sy : nshape y = lev_step plan (nshape z)) by (apply band_a_shape; auto).
  assert (Wb : forall k, nd_wf (band C k plan z)) by (intros; apply (band_wf C fuel); auto).
  assert (H : exists a', (if first then Ok (Some a) else match_coeff_dims (Some a) (det plan z)) = Ok (Some a') /\ sarr_ok C a' /\ val C a' = y).
  { destruct first.
    - exists a. split; auto. split; [apply Hc|]. apply covers_exact; auto. rewrite Sy. auto.
    - destruct (det_nonempty plan z Hne) as (k & v & t & E).
      assert (Sv : sshape v = nshape y).
      { destruct (det_keys plan z k v) as (Hk & _ & ->); [rewrite E; left; auto|]. cbn [of_nd sshape].
        rewrite (band_shape C fuel) by (auto; apply ad_keys_length; auto). rewrite Sy. reflexivity. }
      exists (view a (nshape y)). cbn [match_coeff_dims]. rewrite E, Sv.
      assert (Hb : existsb (fun '(s, t) => (s - t <? 0) || (1 <? s - t)) (combine (sshape a) (nshape y)) = false).
      { destruct Hc as (_ & Hc & _). clearbody y. clear -Hc. revert Hc. generalize (nshape y). clear. intros l Hc. induction Hc; cbn [combine existsb]; auto.
        rewrite IHHc. replace ((x - y <? 0) || (1 <? x - y)) with false by lia. reflexivity. }
      rewrite Hb. split; auto. apply view_spec; auto. }
  destruct H as (a' & E1 & O' & V'). exists a'.
  assert (Ed : dset (map (fun '(k, v) => (k, Some v)) (det plan z)) (all_a (List.length axes)) (Some a')
    = map (fun '(k, v) => (k, Some v)) (det plan z ++ [(all_a (List.length plan), a')])).
  { rewrite (resolves_len _ _ _ _ _ HR), map_app. apply dset_not_in. rewrite map_map. intros Hi.
    apply in_map_iff in Hi. destruct Hi as ([k v] & E & Hi). cbn in E. destruct (det_keys _ _ _ _ Hi) as (_ & Hn & _). auto. }
  destruct (idwtn_pr C fuel junk (det plan z ++ [(all_a (List.length plan), a')]) z w m (Some axes) plan B) as (r & Er & Or & Vr); auto.
  - intros k v Hi. apply in_app_or in Hi. destruct Hi as [Hi|[Hi|[]]].
    + destruct (det_keys _ _ _ _ Hi) as (Hk & _ & ->). split; auto. split; [apply of_nd_ok; auto|apply val_of_nd; auto].
    + injection Hi as <- <-. split; [apply all_a_in|]. split; auto.
  - intros k Hk. rewrite ad_keys_head in Hk. 
    assert (Hin : exists v, In (k, v) (det plan z ++ [(all_a (List.length plan), a')])).
    { destruct Hk as [<-|Hk].
      - exists a'. apply in_or_app. right; left; auto.
      - exists (of_nd (band C k plan z)). apply in_or_app. left. apply in_map_iff. exists k. auto. }
    clear -Hin. destruct Hin as (v & Hv). induction (det plan z ++ _) as [|[k' v'] t IH]; [destruct Hv|].
    cbn. destruct (String.eqb_spec k' k); eauto. destruct Hv as [Hv|Hv]; [injection Hv; congruence|auto].
  - exists r. rewrite Ed. auto.
Qed.

Lemma waverecn_loop_spec w m axes plan B (x : nd C) : plan <> [] -> nd_wf x ->
  (forall s, In s plan -> pr_wavelet (st_w C s)) -> resolves C (zlen (nshape x)) w m axes plan ->
  forall n (a : sarr C) (first : bool), levels_good B (nshape x) plan n ->
  covers a (appr plan n x) -> (first = true -> sshape a = nshape (appr plan n x)) ->
  exists r, waverecn_loop fuel junk (Some a) (map (fun j => det plan (appr plan j x)) (rev (seq 0 n))) first w m axes = Ok (Some r) /\
    covers r x /\ (n <> O -> sshape r = odd_up (map (st_ax C) plan) (nshape x)) /\ (n = O -> r = a).
Proof.
  intros Hne Hx Hpr HR. induction n as [|n IH]; intros a first Hg Hc Hf.
  - exists a. cbn. split; auto. split; auto. split; auto. congruence.
  - rewrite seq_S, rev_app_distr. cbn [rev app map waverecn_loop Nat.add].
    assert (Hg' : levels_good B (nshape x) plan n) by (intros j Hj; apply Hg; lia).
    destruct (appr_wf plan B n x Hx Hg') as (Wz & Sz).
    pose proof (Hg n ltac:(lia)) as G. rewrite <- Sz in G.
    destruct (waverecn_step w m axes plan B a (appr plan n x) first) as (a' & r & E1 & E2 & Or & Vr); auto.
    { unfold zlen in *. rewrite Sz, lev_shape_length. auto. }
    { intros F. rewrite (Hf F). cbn [appr]. apply band_a_shape. apply (plan_good_ok _ _ _ _ _ G). }
    rewrite E1. cbn [bind]. rewrite E2. cbn [bind].
    assert (Hc' : covers r (appr plan n x)).
    { apply (covers_paxs r plan); auto. intros s Hs. destruct G as (_ & _ & _ & _ & _ & G6). apply (G6 s Hs). }
    destruct (IH r false Hg' Hc') as (r' & Er & Cr & Sr & Zr); [discriminate|].
    exists r'. split; [exact Er|]. split; auto. split; [|lia]. intros _. destruct n.
    + rewrite Zr by auto. rewrite <- (nshape_val C r), Vr. cbn [appr]. rewrite paxs_shape; auto.
      intros s Hs. destruct G as (_ & _ & _ & _ & _ & G6). apply (G6 s Hs).
    + apply Sr. lia.
Qed.

Theorem waverecn_wavedecn (data : sarr C) w m level axes plan B l :
  sarr_ok C data -> 1 <= ndim data <= 64 -> plan <> [] ->
  resolves C (ndim data) w m (default_axes (ndim data) axes) plan ->
  plan_good C fuel B (sshape data) plan -> (forall s, In s plan -> pr_wavelet (st_w C s)) ->
  check_level (level_pairs (sshape data) plan) level = Ok l ->
  (forall s, In s plan -> levels_ok (st_m C s) (dec_len (st_w C s)) (Z.to_nat l) (nthz (st_ax C s) (sshape data))) ->
  exists a ds r, wavedecn fuel junk data w m level axes = Ok (a, ds) /\ List.length ds = Z.to_nat l /\
    waverecn fuel junk (Some a) (map (map (fun '(k, v) => (k, Some v))) ds) w m axes = Ok (Some r) /\
    sshape r = (if l =? 0 then sshape data else odd_up (map (st_ax C) plan) (sshape data)) /\
    (forall idx, valid (sshape data) idx -> ndget (val C r) idx = ndget (val C data) idx).
Proof.
  intros Hok Hn Hne HR Hg Hpr Hl Hlev.
  destruct (wavedecn_spec data w m level axes plan B l Hok Hn Hne HR Hg Hl Hlev) as (a & Ea & Oa & Va).
  assert (W : nd_wf (val C data)) by (apply val_wf; auto).
  assert (HG : levels_good B (nshape (val C data)) plan (Z.to_nat l)) by (rewrite nshape_val; apply levels_good_intro; auto).
  destruct (appr_wf plan B _ _ W HG) as (Wz & Sz).
  assert (l0 : 0 <= l).
  { unfold check_level in Hl. destruct (list_min _) eqn:Em; [|discriminate]. destruct level as [lv|].
    - destruct (lv <? 0) eqn:E; [discriminate|]. injection Hl as <-. lia.
    - injection Hl as <-. unfold level_pairs in Em. rewrite map_map in Em. clear -Em Hne.
      destruct plan as [|s p]; [congruence|]. cbn [map list_min] in Em. injection Em as <-.
      set (f := fun x : step => dwt_max_level_c (nthz (st_ax C x) (sshape data)) (dec_len (st_w C x))).
      assert (Hf : forall y, 0 <= f y) by (intros; apply LengthsProofs.dwt_max_level_nonneg).
      change (dwt_max_level_c _ _) with (f s). 
      assert (Gm : forall q v, 0 <= v -> 0 <= fold_left Z.min (map f q) v).
      { induction q as [|t q IH]; intros v Hv; cbn; auto. apply IH. specialize (Hf t). lia. }
      apply (Gm p (f s)). auto. }
  set (ds := map (fun j => det plan (appr plan j (val C data))) (rev (seq 0 (Z.to_nat l)))) in *.
  destruct (waverecn_loop_spec w m (default_axes (ndim data) axes) plan B (val C data) Hne W Hpr) with (n := Z.to_nat l) (a := a) (first := true)
    as (r & Er & (Cr1 & Cr2 & Cr3) & Sr & Zr); auto.
  { split; auto. split.
    - rewrite <- (nshape_val C a), Va. generalize (nshape (appr plan (Z.to_nat l) (val C data))). intros q. clear. induction q; [constructor|constructor; [lia|auto]].
    - intros idx _. rewrite Va. reflexivity. }
  { intros _. rewrite <- (nshape_val C a), Va. reflexivity. }
  exists a, ds, r. split; [exact Ea|]. split.
  { unfold ds. rewrite map_length, rev_length, seq_length. auto. }
  assert (Sa : List.length (sshape a) = List.length (sshape data)).
  { rewrite <- (nshape_val C a), Va, Sz, lev_shape_length, nshape_val. auto. }
  split; [|split].
  - unfold waverecn.
    assert (Hfix : mapM fix_coeffs (map (map (fun '(k, v) => (k, Some v))) ds) = Ok ds).
    { assert (Hk : forall d, In d ds -> fix_coeffs (map (fun '(k, v) => (k, Some v)) d) = Ok d).
      { intros d Hd. apply (fix_coeffs_some d (List.length plan)). intros k v Hi. unfold ds in Hd.
        apply in_map_iff in Hd. destruct Hd as (j & <- & _). destruct (det_keys _ _ _ _ Hi) as (Hk & _).
        split; [apply ad_keys_length; auto|apply (ad_keys_ad _ _ Hk)]. }
      clearbody ds. clear -Hk. induction ds as [|d t IH]; cbn [map mapM]; auto.
      rewrite (Hk d) by (left; auto). cbn [bind]. rewrite IH by (intros; apply Hk; right; auto). reflexivity. }
    rewrite Hfix. cbn [bind].
    destruct ds as [|d0 dt] eqn:Eds.
    { unfold ds in Eds. cbn in Er. rewrite Eds in Er. cbn in Er. injection Er as <-. reflexivity. }
    rewrite <- Eds in *. cbn [app].
    assert (Hnd : existsb (fun x => negb (ndim x =? ndim a)) (flat_map (map snd) ds) = false).
    { assert (Hall : forall v, In v (flat_map (map snd) ds) -> ndim v = ndim a).
      { intros v Hv. apply in_flat_map in Hv. destruct Hv as (d & Hd & Hv). apply in_map_iff in Hv. destruct Hv as ([k v'] & E & Hi).
        cbn in E. subst v'. rewrite Eds in Hd. rewrite <- Eds in Hd. unfold ds in Hd. apply in_map_iff in Hd. destruct Hd as (j & <- & Hj).
        apply in_rev in Hj. apply in_seq in Hj.
        destruct (det_keys _ _ _ _ Hi) as (Hk & _ & ->). unfold ndim, zlen. cbn [of_nd sshape].
        destruct (appr_wf plan B j (val C data) W) as (Wj & Sj); [intros i Hi'; apply HG; lia|].
        pose proof (HG j ltac:(lia)) as Gj. rewrite <- Sj in Gj.
        rewrite (band_shape C fuel); [|apply (plan_good_ok _ _ _ _ _ Gj)|apply ad_keys_length; auto].
        fold (lev_step plan (nshape (appr plan j (val C data)))). rewrite lev_step_length, Sj, lev_shape_length, nshape_val. lia. }
      clear -Hall. induction (flat_map (map snd) ds) as [|v t IH]; cbn [existsb]; auto.
      rewrite (Hall v) by (left; auto). rewrite Z.eqb_refl. cbn. apply IH. intros; apply Hall; right; auto. }
    rewrite Hnd. assert (Nn : ndim a = ndim data) by (unfold ndim, zlen; lia). rewrite Nn.
    change (match axes with None => tab (ndim data) (fun i => i) | Some l0 => l0 end) with (default_axes (ndim data) axes).
    rewrite (distinct_NoDup (default_axes (ndim data) axes)).
    2: { destruct HR as (R1 & _). destruct Hg as (_ & _ & _ & _ & Hd & _). apply (norm_axes_NoDup _ _ _ R1 Hd). }
    rewrite Nat.eqb_refl. cbn [negb]. exact Er.
  - destruct (l =? 0) eqn:E0.
    + rewrite Zr by lia. assert (l = 0) by lia. subst l. rewrite <- (nshape_val C a), Va. cbn [Z.to_nat appr]. rewrite nshape_val. auto.
    + rewrite Sr by lia. rewrite nshape_val. reflexivity.
  - intros idx Hv. apply Cr3. rewrite nshape_val. auto.
Qed.

End MNP.
