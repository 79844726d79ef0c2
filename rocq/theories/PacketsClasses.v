(** The three packet classes: their path alphabets are well formed, an analysis
    creates exactly the parts of the alphabet, and analysis, synthesis and trimming
    give the data back. *)
From Verif Require Import Base BaseLemmas CConv Spec ExtLemmas Lengths LengthsProofs Dwt DwtProofs PR Linear Multilevel Swt SwtProofs Nd NdSpec NdLinear Axis AxisProofs AxisProofs2 Multidim MultidimProofs MultidimFacts MultilevelNd MultilevelNdProofs MultilevelNdFacts.
From Verif Require Import Packets PacketsInv PacketsPath PacketsPath2 PacketsRead PacketsSpec PacketsLevel.
From Coq Require Import Permutation String Ascii.
Open Scope list_scope. Open Scope Z_scope.

Section Cls.
Variable C : CRing.
Variable fuel : nat.
Variable junk : Z -> C.
Notation step := (step C).

(** ** Alphabets *)
Lemma wp1_class w m axis : class_ok (wp1 (C := C) fuel junk w m axis).
Proof.
  split; [cbn; lia|]. split; cbn.
  - constructor; [intros [H|[]]; discriminate|]. constructor; [intros []|constructor].
  - intros p [<-|[<-|[]]]; reflexivity.
Qed.
Lemma wp2_class w m axes : class_ok (wp2 (C := C) fuel junk w m axes).
Proof.
  split; [cbn; lia|]. split; cbn.
  - repeat (constructor; [cbn; intuition discriminate|]). constructor.
  - intros p [<-|[<-|[<-|[<-|[]]]]]; reflexivity.
Qed.
Lemma wpn_class w m axes : axes <> [] -> class_ok (wpn (C := C) fuel junk w m axes).
Proof.
  intros H. split; [cbn; destruct axes; [congruence|cbn; lia]|]. split; cbn.
  - apply ad_keys_NoDup.
  - intros p Hp. apply ad_keys_length. auto.
Qed.

Lemma wp1_keys w m axis d cs : fwd (wp1 (C := C) fuel junk w m axis) d = Ok cs -> fwd_keys (wp1 (C := C) fuel junk w m axis) cs.
Proof.
  cbn. destruct (py_dwt _ _ _ _ _ _) as [[cA cD]| | |e]; cbn [bind]; try discriminate. intros E. injection E as <-.
  split; cbn.
  - constructor; [intros [H|[]]; discriminate|]. constructor; [intros []|constructor].
  - intros p. tauto.
Qed.
Lemma wp2_keys w m axes d cs : fwd (wp2 (C := C) fuel junk w m axes) d = Ok cs -> fwd_keys (wp2 (C := C) fuel junk w m axes) cs.
Proof.
  cbn. destruct (dwt2 _ _ _ _ _ _) as [[LL [[HL LH] HH]]| | |e]; cbn [bind]; try discriminate. intros E. injection E as <-.
  split; cbn.
  - repeat (constructor; [cbn; intuition discriminate|]). constructor.
  - intros p. tauto.
Qed.

Definition kids_of (k : string) : list string := [append k "a"; append k "d"]%string.
Lemma dwtn_step_keys D st D' : dwtn_step (C := C) fuel junk D st = Ok D' -> map fst D' = flat_map kids_of (map fst D).
Proof.
  unfold dwtn_step. destruct st as [ax [w m]].
  revert D'. induction D as [|[k v] D IH]; intros D' E.
  - injection E as <-. reflexivity.
  - cbn [mapM] in E. destruct (to_axis ax) as [a| | |e]; cbn [bind] in *; try discriminate.
    destruct (dwt_axis _ _ _ _ _ _) as [[cA cD]| | |e]; cbn [bind] in *; try discriminate.
    destruct (mapM _ D) as [r| | |e] eqn:Em; cbn [bind] in *; try discriminate.
    injection E as <-. cbn [List.concat app map fst flat_map kids_of]. do 2 f_equal. apply IH. reflexivity.
Qed.
Lemma kids_cons p k : map (append p) (kids_of k) = kids_of (append p k).
Proof. unfold kids_of. cbn [map]. rewrite <- !append_assoc. reflexivity. Qed.
Lemma kids_map p l : flat_map kids_of (map (append p) l) = map (append p) (flat_map kids_of l).
Proof. induction l as [|k l IH]; cbn [map flat_map]; auto. rewrite IH, map_app, kids_cons. reflexivity. Qed.
Lemma ad_keys_kids n : flat_map kids_of (ad_keys n) = ad_keys (S n).
Proof.
  induction n as [|n IH]; [reflexivity|].
  change (ad_keys (S n)) with (map (append "a"%string) (ad_keys n) ++ map (append "d"%string) (ad_keys n))%list at 1.
  rewrite flat_map_app, !kids_map, IH. reflexivity.
Qed.
Lemma dwtn_loop_keys l : forall D n D', map fst D = ad_keys n -> foldM (dwtn_step (C := C) fuel junk) D l = Ok D' ->
  map fst D' = ad_keys (n + List.length l).
Proof.
  induction l as [|st l IH]; intros D n D' HD E; cbn [foldM] in E.
  - injection E as <-. cbn. rewrite Nat.add_0_r. auto.
  - destruct (dwtn_step fuel junk D st) as [D1| | |e] eqn:E1; cbn [bind] in E; try discriminate.
    cbn [List.length]. rewrite <- Nat.add_succ_comm. apply (IH D1); auto.
    rewrite (dwtn_step_keys _ _ _ E1), HD. apply ad_keys_kids.
Qed.
Lemma wpn_keys w m axes d cs : fwd (wpn (C := C) fuel junk w m axes) d = Ok cs -> fwd_keys (wpn (C := C) fuel junk w m axes) cs.
Proof.
  cbn. unfold dwtn. destruct (_ <? 1); cbn [bind]; try discriminate. cbn [objs_per_axis bind].
  set (ax := norm_axes _ axes).
  destruct (foldM _ _ _) as [D| | |e] eqn:ED; cbn [bind]; try discriminate. intros E. injection E as <-.
  apply (dwtn_loop_keys _ _ 0) in ED; [|reflexivity].
  assert (EL : List.length (combine ax (combine (repeat w (List.length ax)) (repeat m (List.length ax)))) = List.length axes).
  { rewrite combine_length, combine_length, !repeat_length, !Nat.min_id. unfold ax, norm_axes. apply map_length. }
  rewrite EL in ED.
  assert (EM : map fst (map (fun '(k, v) => (k, val C v)) D) = ad_keys (List.length axes)).
  { cbn [Nat.add] in ED. rewrite <- ED. rewrite map_map. apply map_ext. intros [k v]. reflexivity. }
  split; cbn [parts]; rewrite EM; [apply ad_keys_NoDup|tauto].
Qed.

(** ** Perfect reconstruction at one node *)
Lemma trim_paxs plan (d : nd C) : nd_wf d -> (forall s, In s plan -> (st_ax C s < List.length (nshape d))%nat) ->
  (if shape_eqb (nshape (paxs C plan d)) (nshape d) then paxs C plan d else nd_cut (nshape d) (paxs C plan d)) = d.
Proof.
  intros Hd Ha. assert (Wp : nd_wf (paxs C plan d)) by (apply paxs_wf; auto).
  assert (Hc : covers C (of_nd (paxs C plan d)) d).
  { apply (covers_paxs C fuel junk _ plan); auto; [apply of_nd_ok; auto|apply val_of_nd; auto]. }
  unfold shape_eqb. destruct (list_eq_dec Z.eq_dec (nshape (paxs C plan d)) (nshape d)) as [E|_].
  - rewrite <- (val_of_nd C (paxs C plan d)) by auto. apply covers_exact; auto.
  - unfold nd_cut. replace (map _ (combine (nshape (paxs C plan d)) (nshape d))) with (nshape d).
    + apply (view_spec C _ d Hc Hd).
    + destruct Hc as (_ & Hs & _). cbn [of_nd sshape] in Hs. clear -Hs.
      induction Hs as [|a b la lb H Hs IH]; cbn; auto. f_equal; [lia|auto].
Qed.

(** A node at level [l]: an array whose further [M-l] analyses stay within the box [B]. *)
Definition deep (plan : list step) (B : list Z) (M l : Z) (d : nd C) : Prop :=
  nd_wf d /\ 1 <= zlen (nshape d) <= 64 /\ levels_good C fuel B (nshape d) plan (Z.to_nat (M - l)).

Lemma deep_good plan B M l d : l < M -> deep plan B M l d -> plan_good C fuel B (nshape d) plan.
Proof. intros Hl (Hw & Hn & Hg). apply (Hg 0%nat). lia. Qed.
Lemma deep_band plan B M l d k : l < M -> String.length k = List.length plan -> deep plan B M l d -> deep plan B M (l + 1) (band C k plan d).
Proof.
  intros Hl Hk Hd. pose proof (deep_good _ _ _ _ _ Hl Hd) as Hg. destruct Hd as (Hw & Hn & Hlv).
  pose proof (plan_good_ok _ _ _ _ _ Hg) as Hp.
  assert (E : nshape (band C k plan d) = lev_step C plan (nshape d)) by (apply (band_shape C fuel); auto).
  split; [apply (band_wf C fuel); auto|]. rewrite E. split; [unfold zlen in *; rewrite lev_step_length; auto|].
  intros j Hj. rewrite <- lev_shape_S. apply Hlv. lia.
Qed.

Lemma wp1_inv w m axis (ax : nat) B M N : pr_wavelet w -> zlen B = N -> norm_axis N axis = Z.of_nat ax ->
  let K := wp1 (C := C) fuel junk w m axis in let good := fun l d => zlen (nshape d) = N /\ deep [(ax, (w, m))] B M l d in
  forall l d cs, 0 <= l < M -> good l d -> fwd K d = Ok cs ->
  fwd_keys K cs /\ (forall p v, In (p, v) cs -> good (l + 1) v) /\
  inv K (map (fun p => (p, dget cs p)) (parts K)) = Ok (Some (paxs C [(ax, (w, m))] d)).
Proof.
  intros Hpr HB Hax K good l d cs Hl (HN & Hd) Ef. unfold K, good.
  split; [eapply wp1_keys; eauto|].
  pose proof (deep_good _ _ _ _ _ (proj2 Hl) Hd) as Hg. pose proof Hd as (Hw & Hn & _).
  pose proof (plan_good_ok _ _ _ _ _ Hg) as (Hs & Hal & _).
  destruct (step_len _ _ _ _ Hs) as (N1 & Hcl). pose proof Hs as (Ha & Hwb & Hm & Hr).
  pose proof Hwb as (_ & _ & _ & _ & HF).
  assert (Hb : 2 * Z.max (nthz ax (nshape d)) (dec_len w) <= nthz ax B).
  { destruct Hg as (_ & _ & _ & _ & _ & G). destruct (G _ (or_introl eq_refl)) as (_ & G'). exact G'. }
  cbn [st_ax st_w st_m fst snd] in *.
  assert (Ed : py_dwt fuel junk (of_nd d) w m axis = Ok (of_nd (dax ax m (dec_lo w) d), of_nd (dax ax m (dec_hi w) d))).
  { rewrite (py_dwt_spec C fuel junk (of_nd d) w m axis ax); auto.
    - rewrite val_of_nd by auto. reflexivity.
    - apply of_nd_ok; auto.
    - unfold ndim. cbn [of_nd sshape]. lia.
    - unfold ndim. cbn [of_nd sshape]. rewrite HN. auto. }
  assert (La : zlen (dec_lo w) = dec_len w) by reflexivity.
  assert (Wa : nd_wf (dax ax m (dec_lo w) d)) by (apply (dax_wf' C fuel "a"%char (ax, (w, m))); auto).
  assert (Wd : nd_wf (dax ax m (dec_hi w) d)) by (apply (dax_wf' C fuel "d"%char (ax, (w, m))); auto).
  unfold K in Ef. cbn [wp1 fwd] in Ef. rewrite Ed in Ef. cbn [bind] in Ef. rewrite !val_of_nd in Ef by auto. injection Ef as <-.
  assert (Ba : dax ax m (dec_lo w) d = band C "a" [(ax, (w, m))] d) by reflexivity.
  assert (Bd : dax ax m (dec_hi w) d = band C "d" [(ax, (w, m))] d) by reflexivity.
  assert (Sa : nshape (dax ax m (dec_lo w) d) = setn ax (coeff_len m (nthz ax (nshape d)) (dec_len w)) (nshape d)).
  { rewrite Ba. rewrite (band_shape C fuel); auto. apply (plan_good_ok _ _ _ _ _ Hg). }
  assert (Sd : nshape (dax ax m (dec_hi w) d) = setn ax (coeff_len m (nthz ax (nshape d)) (dec_len w)) (nshape d)).
  { rewrite Bd. rewrite (band_shape C fuel); auto. apply (plan_good_ok _ _ _ _ _ Hg). }
  split.
  { intros p v [E|[E|[]]]; injection E as <- <-; [rewrite Ba|rewrite Bd]; (split; [|apply deep_band; auto; lia]).
    - rewrite <- Ba, Sa. unfold zlen in *. rewrite setn_length. auto.
    - rewrite <- Bd, Sd. unfold zlen in *. rewrite setn_length. auto. }
  subst K good. cbv beta.
  cbn [wp1 inv parts map dget String.eqb Ascii.eqb Bool.eqb]. unfold arg.
  cbn [dget String.eqb Ascii.eqb Bool.eqb].
  assert (RC : rec_len m (coeff_len m (nthz ax (nshape d)) (dec_len w)) (dec_len w) = nthz ax (nshape d) + nthz ax (nshape d) mod 2).
  { destruct Hpr as (_ & _ & _ & HF2 & HFe & _). apply rec_coeff_len; unfold dec_len in *; lia. }
  rewrite (py_idwt_spec C fuel junk _ _ w m axis ax (setn ax (coeff_len m (nthz ax (nshape d)) (dec_len w)) (nshape d))).
  - unfold oval. cbn [bind option_map].
    rewrite (val_of_nd C (dax ax m (dec_lo w) d)), (val_of_nd C (dax ax m (dec_hi w) d)) by auto.
    rewrite pr_ax by auto. rewrite val_of_nd by (apply pax_wf; auto). reflexivity.
  - apply of_nd_ok; auto.
  - apply of_nd_ok; auto.
  - auto.
  - auto.
  - unfold zlen in *. rewrite setn_length. lia.
  - unfold zlen in *. rewrite setn_length. rewrite HN. auto.
  - rewrite setn_length. auto.
  - auto.
  - rewrite nthz_setn by auto. lia.
  - rewrite nthz_setn by auto. rewrite RC. lia.
  - rewrite nthz_setn by auto. unfold resources in *. lia.
  - rewrite nthz_setn, RC by auto. rewrite setn_setn. destruct Hg as (G1 & G2 & G3 & G4 & _).
    apply (box_bound fuel B); auto. lia.
Qed.

Lemma wp1_pr w m axis (ax : nat) B M N : pr_wavelet w -> zlen B = N -> norm_axis N axis = Z.of_nat ax ->
  pr_class (wp1 (C := C) fuel junk w m axis) M (fun l d => zlen (nshape d) = N /\ deep [(ax, (w, m))] B M l d).
Proof.
  intros Hpr HB Hax. split; [discriminate|]. intros l d cs Hl Hgd Ef. pose proof Hgd as (HN & Hd).
  destruct (wp1_inv w m axis ax B M N Hpr HB Hax l d cs Hl Hgd Ef) as (A1 & A2 & A3).
  pose proof (deep_good _ _ _ _ _ (proj2 Hl) Hd) as Hg. pose proof Hd as (Hw & Hn & _).
  split; auto. split; auto. exists (paxs C [(ax, (w, m))] d). split; [exact A3|]. cbn [wp1 trims shp cut]; apply trim_paxs; auto.
  intros s Hs. destruct Hg as (_ & _ & _ & _ & _ & G). apply (G s Hs).
Qed.

(** Even sizes need no trimming. *)
Lemma paxs_even plan (d : nd C) : nd_wf d -> (forall s, In s plan -> (st_ax C s < List.length (nshape d))%nat) ->
  (forall s, In s plan -> nthz (st_ax C s) (nshape d) mod 2 = 0) -> paxs C plan d = d.
Proof.
  intros Hw Ha He.
  assert (Hc : covers C (of_nd (paxs C plan d)) d).
  { apply (covers_paxs C fuel junk _ plan); auto; [apply of_nd_ok; apply paxs_wf; auto|apply val_of_nd; apply paxs_wf; auto]. }
  rewrite <- (val_of_nd C (paxs C plan d)) by (apply paxs_wf; auto). apply covers_exact; auto.
  cbn [of_nd sshape]. rewrite paxs_shape by auto. apply nth_ext'.
  + unfold odd_up. rewrite map_length, seq_length. auto.
  + intros k Hk. unfold odd_up in *. rewrite map_length, seq_length in Hk. rewrite nthz_map_seq by auto. cbv zeta.
    destruct (in_dec _ _ _) as [Hi|Hi]; auto. apply in_map_iff in Hi. destruct Hi as (s & <- & Hs).
    assert (E0 := He s Hs). lia.
Qed.

Lemma wpn_pr w m axes plan B M N : pr_wavelet w -> plan <> [] -> zlen B = N -> resolves C N (One w) (One m) axes plan ->
  pr_class (wpn (C := C) fuel junk w m axes) M
    (fun l d => zlen (nshape d) = N /\ deep plan B M l d /\
       forall j s, (j < Z.to_nat (M - l))%nat -> In s plan -> nthz (st_ax C s) (lev_shape C plan j (nshape d)) mod 2 = 0).
Proof.
  intros Hpr Hne HB HR. assert (EL : List.length axes = List.length plan) by (eapply resolves_len; eauto).
  assert (Hws : forall s, In s plan -> st_w C s = w).
  { destruct HR as (_ & R2 & _). cbn [objs_per_axis] in R2. injection R2 as R2. intros s Hs.
    apply (in_map (st_w C)) in Hs. rewrite <- R2 in Hs. apply repeat_spec in Hs. auto. }
  split; [cbn; rewrite EL; destruct plan; [congruence|]; destruct (ad_keys_cons (List.length (s :: plan))) as (k0 & t & E); rewrite E; discriminate|].
  intros l d cs Hl (HN & Hd & He) Ef.
  split; [eapply wpn_keys; eauto|].
  pose proof (deep_good _ _ _ _ _ (proj2 Hl) Hd) as Hg. pose proof Hd as (Hw & Hn & _).
  pose proof (plan_good_ok _ _ _ _ _ Hg) as Hp.
  assert (Hbw : forall k, nd_wf (band C k plan d)) by (intros k; apply (band_wf C fuel); auto).
  assert (Ed : dwtn fuel junk (of_nd d) (One w) (One m) (Some axes) = Ok (map (fun k => (k, of_nd (band C k plan d))) (ad_keys (List.length plan)))).
  { rewrite (dwtn_bands C fuel junk (of_nd d) (One w) (One m) (Some axes) plan); auto.
    - rewrite val_of_nd by auto. reflexivity.
    - apply of_nd_ok; auto.
    - unfold ndim. cbn [of_nd sshape default_axes]. rewrite HN. auto. }
  cbn [wpn fwd] in Ef. rewrite Ed in Ef. cbn [bind] in Ef. rewrite map_map in Ef. injection Ef as <-.
  set (cs := map _ (ad_keys (List.length plan))).
  assert (Ecs : cs = map (fun k => (k, band C k plan d)) (ad_keys (List.length plan))).
  { unfold cs. apply map_ext. intros k. rewrite val_of_nd by auto. reflexivity. }
  split.
  { intros p v Hi. rewrite Ecs in Hi. apply in_map_iff in Hi. destruct Hi as (k & E & Hk). injection E as <- <-.
    pose proof (ad_keys_length _ _ Hk) as Lk.
    assert (E : nshape (band C k plan d) = lev_step C plan (nshape d)) by (apply (band_shape C fuel); auto).
    split; [rewrite E; unfold zlen in *; rewrite lev_step_length; auto|]. split; [apply deep_band; auto; lia|].
    intros j s Hj Hs. rewrite E, <- lev_shape_S. apply He; auto. lia. }
  exists (paxs C plan d). split.
  - cbn [wpn inv parts]. rewrite EL.
    assert (Ea : map (fun '(k, v) => (k, option_map of_nd v)) (map (fun p => (p, dget cs p)) (ad_keys (List.length plan)))
      = map (fun '(k, v) => (k, Some v)) (map (fun k => (k, of_nd (band C k plan d))) (ad_keys (List.length plan)))).
    { rewrite !map_map. apply map_ext_in. intros k Hk. f_equal. rewrite Ecs.
      rewrite (dget_map (fun k => band C k plan d)) by auto. reflexivity. }
    rewrite Ea.
    destruct (idwtn_pr C fuel junk (map (fun k => (k, of_nd (band C k plan d))) (ad_keys (List.length plan))) d (One w) (One m) (Some axes) plan B) as (r & Er & Or & Vr); auto.
    + intros s Hs. rewrite (Hws s Hs). auto.
    + cbn [default_axes]. rewrite HN. auto.
    + intros k v Hi. apply in_map_iff in Hi. destruct Hi as (q & E & Hq). injection E as <- <-.
      split; auto. split; [apply of_nd_ok; auto|apply val_of_nd; auto].
    + intros k Hk. eexists. apply (dget_map (fun k => of_nd (band C k plan d))). auto.
    + rewrite Er. unfold oval. cbn [bind option_map]. rewrite Vr. reflexivity.
  - cbn [wpn trims].
    assert (Ha : forall s, In s plan -> (st_ax C s < List.length (nshape d))%nat).
    { intros s Hs. destruct Hg as (_ & _ & _ & _ & _ & G). apply (G s Hs). }
    apply paxs_even; auto. intros s Hs. assert (E0 := He 0%nat s ltac:(lia) Hs). exact E0.
Qed.

Lemma wp2_inv w m ax1 ax2 s1 s2 B M N : pr_wavelet w -> zlen B = N -> resolves C N (One w) (One m) [ax1; ax2] [s1; s2] ->
  let K := wp2 (C := C) fuel junk w m [ax1; ax2] in let good := fun l d => zlen (nshape d) = N /\ deep [s1; s2] B M l d in
  forall l d cs, 0 <= l < M -> good l d -> fwd K d = Ok cs ->
  fwd_keys K cs /\ (forall p v, In (p, v) cs -> good (l + 1) v) /\
  inv K (map (fun p => (p, dget cs p)) (parts K)) = Ok (Some (paxs C [s1; s2] d)).
Proof.
  intros Hpr HB HR K good. unfold K, good. clear K good.
  assert (Hws : forall s, In s [s1; s2] -> st_w C s = w).
  { destruct HR as (_ & R2 & _). cbn [objs_per_axis] in R2. injection R2 as R2 R3. intros s [<-|[<-|[]]]; auto. }
  intros l d cs Hl (HN & Hd) Ef.
  split; [eapply wp2_keys; eauto|].
  pose proof (deep_good _ _ _ _ _ (proj2 Hl) Hd) as Hg. pose proof Hd as (Hw & Hn & _).
  pose proof (plan_good_ok _ _ _ _ _ Hg) as Hp.
  set (plan := [s1; s2]) in *.
  assert (Hbw : forall k, nd_wf (band C k plan d)) by (intros k; apply (band_wf C fuel); auto).
  assert (Ed : dwtn fuel junk (of_nd d) (One w) (One m) (Some [ax1; ax2]) = Ok (map (fun k => (k, of_nd (band C k plan d))) (ad_keys (List.length plan)))).
  { rewrite (dwtn_bands C fuel junk (of_nd d) (One w) (One m) (Some [ax1; ax2]) plan); auto.
    - rewrite val_of_nd by auto. reflexivity.
    - apply of_nd_ok; auto.
    - discriminate.
    - unfold ndim. cbn [of_nd sshape default_axes]. rewrite HN. auto. }
  cbn [wp2 fwd] in Ef. unfold dwt2 in Ef. cbn [List.length Nat.eqb negb] in Ef.
  destruct (_ <? _); cbn [bind] in Ef; try discriminate.
  assert (Hbf : exists bf, forall k, bf k = band C k plan d) by (exists (fun k => band C k plan d); auto).
  destruct Hbf as (bf & Hbf).
  assert (Ed' : dwtn fuel junk (of_nd d) (One w) (One m) (Some [ax1; ax2])
    = Ok [("aa", of_nd (bf "aa")); ("ad", of_nd (bf "ad")); ("da", of_nd (bf "da")); ("dd", of_nd (bf "dd"))]%string).
  { rewrite Ed, !Hbf. reflexivity. }
  rewrite Ed' in Ef.
  cbn [bind dget String.eqb Ascii.eqb Bool.eqb] in Ef. injection Ef as <-.
  rewrite !val_of_nd by (rewrite Hbf; auto). split.
  { assert (G : forall k v, String.length k = 2%nat -> v = bf k -> zlen (nshape v) = N /\ deep plan B M (l + 1) v).
    { intros k v Hk ->. rewrite Hbf. assert (E : nshape (band C k plan d) = lev_step C plan (nshape d)) by (apply (band_shape C fuel); auto).
      split; [rewrite E; unfold zlen in *; rewrite lev_step_length; auto|]. apply deep_band; auto; lia. }
    intros p v [E|[E|[E|[E|[]]]]]; injection E as <- <-;
      [apply (G "aa"%string)|apply (G "ad"%string)|apply (G "da"%string)|apply (G "dd"%string)]; reflexivity. }
  rewrite !Hbf. cbn [wp2 inv parts map dget String.eqb Ascii.eqb Bool.eqb]. unfold arg.
    cbn [dget String.eqb Ascii.eqb Bool.eqb idwt2 List.length Nat.eqb negb].
    destruct (idwtn_pr C fuel junk [("aa", of_nd (band C "aa" plan d)); ("da", of_nd (band C "da" plan d)); ("ad", of_nd (band C "ad" plan d)); ("dd", of_nd (band C "dd" plan d))]%string d (One w) (One m) (Some [ax1; ax2]) plan B) as (r & Er & Or & Vr); auto.
    + intros s Hs. rewrite (Hws s Hs). auto.
    + cbn [default_axes]. rewrite HN. auto.
    + intros k v [E|[E|[E|[E|[]]]]]; injection E as <- <-; (split; [cbn; tauto|]; split; [apply of_nd_ok|apply val_of_nd]);
        first [exact (Hbw "aa"%string)|exact (Hbw "da"%string)|exact (Hbw "ad"%string)|exact (Hbw "dd"%string)].
    + intros k [<-|[<-|[<-|[<-|[]]]]]; eexists; reflexivity.
    + cbn [map] in Er. unfold idwt2. cbn [List.length Nat.eqb negb]. rewrite Er. unfold oval. cbn [bind option_map]. rewrite Vr. reflexivity.
Qed.
Lemma wp2_pr w m ax1 ax2 s1 s2 B M N : pr_wavelet w -> zlen B = N -> resolves C N (One w) (One m) [ax1; ax2] [s1; s2] ->
  pr_class (wp2 (C := C) fuel junk w m [ax1; ax2]) M (fun l d => zlen (nshape d) = N /\ deep [s1; s2] B M l d).
Proof.
  intros Hpr HB HR. split; [discriminate|]. intros l d cs Hl Hgd Ef. pose proof Hgd as (HN & Hd).
  destruct (wp2_inv w m ax1 ax2 s1 s2 B M N Hpr HB HR l d cs Hl Hgd Ef) as (A1 & A2 & A3).
  pose proof (deep_good _ _ _ _ _ (proj2 Hl) Hd) as Hg. pose proof Hd as (Hw & Hn & _).
  split; auto. split; auto. exists (paxs C [s1; s2] d). split; [exact A3|]. cbn [wp2 trims shp cut]; apply trim_paxs; auto.
  intros s Hs. destruct Hg as (_ & _ & _ & _ & _ & G). apply (G s Hs).
Qed.
End Cls.
