(** The value of one level of iswtn, for any coefficients. *)
From Coq Require Import Ascii String Permutation.
From Verif Require Import Base BaseLemmas CConv Spec ExtLemmas Lengths LengthsProofs Dwt DwtProofs PR Linear Swt SwtSpec SwtProofs Nd NdSpec NdLinear Axis AxisProofs AxisProofs2 Multidim MultidimProofs MultidimFacts MultilevelNd SwtNd SwtNdArgs AxisOps NdSynth NdSwtSpec SwtNdBand SwtNdSlices.
From Verif Require FswAxis CwtNd PackBox.

Lemma in_product k n : forall l, In l (product k n) <-> List.length l = n /\ Forall (fun a => 0 <= a < k) l.
Proof.
  induction n as [|n IH]; intros l; cbn [product].
  - split.
    + intros [<-|[]]. auto.
    + intros (H & _). destruct l; [left; auto|discriminate].
  - rewrite in_flat_map. split.
    + intros (a & Ha & Hl). apply in_map_iff in Hl. destruct Hl as (t & <- & Ht). apply IH in Ht. destruct Ht as (H1 & H2).
      unfold tab in Ha. apply in_map_iff in Ha. destruct Ha as (i & <- & Hi). apply in_seq in Hi. split; [cbn; lia|]. constructor; auto. lia.
    + intros (H1 & H2). destruct l as [|a t]; [discriminate|]. inversion H2; subst. exists a. split.
      * unfold tab. apply in_map_iff. exists (Z.to_nat a). split; [lia|]. apply in_seq. lia.
      * apply in_map. apply IH. split; auto.
Qed.
Lemma product_nodup k n : NoDup (product k n).
Proof.
  induction n as [|n IH]; cbn [product]; [constructor; [intros []|constructor]|].
  assert (G : forall l : list Z, NoDup l -> NoDup (flat_map (fun a => map (cons a) (product k n)) l)).
  { induction l as [|a l IHl]; intros Hd; cbn [flat_map]; [constructor|]. inversion Hd; subst. apply PackBox.NoDup_app_i; auto.
    - apply FinFun.Injective_map_NoDup; auto. intros u v E. congruence.
    - intros u Hu Hv. apply in_map_iff in Hu. destruct Hu as (t & <- & _). apply in_flat_map in Hv. destruct Hv as (b & Hb & Hv).
      apply in_map_iff in Hv. destruct Hv as (t' & E & _). congruence. }
  apply G. unfold tab. apply FinFun.Injective_map_NoDup; [intros u v E; lia|apply seq_NoDup].
Qed.
Lemma length_product2 n : List.length (product 2 (S n)) = (2 * List.length (product 2 n))%nat.
Proof. cbn [product]. change (tab 2 (fun i => i)) with [0; 1]. cbn [flat_map]. rewrite !app_length, !map_length. cbn. lia. Qed.

Lemma in_dset {A} (d : dict A) k v : forall k' v', In (k', v') (dset d k v) -> (k' = k /\ v' = v) \/ In (k', v') d.
Proof.
  induction d as [|[j u] d IH]; intros k' v' H; cbn [dset] in H.
  - destruct H as [E|[]]. injection E as <- <-. auto.
  - destruct (String.eqb_spec j k) as [->|].
    + destruct H as [E|H]; [injection E as <- <-; auto|right; right; auto].
    + destruct H as [E|H]; [right; left; auto|]. destruct (IH _ _ H); auto. right; right; auto.
Qed.
Lemma dset_some {A} (d : dict A) k v : dset (map (fun '(k, v) => (k, Some v)) d) k (Some v) = map (fun '(k, v) => (k, Some v)) (dset d k v).
Proof. induction d as [|[j u] d IH]; cbn; auto. destruct (String.eqb j k); cbn; congruence. Qed.

Lemma map_const_len {A B} (c : B) : forall a b : list A, List.length a = List.length b -> map (fun _ => c) a = map (fun _ => c) b.
Proof. induction a as [|x a IH]; intros [|y b] H; cbn in *; try lia; auto. f_equal. apply IH. lia. Qed.

Section LV.
Variable C : CRing.
Add Ring Cring_ring_snv : (rth C).
Notation plan_t := (list (nat * wavelet C)).

Definition mkq (plan : plan_t) (fs os : list Z) : list (nat * wavelet C * (Z * Z)) := combine plan (combine fs os).
Lemma mkq_fst plan : forall fs os, List.length fs = List.length plan -> List.length os = List.length plan ->
  map fst (mkq plan fs os) = plan /\ map (q_f C) (mkq plan fs os) = fs /\ map (q_o C) (mkq plan fs os) = os.
Proof.
  unfold mkq. induction plan as [|p plan IH]; intros [|f fs] [|o os] H1 H2; cbn in H1, H2; try lia; cbn; auto.
  destruct (IH fs os) as (A & B & D); try lia. rewrite A, B, D. auto.
Qed.
Lemma mkq_ax plan fs os : List.length fs = List.length plan -> List.length os = List.length plan ->
  map (q_ax C) (mkq plan fs os) = map fst plan.
Proof. intros H1 H2. destruct (mkq_fst plan fs os H1 H2) as (A & _). rewrite <- A at 2. rewrite map_map. reflexivity. Qed.

Definition S2 (l : Z) (sh : list Z) (plan : plan_t) (fs os : list Z) : list slice := sls_of (List.length sh) (map (sel2 C l sh) (mkq plan fs os)).
Definition S1 (l : Z) (sh : list Z) (plan : plan_t) (fs : list Z) : list slice := sls_of (List.length sh) (map (sel1 C l sh) (mkq plan fs (map (fun _ => 0) fs))).
Definition rolls (n : Z) (axes os : list Z) (x : nd C) : nd C :=
  fold_left (fun x '(o, ax) => if o =? 0 then x else ndroll1 (Z.to_nat (if ax <? 0 then ax + n else ax)) x) (combine os axes) x.
Definition zaxes (plan : plan_t) : list Z := map (fun p => Z.of_nat (fst p)) plan.
Definition Rr (l : Z) (sh : list Z) (plan : plan_t) (fs os : list Z) (Y : string -> nd C) : nd C :=
  rolls (zlen sh) (zaxes plan) os (synth C (map (pst C) plan) (fun k => pickS C (S2 l sh plan fs os) (Y k))).
Definition resid (l : Z) (plan : plan_t) (idx : list Z) : list Z := map (fun p => nthz (fst p) idx mod 2 ^ (l - 1)) plan.
Definition ilev (half : C) (l : Z) (sh : list Z) (plan : plan_t) (Y : string -> nd C) : nd C :=
  ndtab sh (fun idx => fold_left (fun a os => a [+] ndget (Rr l sh plan (resid l plan idx) os Y) (posl idx (S1 l sh plan (resid l plan idx))))
    (product 2 (List.length plan)) r0 [*] rpow half (List.length plan)).

Definition plan_lev (fuel : nat) (l : Z) (sh : list Z) (plan : plan_t) : Prop :=
  shape_ok sh /\ prodZ sh < max_alloc /\ NoDup (map fst plan) /\
  forall p, In p plan -> (fst p < List.length sh)%nat /\ 1 <= nthz (fst p) sh /\ (2 ^ l | nthz (fst p) sh) /\ wf_bank (snd p) /\
    resources fuel (nthz (fst p) sh) (dec_len (snd p)).

Definition fs_ok (l : Z) (plan : plan_t) (fs : list Z) : Prop := In fs (product (2 ^ (l - 1)) (List.length plan)).
Definition os_ok (plan : plan_t) (os : list Z) : Prop := In os (product 2 (List.length plan)).

Section Lev.
Variables (fuel : nat) (l : Z) (sh : list Z) (plan : plan_t).
Hypothesis Hl : 1 <= l.
Hypothesis HP : plan_lev fuel l sh plan.

Lemma q_of fs os q : fs_ok l plan fs -> os_ok plan os -> In q (mkq plan fs os) -> q_ok C l sh q.
Proof.
  intros Hf Ho Hq. apply in_product in Hf. apply in_product in Ho. destruct Hf as (F1 & F2). destruct Ho as (O1 & O2).
  destruct q as ((ax, w), (f, o)). unfold mkq in Hq. pose proof (in_combine_l _ _ _ _ Hq) as Hp. pose proof (in_combine_r _ _ _ _ Hq) as Hr.
  pose proof (in_combine_l _ _ _ _ Hr) as Hff. pose proof (in_combine_r _ _ _ _ Hr) as Hoo.
  rewrite Forall_forall in F2, O2. specialize (F2 _ Hff). specialize (O2 _ Hoo).
  destruct HP as (_ & _ & _ & H). destruct (H _ Hp) as (A & B & D & W & R). cbn [fst snd] in *.
  unfold q_ok, q_ax, q_f, q_o, q_w. cbn [fst snd]. refine (conj A (conj B (conj D (conj F2 (conj _ W))))). lia.
Qed.
Lemma lens fs os : fs_ok l plan fs -> os_ok plan os -> List.length fs = List.length plan /\ List.length os = List.length plan.
Proof. intros H1 H2. apply in_product in H1. apply in_product in H2. tauto. Qed.
Lemma zeros_ok fs : fs_ok l plan fs -> os_ok plan (map (fun _ => 0) fs).
Proof.
  intros H. apply in_product in H. apply in_product. rewrite map_length. split; [tauto|].
  apply Forall_forall. intros a Ha. apply in_map_iff in Ha. destruct Ha as (? & <- & _). lia.
Qed.
Lemma mkq_nodup fs os : fs_ok l plan fs -> os_ok plan os -> NoDup (map (q_ax C) (mkq plan fs os)).
Proof. intros Hf Ho. destruct (lens fs os Hf Ho). rewrite mkq_ax by auto. apply HP. Qed.
Lemma S1_any fs os : fs_ok l plan fs -> os_ok plan os -> S1 l sh plan fs = sls_of (List.length sh) (map (sel1 C l sh) (mkq plan fs os)).
Proof.
  intros Hf Ho. destruct (lens fs os Hf Ho) as (H1 & H2). unfold S1. f_equal. unfold mkq. clear -H1 H2.
  revert fs os H1 H2. induction plan as [|p P IH]; intros [|f fs] [|o os] H1 H2; cbn in H1, H2; try lia; cbn [combine map]; auto.
  f_equal. apply IH; lia.
Qed.

(** The slices of the model. *)
Lemma slices_gen mult fs os : fs_ok l plan fs -> os_ok plan os ->
  slices (zlen sh) (zaxes plan) fs (map (fun p => nthz (fst p) sh) plan) (2 ^ (l - 1)) mult os
  = sls_of (List.length sh) (map (fun q => (q_ax C q, SRange (q_f C q + q_o C q * 2 ^ (l - 1)) (nthz (q_ax C q) sh) (mult * 2 ^ (l - 1)))) (mkq plan fs os)).
Proof.
  intros Hf Ho. destruct (lens fs os Hf Ho) as (H1 & H2). destruct (mkq_fst plan fs os H1 H2) as (A & B & D). unfold slices, zaxes, sls_of.
  unfold zlen. rewrite Nat2Z.id.
  set (L := mkq plan fs os) in *. rewrite <- A, <- B, <- D. clearbody L. clear A B D. rewrite !map_map, !combine_map.
  generalize (repeat SAll (List.length sh)). induction L as [|q L IH]; intros sl; cbn [map fold_left]; auto.
  destruct (Z.ltb_spec (Z.of_nat (fst (fst q))) 0); [lia|]. rewrite Nat2Z.id. apply IH.
Qed.
Lemma slices2 fs os : fs_ok l plan fs -> os_ok plan os ->
  slices (zlen sh) (zaxes plan) fs (map (fun p => nthz (fst p) sh) plan) (2 ^ (l - 1)) 2 os = S2 l sh plan fs os.
Proof. intros Hf Ho. rewrite slices_gen by auto. reflexivity. Qed.
Lemma slices1 fs : fs_ok l plan fs ->
  slices (zlen sh) (zaxes plan) fs (map (fun p => nthz (fst p) sh) plan) (2 ^ (l - 1)) 1 (map (fun _ => 0) fs) = S1 l sh plan fs.
Proof.
  intros Hf. pose proof (zeros_ok fs Hf) as Ho. rewrite slices_gen by auto. unfold S1. f_equal. apply map_ext_in. intros q Hq. unfold sel1.
  replace (q_o C q) with 0; [reflexivity|]. destruct (lens fs _ Hf Ho) as (H1 & H2). destruct (mkq_fst plan fs _ H1 H2) as (_ & _ & D).
  assert (G : In (q_o C q) (map (fun _ => 0) fs)) by (rewrite <- D; apply in_map; auto). apply in_map_iff in G. destruct G as (? & <- & _). reflexivity.
Qed.

Lemma S2_ok fs os : fs_ok l plan fs -> os_ok plan os -> Forall2 sl_ok sh (S2 l sh plan fs os).
Proof.
  intros Hf Ho. apply sls_ok. intros p Hp. apply in_map_iff in Hp. destruct Hp as (q & <- & Hq).
  apply (sel2_len C l sh q Hl (q_of fs os q Hf Ho Hq)).
Qed.
Lemma S1_ok fs : fs_ok l plan fs -> Forall2 sl_ok sh (S1 l sh plan fs).
Proof.
  intros Hf. apply sls_ok. intros p Hp. apply in_map_iff in Hp. destruct Hp as (q & <- & Hq).
  apply (sel1_len C l sh q Hl (q_of fs _ q Hf (zeros_ok fs Hf) Hq)).
Qed.
Lemma S_length {fs} : List.length (S1 l sh plan fs) = List.length sh.
Proof. apply sls_of_length. Qed.

Lemma resid_mkq fs os idx : List.length fs = List.length plan -> List.length os = List.length plan ->
  resid l plan idx = map (fun q => nthz (q_ax C q) idx mod 2 ^ (l - 1)) (mkq plan fs os).
Proof.
  intros H1 H2. destruct (mkq_fst plan fs os H1 H2) as (A & _). unfold resid.
  transitivity (map (fun p => nthz (fst p) idx mod 2 ^ (l - 1)) (map fst (mkq plan fs os))); [rewrite A; reflexivity|rewrite map_map; reflexivity].
Qed.

(** Positions of coset [fs]. *)
Lemma hits_resid fs idx : fs_ok l plan fs -> valid sh idx -> hits sh idx (S1 l sh plan fs) = if list_eq_dec Z.eq_dec (resid l plan idx) fs then true else false.
Proof.
  intros Hf V. pose proof (zeros_ok fs Hf) as Ho. destruct (lens fs _ Hf Ho) as (H1 & H2). destruct (mkq_fst plan fs _ H1 H2) as (A & B & D).
  pose proof (hits_iff sh idx (S1 l sh plan fs) (valid_len _ _ V) S_length) as HI.
  assert (G : hits sh idx (S1 l sh plan fs) = true <-> resid l plan idx = fs).
  { rewrite HI. pose proof (resid_mkq fs _ idx H1 H2) as RQ.
    split.
    - intros H. rewrite RQ. etransitivity; [|exact B]. apply map_ext_in. intros q Hq. pose proof (q_of fs _ q Hf Ho Hq) as Qq. pose proof Qq as (Q1 & Q2 & Q3 & Q4 & Q5 & Q6).
      specialize (H (q_ax C q) Q1). unfold S1 in H.
      pose proof (nth_sls_in (List.length sh) (map (sel1 C l sh) (mkq plan fs (map (fun _ => 0) fs))) (sel1 C l sh q)) as N.
      cbn [fst sel1] in N. rewrite N in H; [|rewrite map_map; apply mkq_nodup; auto|apply in_map; auto|auto].
      cbn [snd sel1 slice_hit] in H. rewrite Z.mul_0_l, Z.add_0_r, Z.mul_1_l in H.
      apply andb_prop in H. destruct H as (_ & H). apply Z.eqb_eq in H. change (fst (fst q)) with (q_ax C q).
      set (i := nthz (q_ax C q) idx) in *. clearbody i. set (st := 2 ^ (l - 1)) in *. clearbody st.
      assert (E : i = q_f C q + (i - q_f C q) / st * st) by (pose proof (Z_div_exact_full_2 (i - q_f C q) st); lia).
      rewrite E, Z_mod_plus_full. apply Z.mod_small. auto.
    - intros E k Hk. rewrite RQ in E. pose proof (eq_trans E (eq_sym B)) as E'. destruct (in_dec Nat.eq_dec k (map fst plan)) as [Hi|Hn].
      + rewrite <- (mkq_ax plan fs (map (fun _ => 0) fs)) in Hi by auto. apply in_map_iff in Hi. destruct Hi as (q & <- & Hq).
        pose proof (q_of fs _ q Hf Ho Hq) as Qq. pose proof Qq as (Q1 & Q2 & Q3 & Q4 & Q5 & Q6).
        pose proof (nth_sls_in (List.length sh) (map (sel1 C l sh) (mkq plan fs (map (fun _ => 0) fs))) (sel1 C l sh q)) as N.
        unfold S1. cbn [fst sel1] in N. rewrite N; [|rewrite map_map; apply mkq_nodup; auto|apply in_map; auto|auto].
        cbn [snd sel1 slice_hit]. rewrite Z.mul_0_l, Z.add_0_r, Z.mul_1_l.
        assert (Em : nthz (q_ax C q) idx mod 2 ^ (l - 1) = q_f C q).
        { pose proof (ext_in_map E' q Hq) as X. exact X. }
        pose proof (valid_nth _ _ (q_ax C q) V Hk) as Hb.
        set (i := nthz (q_ax C q) idx) in *. clearbody i. set (st := 2 ^ (l - 1)) in *. clearbody st.
        pose proof (Z.div_mod i st ltac:(lia)) as Dm. rewrite Em in Dm. assert (0 <= i / st) by (apply Z.div_pos; lia).
        assert (Z0 : (i - q_f C q) mod st = 0) by (replace (i - q_f C q) with (i / st * st) by lia; apply Z_mod_mult).
        rewrite Z0. assert (q_f C q <= i) by nia.
        destruct (Z.leb_spec (q_f C q) i); [|lia]. destruct (Z.ltb_spec i (nthz (q_ax C q) sh)); [|lia]. reflexivity.
      + unfold S1. rewrite nth_sls_ne; [reflexivity|]. rewrite map_map. change (map (fun x => fst (sel1 C l sh x))) with (map (q_ax C)).
        rewrite mkq_ax; auto. }
  destruct (list_eq_dec Z.eq_dec (resid l plan idx) fs) as [E|E].
  - apply G. auto.
  - destruct (hits sh idx (S1 l sh plan fs)); auto. exfalso. apply E. apply G. auto.
Qed.

(** The even/odd selection of coset [fs] reads coset [fs]. *)
Lemma resid_S2 fs os idx : fs_ok l plan fs -> os_ok plan os -> valid (sel_shape sh (S2 l sh plan fs os)) idx ->
  resid l plan (sl_off (S2 l sh plan fs os) idx) = fs.
Proof.
  intros Hf Ho V. destruct (lens fs _ Hf Ho) as (H1 & H2). destruct (mkq_fst plan fs _ H1 H2) as (A & B & D).
  assert (Ls : List.length (S2 l sh plan fs os) = List.length sh) by apply sls_of_length.
  assert (Li : List.length idx = List.length (S2 l sh plan fs os)) by (rewrite (valid_len _ _ V), sel_shape_len; auto).
  rewrite (resid_mkq fs os) by auto. etransitivity; [|exact B]. apply map_ext_in. intros q Hq.
  pose proof (q_of fs _ q Hf Ho Hq) as Qq. pose proof Qq as (Q1 & Q2 & Q3 & Q4 & Q5 & Q6).
  rewrite nthz_sl_off by (auto; rewrite Ls; auto).
  pose proof (nth_sls_in (List.length sh) (map (sel2 C l sh) (mkq plan fs os)) (sel2 C l sh q)) as N.
  unfold S2. cbn [fst sel2] in N. rewrite N; [|rewrite map_map; apply mkq_nodup; auto|apply in_map; auto|auto].
  cbn [snd sel2 slice_start slice_step].
  replace (q_f C q + q_o C q * 2 ^ (l - 1) + 2 * 2 ^ (l - 1) * nthz (q_ax C q) idx) with (q_f C q + (q_o C q + 2 * nthz (q_ax C q) idx) * 2 ^ (l - 1)) by ring.
  rewrite Z_mod_plus_full. apply Z.mod_small. auto.
Qed.
Lemma resid_ok idx : valid sh idx -> fs_ok l plan (resid l plan idx).
Proof.
  intros V. apply in_product. unfold resid. rewrite map_length. split; auto. apply Forall_forall. intros a Ha.
  apply in_map_iff in Ha. destruct Ha as (p & <- & Hp). apply Z.mod_pos_bound. pose proof (pow2_pos (l - 1)). lia.
Qed.

(** Shapes. *)
Lemma fold_ssh_ne (P : list (step C)) : forall s k, ~ In k (map (st_ax C) P) -> nthz k (fold_left (fun sh s => ssh C s sh) P s) = nthz k s.
Proof.
  induction P as [|t P IH]; intros s k H; cbn [fold_left]; auto. cbn [map In] in H. rewrite IH by tauto. unfold ssh. apply nthz_setn_ne.
  intros E; apply H; left; auto.
Qed.
Lemma fold_ssh_len (P : list (step C)) : forall s, List.length (fold_left (fun sh s => ssh C s sh) P s) = List.length s.
Proof. induction P as [|t P IH]; intros s; cbn [fold_left]; auto. rewrite IH. unfold ssh. apply setn_length. Qed.
Lemma fold_ssh_in (P : list (step C)) : forall s t, NoDup (map (st_ax C) P) -> In t P -> (st_ax C t < List.length s)%nat ->
  nthz (st_ax C t) (fold_left (fun sh s => ssh C s sh) P s) = rec_len (st_m C t) (nthz (st_ax C t) s) (dec_len (st_w C t)).
Proof.
  induction P as [|u P IH]; intros s t Hd Hi Hl'; cbn [In] in Hi; [tauto|]. cbn [map] in Hd. inversion Hd; subst. cbn [fold_left].
  destruct Hi as [-> | Hi].
  - rewrite fold_ssh_ne by auto. unfold ssh. apply nthz_setn. auto.
  - rewrite IH; auto; [|unfold ssh; rewrite setn_length; auto]. f_equal. unfold ssh. apply nthz_setn_ne. intros E. apply H1. rewrite <- E. apply in_map. auto.
Qed.

Lemma sel_nth (sel : (nat * wavelet C * (Z * Z)) -> nat * slice) fs os k : fs_ok l plan fs -> os_ok plan os -> (forall q, fst (sel q) = q_ax C q) ->
  (k < List.length sh)%nat ->
  nthz k (sel_shape sh (sls_of (List.length sh) (map sel (mkq plan fs os)))) =
  slice_len (nthz k sh) (nth k (sls_of (List.length sh) (map sel (mkq plan fs os))) SAll).
Proof. intros Hf Ho Hs Hk. apply sel_shape_nth; auto. apply sls_of_length. Qed.

Lemma synth_sel_shape fs os (Y : string -> nd C) : fs_ok l plan fs -> os_ok plan os ->
  (forall k, In k (ad_keys (List.length plan)) -> nshape (Y k) = sh) ->
  nshape (synth C (map (pst C) plan) (fun k => pickS C (S2 l sh plan fs os) (Y k))) = sel_shape sh (S1 l sh plan fs).
Proof.
  intros Hf Ho HY. destruct (lens fs _ Hf Ho) as (H1 & H2).
  rewrite (synth_shape C (map (pst C) plan) _ (sel_shape sh (S2 l sh plan fs os))).
  2:{ intros k Hk. rewrite map_length in Hk. cbn [nshape pickS ndtab]. rewrite HY by auto. reflexivity. }
  2:{ intros s Hs. apply in_map_iff in Hs. destruct Hs as (p & <- & Hp). destruct HP as (_ & _ & _ & H). apply (H p Hp). }
  rewrite (S1_any fs os) by auto.
  assert (Lq : forall sel, List.length (sls_of (List.length sh) (map sel (mkq plan fs os))) = List.length sh) by (intros; apply sls_of_length).
  apply CwtNd.nthz_ext; [rewrite fold_ssh_len, !sel_shape_len by apply Lq; auto|]. intros k Hk. rewrite fold_ssh_len, sel_shape_len in Hk by apply Lq.
  assert (Nax : map (st_ax C) (map (pst C) plan) = map fst plan) by (rewrite map_map; reflexivity).
  destruct (in_dec Nat.eq_dec k (map fst plan)) as [Hi|Hn].
  - rewrite <- (mkq_ax plan fs os) in Hi by auto. apply in_map_iff in Hi. destruct Hi as (q & <- & Hq).
    pose proof (q_of fs _ q Hf Ho Hq) as Qq.
    assert (Hp : In (fst q) plan) by (destruct (mkq_fst plan fs os H1 H2) as (A & _); rewrite <- A; apply in_map; auto).
    pose proof (fold_ssh_in (rev (map (pst C) plan)) (sel_shape sh (S2 l sh plan fs os)) (pst C (fst q))) as F. cbn [st_ax st_w st_m pst fst snd] in F.
    change (fst (fst q)) with (q_ax C q) in F. rewrite F.
    + unfold S2. rewrite !sel_nth by auto.
      pose proof (nth_sls_in (List.length sh) (map (sel2 C l sh) (mkq plan fs os)) (sel2 C l sh q)) as N2.
      pose proof (nth_sls_in (List.length sh) (map (sel1 C l sh) (mkq plan fs os)) (sel1 C l sh q)) as N1.
      cbn [fst sel1 sel2] in N1, N2.
      rewrite N1; [|rewrite map_map; apply mkq_nodup; auto|apply in_map; auto|auto].
      rewrite N2; [|rewrite map_map; apply mkq_nodup; auto|apply in_map; auto|auto].
      destruct (sel2_len C l sh q Hl Qq) as (A1 & A2 & A3 & A4). destruct (sel1_len C l sh q Hl Qq) as (B1 & B2 & B3 & B4).
      cbn [snd sel1 sel2] in A1, B1 |- *. rewrite A1, B1, A3. cbn [rec_len]. reflexivity.
    + rewrite map_rev, Nax. apply NoDup_rev. apply HP.
    + apply in_rev. rewrite rev_involutive. apply in_map. auto.
    + rewrite sel_shape_len by apply Lq. auto.
  - rewrite fold_ssh_ne by (rewrite map_rev, Nax; intros Hi; apply in_rev in Hi; auto).
    unfold S2. rewrite !sel_nth by auto. rewrite !nth_sls_ne; auto; rewrite map_map;
      [change (map (fun x => fst (sel1 C l sh x))) with (map (q_ax C))|change (map (fun x => fst (sel2 C l sh x))) with (map (q_ax C))]; rewrite mkq_ax; auto.
Qed.
Lemma rolls_shape n axes os (x : nd C) : nshape (rolls n axes os x) = nshape x.
Proof.
  unfold rolls. generalize (combine os axes). intros L. revert x. induction L as [|[o ax] L IH]; intros x; cbn [fold_left]; auto.
  rewrite IH. destruct (o =? 0); reflexivity.
Qed.
Lemma rolls_wf n axes os (x : nd C) : nd_wf x -> nd_wf (rolls n axes os x).
Proof.
  unfold rolls. generalize (combine os axes). intros L. revert x. induction L as [|[o ax] L IH]; intros x Hx; cbn [fold_left]; auto.
  apply IH. destruct (o =? 0); auto. apply ndtab_wf. apply Hx.
Qed.

Lemma syn_good_sel fs os : fs_ok l plan fs -> os_ok plan os -> syn_good C fuel sh (sel_shape sh (S2 l sh plan fs os)) (map (pst C) plan).
Proof.
  intros Hf Ho. destruct (lens fs _ Hf Ho) as (H1 & H2). pose proof HP as (P1 & P2 & P3 & P4).
  assert (Ls : List.length (S2 l sh plan fs os) = List.length sh) by apply sls_of_length.
  assert (Hin : forall q, In q (mkq plan fs os) -> nthz (q_ax C q) (sel_shape sh (S2 l sh plan fs os)) = nthz (q_ax C q) sh / (2 * 2 ^ (l - 1))).
  { intros q Hq. pose proof (q_of fs _ q Hf Ho Hq) as Qq. unfold S2. rewrite sel_nth by (auto; apply Qq).
    pose proof (nth_sls_in (List.length sh) (map (sel2 C l sh) (mkq plan fs os)) (sel2 C l sh q)) as N2. cbn [fst sel2] in N2.
    rewrite N2; [|rewrite map_map; apply mkq_nodup; auto|apply in_map; auto|apply Qq].
    apply (sel2_len C l sh q Hl Qq). }
  assert (Hle : forall q, In q (mkq plan fs os) -> 2 * (nthz (q_ax C q) sh / (2 * 2 ^ (l - 1))) <= nthz (q_ax C q) sh).
  { intros q Hq. pose proof (q_of fs _ q Hf Ho Hq) as Qq. destruct (sel2_len C l sh q Hl Qq) as (A1 & A2 & A3 & A4).
    rewrite <- A3. destruct (q_pow C l sh q Hl Qq) as (R1 & R2 & R3 & R4). destruct Qq as (_ & Q2 & _).
    apply Z.div_le_upper_bound; [lia|]. nia. }
  split; [auto|]. split; [rewrite sel_shape_len; auto|]. split; [apply sel_shape_ok; auto|]. split; [|split].
  - intros k. destruct (lt_dec k (List.length sh)) as [Hk|Hk].
    + destruct (in_dec Nat.eq_dec k (map fst plan)) as [Hi|Hn].
      * rewrite <- (mkq_ax plan fs os) in Hi by auto. apply in_map_iff in Hi. destruct Hi as (q & <- & Hq). rewrite Hin by auto.
        specialize (Hle q Hq). destruct (sel2_len C l sh q Hl (q_of fs _ q Hf Ho Hq)) as (A1 & A2 & A3 & A4). lia.
      * unfold S2. rewrite sel_nth by auto. rewrite nth_sls_ne; [cbn; lia|]. rewrite map_map. change (map (fun x => fst (sel2 C l sh x))) with (map (q_ax C)).
        rewrite mkq_ax; auto.
    + unfold nthz. rewrite !nth_overflow by (rewrite ?sel_shape_len; auto; lia). lia.
  - rewrite map_map. exact P3.
  - intros s Hs. apply in_map_iff in Hs. destruct Hs as (p & <- & Hp). cbn [st_ax st_w st_m pst fst snd].
    destruct (P4 p Hp) as (A & B & D & W & R).
    assert (Hq : exists q, In q (mkq plan fs os) /\ fst q = p).
    { destruct (mkq_fst plan fs os H1 H2) as (Em & _). rewrite <- Em in Hp. apply in_map_iff in Hp. destruct Hp as (q & E & Hq). eauto. }
    destruct Hq as (q & Hq & <-). pose proof (Hin q Hq) as I. pose proof (Hle q Hq) as I2. unfold q_ax in I, I2.
    destruct (sel2_len C l sh q Hl (q_of fs _ q Hf Ho Hq)) as (A1 & A2 & A3 & A4). unfold q_ax in A2.
    split; [rewrite sel_shape_len; auto|]. rewrite I. cbn [rec_len]. split; [|exact I2].
    split; auto. split; [|split; [exact A2|cbn [rec_len]; lia]].
    destruct R as (R1 & R2). split; lia.
Qed.

(** ** One offset combination *)
Definition details_ok (D : dict (sarr C)) (Y : string -> nd C) : Prop :=
  (forall k v, In (k, v) D -> In k (ad_keys (List.length plan)) /\ k <> all_a (List.length plan) /\ sarr_ok C v /\ sshape v = sh /\ val C v = Y k) /\
  (forall k, In k (ad_keys (List.length plan)) -> k <> all_a (List.length plan) -> exists v, dget D k = Some v).

Lemma all_a_in n : In (all_a n) (ad_keys n).
Proof. induction n as [|n IH]; cbn; auto. apply in_or_app. left. apply in_map. auto. Qed.

Theorem odds_spec junk (D : dict (sarr C)) (Y : string -> nd C) (approx output : nd C) fs os :
  details_ok D Y -> nshape (Y (all_a (List.length plan))) = sh -> fs_ok l plan fs -> os_ok plan os ->
  nd_wf approx -> nshape approx = sh -> pickS C (S2 l sh plan fs os) approx = pickS C (S2 l sh plan fs os) (Y (all_a (List.length plan))) ->
  nshape output = sh ->
  iswtn_odds fuel junk (zaxes plan) (map snd plan) (List.length plan) D approx fs (map (fun p => nthz (fst p) sh) plan) (2 ^ (l - 1)) output os
  = Ok (assign output (S1 l sh plan fs) (fun v p => v [+] ndget (Rr l sh plan fs os Y) p)).
Proof.
  intros (HD1 & HD2) HYa Hf Ho Wap Sap Hap Hout. unfold iswtn_odds. rewrite Hout, slices2 by auto.
  assert (Hk : Forall2 sl_ok sh (S2 l sh plan fs os)) by (apply S2_ok; auto).
  (* views of the details *)
  assert (HV : exists DV : dict (sarr C), mapM (fun '(k, v) => v' <- sview v (S2 l sh plan fs os) ;; Ok (k, Some v')) D = Ok (map (fun '(k, v) => (k, Some v)) DV) /\
    (forall k v, In (k, v) DV -> In k (ad_keys (List.length plan)) /\ k <> all_a (List.length plan) /\ sarr_ok C v /\ sshape v = sel_shape sh (S2 l sh plan fs os) /\ val C v = pickS C (S2 l sh plan fs os) (Y k)) /\
    (forall k, (exists v, dget D k = Some v) -> exists v, dget DV k = Some v)).
  { clear HD2. induction D as [|[k v] D IH]; cbn [mapM].
    - exists []. cbn. split; auto. split; [tauto|]. intros k (v & E). discriminate.
    - destruct (HD1 k v (or_introl eq_refl)) as (K1 & K2 & K3 & K4 & K5).
      destruct (sview_spec C v (S2 l sh plan fs os)) as (v' & E & O & S & V); [auto|rewrite K4; auto|].
      rewrite E. cbn [bind]. destruct IH as (DV & E2 & G1 & G2); [intros; apply HD1; right; auto|]. rewrite E2. cbn [bind].
      exists ((k, v') :: DV). split; [reflexivity|]. split.
      + intros k' u [Eu|Hu]; [|auto]. injection Eu as <- <-. rewrite K4 in S. rewrite K5 in V. auto.
      + intros k' (u & Eu). cbn [dget] in Eu |- *. destruct (String.eqb k k'); [eauto|]. apply G2. eauto. }
  destruct HV as (DV & E & V1 & V2). rewrite E. cbn [bind].
  destruct (sview_spec C (of_nd approx) (S2 l sh plan fs os)) as (a' & E2 & O2 & Sh2 & Va2); [apply of_nd_ok; auto|cbn; rewrite Sap; auto|].
  rewrite E2. cbn [bind]. rewrite dset_some.
  assert (Sa' : sshape (of_nd approx) = sh) by (cbn; auto). rewrite Sa' in Sh2. rewrite val_of_nd in Va2 by auto.
  destruct (idwtn_synth C fuel junk (dset DV (all_a (List.length plan)) a') (fun k => pickS C (S2 l sh plan fs os) (Y k)) (Seq (map snd plan)) (One PERIODIZATION)
    (Some (zaxes plan)) (map (pst C) plan) sh (sel_shape sh (S2 l sh plan fs os))) as (r & Er & Or & Vr).
  - apply syn_good_sel; auto.
  - split; [|split; rewrite map_length].
    + cbn [default_axes]. unfold norm_axes, zaxes. rewrite !map_map. apply map_ext. intros p. cbn [pst st_ax fst].
      destruct (Z.ltb_spec (Z.of_nat (fst p)) 0); [lia|reflexivity].
    + rewrite map_map. change (fun x => st_w C (pst C x)) with (fun x : nat * wavelet C => snd x).
      destruct plan as [|p [|p2 P]]; try reflexivity. cbn [map List.length]. unfold objs_per_axis. cbn [List.length]. rewrite map_length, Nat.eqb_refl. reflexivity.
    + rewrite map_map. cbn [st_m pst snd objs_per_axis]. f_equal. clear. induction plan; cbn; congruence.
  - rewrite map_length. intros k v Hi. apply in_dset in Hi. destruct Hi as [(-> & ->)|Hi].
    + split; [apply all_a_in|]. split; auto. split; auto. rewrite Va2. auto.
    + destruct (V1 k v Hi) as (K1 & K2 & K3 & K4 & K5). auto.
  - rewrite map_length. intros k Hkk. rewrite dget_dset. destruct (String.eqb_spec (all_a (List.length plan)) k); [eauto|]. apply V2. apply HD2; auto.
  - rewrite Er. cbn [bind]. rewrite Vr.
    replace (map (fun _ : Z => 0) os) with (map (fun _ : Z => 0) fs)
      by (destruct (lens fs os Hf Ho) as (L1 & L2); apply map_const_len; congruence).
    rewrite slices1 by auto. fold (rolls (zlen sh) (zaxes plan) os (synth C (map (pst C) plan) (fun k => pickS C (S2 l sh plan fs os) (Y k)))).
    fold (Rr l sh plan fs os Y). unfold add_at. rewrite Hout.
    assert (SR : nshape (Rr l sh plan fs os Y) = sel_shape sh (S1 l sh plan fs)).
    { unfold Rr. rewrite rolls_shape. apply synth_sel_shape; auto. intros k Hkk. destruct (string_dec k (all_a (List.length plan))) as [-> | Hne]; auto.
      destruct (HD2 k Hkk Hne) as (v & Hv). destruct (HD1 k v (dget_In _ _ _ Hv)) as (_ & _ & _ & K4 & K5). rewrite <- K5, nshape_val. auto. }
    rewrite SR. unfold shape_eqb. destruct (list_eq_dec _ _ _) as [_|Hn]; [reflexivity|congruence].
Qed.

End Lev.
End LV.
