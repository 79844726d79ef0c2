(** Distances of n-dimensional data and of their coefficients (orthonormal
    banks, periodization mode). *)
From Coq Require Import Ascii String.
From Verif Require Import Base BaseLemmas CConv Spec ExtLemmas Lengths LengthsProofs Dwt DwtProofs PR Linear Swt SwtSpec SwtProofs Nd NdSpec NdLinear Axis AxisProofs AxisProofs2 Multidim MultidimProofs MultidimFacts Multilevel MultilevelProofs Facts1 MultilevelNd MultilevelNdProofs MultilevelNdFacts SwtNd SwtNdArgs AxisOps NdSynth NdSwtSpec SwtNdBand SwtNdSlices SwtNdLevel SwtNdLevel2 SwtNdFwd SwtNdInv Mra MraProofs MranLoop MranSum MranAdd MranSwt MranDwt Cyclic CyclicMain CyclicNd ParsevalNd DenoiseNdSpec.
Open Scope list_scope. Open Scope Z_scope.

Section P.
Variable C : CRing.
Add Ring Cring_ring_dnd : (rth C).
Variable fuel : nat.
Notation step := (step C).
Notation lev := (lev_shape C).
Notation lsum := (lsum C).
Notation ndinner := (ndinner C).
Notation orthonormal_levels := (orthonormal_levels C).
Notation two := (r1 [+] r1 : C).

Lemma ndsum_comb sh : forall (f g h : list Z -> C), ndsum C sh (fun i => f i [-] two [*] g i [+] h i) = ndsum C sh f [-] two [*] ndsum C sh g [+] ndsum C sh h.
Proof.
  induction sh as [|n t IH]; intros f g h; cbn [ndsum]; [reflexivity|].
  rewrite <- sumZ_scal, <- sumZ_sub, <- sumZ_add. apply sumZ_ext. intros i _. apply IH.
Qed.
Lemma nddist2_inner (u v : nd C) : nshape v = nshape u -> nddist2 u v = ndinner u u [-] two [*] ndinner u v [+] ndinner v v.
Proof.
  intros H. unfold nddist2, ParsevalNd.ndinner. rewrite H, <- ndsum_comb. apply ndsum_ext. intros idx _. ring.
Qed.
Lemma lsum_comb {A} (f g h : A -> C) l : lsum (map (fun k => f k [-] two [*] g k [+] h k) l) = lsum (map f l) [-] two [*] lsum (map g l) [+] lsum (map h l).
Proof.
  induction l as [|k l IH]; cbn [map]; [cbn; ring|].
  repeat match goal with |- context [lsum (?a :: ?t)] => change (lsum (a :: t)) with (a [+] lsum t) end. rewrite IH. ring.
Qed.

Lemma band_dist plan (x y : nd C) : dual_plan C plan plan (nshape x) -> plan_ok C fuel plan (nshape x) -> nd_wf x -> nd_wf y -> nshape y = nshape x ->
  lsum (map (fun k => nddist2 (band C k plan x) (band C k plan y)) (ad_keys (List.length plan))) = nddist2 x y.
Proof.
  intros HO HP Wx Wy HS. rewrite nddist2_inner by auto.
  rewrite <- (band_inner C fuel plan plan x y HO Wx Wy HS), <- (band_inner C fuel plan plan x x HO Wx Wx eq_refl).
  rewrite <- (band_inner C fuel plan plan y y) by (rewrite ?HS; auto). rewrite <- lsum_comb. f_equal. apply map_ext_in. intros k Hk.
  apply ad_keys_length in Hk. apply nddist2_inner. rewrite !(band_shape C fuel) by (rewrite ?HS; auto). rewrite HS. reflexivity.
Qed.
Lemma appr_dist plan B N (x y : nd C) : nd_wf x -> nd_wf y -> nshape y = nshape x -> levels_good C fuel B (nshape x) plan N -> dual_levels C plan plan (nshape x) N ->
  forall n, (n <= N)%nat ->
  nddist2 (appr C plan n x) (appr C plan n y) [+]
  lsum (map (fun j => lsum (map (fun k => nddist2 (band C k plan (appr C plan j x)) (band C k plan (appr C plan j y))) (tl (ad_keys (List.length plan))))) (seq 0 n))
  = nddist2 x y.
Proof.
  intros Wx Wy HS HG HO. induction n as [|n IH]; intros Hn; [change (nddist2 x y [+] r0 = nddist2 x y); ring|].
  rewrite <- IH by lia. rewrite seq_S, map_app, lsum_app. cbn [map Nat.add appr].
  destruct (appr_wf C fuel plan B n x Wx) as (Wn & Sn); [intros j Hj; apply HG; lia|].
  destruct (appr_wf C fuel plan B n y Wy) as (Wn' & Sn'); [rewrite HS; intros j Hj; apply HG; lia|]. rewrite HS in Sn'.
  rewrite <- (band_dist plan (appr C plan n x) (appr C plan n y)); auto;
    [|rewrite Sn; apply (level_dual C fuel plan plan (nshape x) B N n); auto|rewrite Sn; apply (plan_good_ok _ _ _ _ _ (HG n ltac:(lia)))|congruence].
  rewrite ad_keys_head. cbn [map tl]. set (u := map _ (tl _)). set (v := lsum (map _ (seq 0 n))).
  change (lsum [lsum u]) with (lsum u [+] r0). set (b := nddist2 _ _). change (lsum (b :: u)) with (b [+] lsum u). ring.
Qed.

(** The value of wavedecn. *)
Lemma orth_dual plan sh N : orthonormal_levels plan sh N -> dual_levels C plan plan sh N.
Proof.
  intros H. unfold dual_levels. induction plan as [|s p IH]; constructor.
  - destruct (H s (or_introl eq_refl)) as (M & O & D). repeat split; auto; apply (orthonormal_dual C); auto.
  - apply IH. intros t Ht. apply H. right. auto.
Qed.
Lemma orth_good plan sh N B : orthonormal_levels plan sh N -> plan_good C fuel B sh plan -> levels_good C fuel B sh plan N /\
  (forall s, In s plan -> levels_ok (st_m C s) (dec_len (st_w C s)) N (nthz (st_ax C s) sh)).
Proof.
  intros HO HG. assert (Hl : forall s, In s plan -> levels_ok (st_m C s) (dec_len (st_w C s)) N (nthz (st_ax C s) sh)).
  { intros s Hs. pose proof HG as (_ & _ & _ & _ & _ & H6). destruct (H6 s Hs) as ((_ & Hw & Hm & _) & _). destruct (HO s Hs) as (M & _).
    apply levels_ok_intro; auto; [apply Hw|rewrite M; auto]. }
  split; auto. apply levels_good_intro; auto.
Qed.
Lemma wavedecn_value junk (x : sarr C) w m axes plan B N : sarr_ok C x -> 1 <= ndim x <= 64 -> plan <> [] ->
  resolves C (ndim x) w m (default_axes (ndim x) axes) plan -> plan_good C fuel B (sshape x) plan -> orthonormal_levels plan (sshape x) N ->
  exists a, wavedecn fuel junk x w m (Some (Z.of_nat N)) axes = Ok (a, map (fun j => det C plan (appr C plan j (val C x))) (rev (seq 0 N))) /\
    sarr_ok C a /\ val C a = appr C plan N (val C x).
Proof.
  intros Ox Hn Hne HR HG HO. destruct (orth_good plan (sshape x) N B HO HG) as (HL & Hl).
  assert (Hc : check_level (level_pairs C (sshape x) plan) (Some (Z.of_nat N)) = Ok (Z.of_nat N)).
  { unfold check_level. destruct plan as [|s p]; [congruence|]. unfold level_pairs. cbn [map list_min]. replace (Z.of_nat N <? 0) with false by lia. reflexivity. }
  destruct (wavedecn_spec C fuel junk x w m (Some (Z.of_nat N)) axes plan B (Z.of_nat N)) as (a & Ea & Oa & Va); auto; [rewrite Nat2Z.id; auto|].
  rewrite Nat2Z.id in *. exists a. auto.
Qed.
Lemma ddist2_bands plan (x y : nd C) l : (forall k, In k l -> nd_wf (band C k plan x) /\ nd_wf (band C k plan y)) ->
  ddist2 (map (fun k => (k, of_nd (band C k plan x))) l) (map (fun k => (k, of_nd (band C k plan y))) l) = lsum (map (fun k => nddist2 (band C k plan x) (band C k plan y)) l).
Proof.
  intros H. induction l as [|k t IH]; [reflexivity|]. cbn [map ddist2]. destruct (H k (or_introl eq_refl)) as (W1 & W2). rewrite !val_of_nd by auto.
  rewrite IH by (intros; apply H; right; auto). reflexivity.
Qed.

Theorem wavedecn_dist junk (x y : sarr C) w m axes plan B N : sarr_ok C x -> sarr_ok C y -> sshape y = sshape x -> 1 <= ndim x <= 64 -> plan <> [] ->
  resolves C (ndim x) w m (default_axes (ndim x) axes) plan -> plan_good C fuel B (sshape x) plan -> orthonormal_levels plan (sshape x) N ->
  exists a X b Y, wavedecn fuel junk x w m (Some (Z.of_nat N)) axes = Ok (a, X) /\ wavedecn fuel junk y w m (Some (Z.of_nat N)) axes = Ok (b, Y) /\
    sshape b = sshape a /\ Forall2 alike X Y /\ nddist2 (val C a) (val C b) [+] ddist2s X Y = nddist2 (val C x) (val C y).
Proof.
  intros Ox Oy HS Hn Hne HR HG HO. assert (Hny : ndim y = ndim x) by (unfold ndim; rewrite HS; auto).
  destruct (orth_good plan (sshape x) N B HO HG) as (HL & Hl).
  destruct (wavedecn_value junk x w m axes plan B N) as (a & Ea & Oa & Va); auto.
  destruct (wavedecn_value junk y w m axes plan B N) as (b & Eb & Ob & Vb); rewrite ?Hny, ?HS; auto.
  assert (Wx := val_wf C x Ox). assert (Wy := val_wf C y Oy).
  assert (HA : forall j, (j <= N)%nat -> nd_wf (appr C plan j (val C x)) /\ nd_wf (appr C plan j (val C y)) /\ nshape (appr C plan j (val C x)) = lev plan j (sshape x) /\ nshape (appr C plan j (val C y)) = lev plan j (sshape x)).
  { intros j Hj. destruct (appr_wf C fuel plan B j (val C x) Wx) as (Wn & Sn); [rewrite nshape_val; intros q Hq; apply HL; lia|].
    destruct (appr_wf C fuel plan B j (val C y) Wy) as (Wn' & Sn'); [rewrite nshape_val, HS; intros q Hq; apply HL; lia|]. rewrite nshape_val in *. rewrite HS in Sn'. auto. }
  assert (HB : forall j k, (j < N)%nat -> In k (ad_keys (List.length plan)) -> (nd_wf (band C k plan (appr C plan j (val C x))) /\ nd_wf (band C k plan (appr C plan j (val C y)))) /\
    nshape (band C k plan (appr C plan j (val C y))) = nshape (band C k plan (appr C plan j (val C x)))).
  { intros j k Hj Hk. destruct (HA j ltac:(lia)) as (W1 & W2 & S1 & S2). pose proof (plan_good_ok _ _ _ _ _ (HL j Hj)) as Hpo.
    split; [split; apply (band_wf C fuel); auto; rewrite ?S1, ?S2; auto|]. apply ad_keys_length in Hk. rewrite !(band_shape C fuel) by (rewrite ?S1, ?S2; auto). rewrite S1, S2. reflexivity. }
  eexists _, _, _, _. split; [exact Ea|]. split; [exact Eb|]. split.
  { rewrite <- (nshape_val C b), <- (nshape_val C a), Va, Vb. destruct (HA N ltac:(lia)) as (_ & _ & -> & ->). reflexivity. }
  split.
  { assert (G : forall l, (forall j, In j l -> (j < N)%nat) -> Forall2 alike (map (fun j => det C plan (appr C plan j (val C x))) l) (map (fun j => det C plan (appr C plan j (val C y))) l)).
    { intros l Hl'. induction l as [|j t IH]; cbn [map]; constructor; [|apply IH; intros; apply Hl'; right; auto]. unfold det, alike. specialize (HB j). specialize (Hl' j (or_introl eq_refl)).
      assert (HK : forall k, In k (tl (ad_keys (List.length plan))) -> In k (ad_keys (List.length plan))) by (intros k Hk; apply tl_keys in Hk; apply Hk).
      induction (tl (ad_keys (List.length plan))) as [|k ks IHk]; cbn [map]; constructor; [|apply IHk; intros; apply HK; right; auto].
      destruct (HB k Hl' (HK k (or_introl eq_refl))) as ((W1 & W2) & Sh). cbn [fst snd]. split; auto. split; [apply of_nd_ok; auto|]. exact Sh. }
    apply G. intros j Hj. apply in_rev in Hj. apply in_seq in Hj. lia. }
  rewrite Va, Vb, <- (appr_dist plan B N (val C x) (val C y)) with (n := N); rewrite ?nshape_val; auto using orth_dual. f_equal.
  rewrite <- lsum_rev, <- map_rev.
  assert (G : forall l, (forall j, In j l -> (j < N)%nat) -> ddist2s (map (fun j => det C plan (appr C plan j (val C x))) l) (map (fun j => det C plan (appr C plan j (val C y))) l)
    = lsum (map (fun j => lsum (map (fun k => nddist2 (band C k plan (appr C plan j (val C x))) (band C k plan (appr C plan j (val C y)))) (tl (ad_keys (List.length plan))))) l)).
  { intros l Hl'. induction l as [|j t IHl]; [reflexivity|]. cbn [map ddist2s]. unfold det at 1 2. rewrite ddist2_bands.
    - rewrite IHl by (intros; apply Hl'; right; auto). reflexivity.
    - intros k Hk. apply tl_keys in Hk. apply HB; [apply Hl'; left; auto|apply Hk]. }
  apply G. intros j Hj. apply in_rev in Hj. apply in_seq in Hj. lia.
Qed.

(** * Changed coefficients *)
Definition vals (d : dict (sarr C)) : list (nd C) := map (fun p => val C (snd p)) d.
Lemma cons_eq {A} (a b : A) l l' : a :: l = b :: l' -> a = b /\ l = l'.
Proof. intros H. injection H. auto. Qed.
Lemma ddist2_vals d : forall e e', vals e = vals e' -> ddist2 d e = ddist2 d e'.
Proof.
  induction d as [|(k & u) d IH]; intros [|(k1 & v1) e] [|(k2 & v2) e'] H; try discriminate; auto. unfold vals in H. cbn [map snd] in H. apply cons_eq in H. destruct H as (H1 & H2).
  cbn [ddist2]. rewrite H1, (IH e e') by auto. reflexivity.
Qed.
Lemma ddist2s_vals X : forall Y Y', map vals Y = map vals Y' -> ddist2s X Y = ddist2s X Y'.
Proof.
  induction X as [|d X IH]; intros [|e Y] [|e' Y'] H; try discriminate; auto. cbn [map] in H. apply cons_eq in H. destruct H as (H1 & H2).
  cbn [ddist2s]. rewrite (ddist2_vals d e e'), (IH Y Y') by auto. reflexivity.
Qed.
Lemma vals_fun (f : string -> nd C) d : NoDup (map fst d) -> (forall k v, dget d k = Some v -> val C v = f k) -> vals d = map f (map fst d).
Proof.
  induction d as [|(k & v) d IH]; intros Hn H; [reflexivity|]. cbn [map fst] in Hn. inversion Hn as [|? ? Hni Hn']; subst. cbn [vals map snd fst]. f_equal.
  - apply H. cbn [dget]. rewrite String.eqb_refl. reflexivity.
  - apply IH; auto. intros k' v' Hg. apply H. cbn [dget]. destruct (String.eqb_spec k k') as [->|]; auto. exfalso. apply Hni. eapply dget_key; eauto.
Qed.
Lemma hold_vals N shs K Y Y' V : NoDup K -> ds_hold C N shs K Y V -> ds_hold C N shs K Y' V -> map vals Y = map vals Y'.
Proof.
  intros HK (L & H) (L' & H'). apply nth_ext with (d := []) (d' := []); [rewrite !map_length; lia|]. rewrite map_length. intros j Hj.
  destruct (nth_error Y j) as [d|] eqn:E; [|apply nth_error_None in E; lia]. destruct (nth_error Y' j) as [d'|] eqn:E'; [|apply nth_error_None in E'; lia].
  rewrite (nth_error_nth (map vals Y) j [] (map_nth_error vals j Y E)), (nth_error_nth (map vals Y') j [] (map_nth_error vals j Y' E')).
  destruct (H j d E) as (K1 & V1). destruct (H' j d' E') as (K2 & V2).
  rewrite (vals_fun (V j) d); [|rewrite K1; auto|intros k v Hg; apply V1; auto]. rewrite (vals_fun (V j) d'); [|rewrite K2; auto|intros k v Hg; apply V2; auto].
  rewrite K1, K2. reflexivity.
Qed.
Lemma alike_keys (d e : dict (sarr C)) : alike d e -> map fst e = map fst d.
Proof. intros H. induction H as [|p q d e (E & _) H IH]; cbn [map]; auto. rewrite E, IH. reflexivity. Qed.
Lemma alike_get (d e : dict (sarr C)) k v : alike d e -> In (k, v) e -> exists u, In (k, u) d /\ sarr_ok C v /\ sshape v = sshape u.
Proof.
  intros H. induction H as [|(k1 & u1) (k2 & v2) d e (E & O & S) H IH]; intros Hi; [destruct Hi|]. cbn [fst snd] in *. subst k2. destruct Hi as [Hi|Hi].
  - injection Hi as -> ->. exists u1. cbn. auto.
  - destruct (IH Hi) as (u & Hu & Hr). exists u. cbn. auto.
Qed.
Lemma Forall2_nth {A B} (P : A -> B -> Prop) l l' : Forall2 P l l' -> forall j y, nth_error l' j = Some y -> exists x, nth_error l j = Some x /\ P x y.
Proof. induction 1 as [|x y l l' H HF IH]; intros [|j] z Hz; cbn in *; try discriminate; [injection Hz as <-; eauto|eauto]. Qed.
Lemma Forall2_len {A B} (P : A -> B -> Prop) l l' : Forall2 P l l' -> List.length l' = List.length l.
Proof. induction 1; cbn; auto. Qed.
Lemma nth_rev_seq N j : (j < N)%nat -> nth_error (rev (seq 0 N)) j = Some (N - 1 - j)%nat.
Proof.
  intros H. rewrite (nth_error_nth' _ 0%nat) by (rewrite rev_length, seq_length; auto). f_equal. rewrite rev_nth by (rewrite seq_length; auto). rewrite seq_length, seq_nth by lia. lia.
Qed.

Lemma waverecn_back junk (x a a' : sarr C) X X' w m axes plan B N : sarr_ok C x -> 1 <= ndim x <= 64 -> plan <> [] ->
  resolves C (ndim x) w m axes plan -> NoDup axes -> plan_good C fuel B (sshape x) plan -> orthonormal_levels plan (sshape x) N ->
  wavedecn fuel junk x w m (Some (Z.of_nat N)) (Some axes) = Ok (a, X) -> sarr_ok C a' -> sshape a' = sshape a -> Forall2 alike X X' ->
  exists y a2 X2, waverecn fuel junk (Some a') (map (map (fun '(k, v) => (k, Some v))) X') w m (Some axes) = Ok (Some y) /\ sarr_ok C y /\ sshape y = sshape x /\
    wavedecn fuel junk y w m (Some (Z.of_nat N)) (Some axes) = Ok (a2, X2) /\ val C a2 = val C a' /\ map vals X2 = map vals X'.
Proof.
  intros Ox Hn Hne HR Hnd HG HO EX Oa' Sa' HX. destruct (orth_good plan (sshape x) N B HO HG) as (HL & Hl).
  destruct (wavedecn_value junk x w m (Some axes) plan B N Ox Hn Hne HR HG HO) as (a0 & Ea & Oa & Va). rewrite EX in Ea. injection Ea as <- ->.
  set (K := tl (ad_keys (List.length plan))).
  assert (HK : NoDup K) by (unfold K; pose proof (ad_keys_NoDup (List.length plan)) as H; rewrite ad_keys_head in *; apply NoDup_cons_iff in H; apply H).
  assert (HP : periodized C plan (sshape x) N) by (apply (levels_periodized C plan plan), orth_dual; auto).
  assert (Wx := val_wf C x Ox).
  set (V := fun j k => match nth_error X' j with Some d => match dget d k with Some v => val C v | None => val C a' end | None => val C a' end).
  assert (Sa : sshape a' = lev plan N (sshape x)).
  { rewrite Sa', <- (nshape_val C a), Va. destruct (appr_wf C fuel plan B N (val C x) Wx) as (_ & Sn); [rewrite nshape_val; auto|]. rewrite Sn, nshape_val. reflexivity. }
  assert (HV : ds_hold C N (fun j => lev plan (N - j) (sshape x)) K X' V).
  { split; [rewrite (Forall2_len _ _ _ HX), map_length, rev_length, seq_length; reflexivity|]. intros j d' Ed'.
    destruct (Forall2_nth _ _ _ HX j d' Ed') as (d & Ed & Hd). assert (Hj : (j < N)%nat).
    { apply Nat.lt_nge. intros Hj. rewrite (proj2 (nth_error_None _ _)) in Ed; [discriminate|]. rewrite map_length, rev_length, seq_length. auto. }
    rewrite (map_nth_error _ j _ (nth_rev_seq N j Hj)) in Ed. injection Ed as <-.
    split; [rewrite (alike_keys _ _ Hd); unfold det; rewrite map_map; apply map_id|].
    intros k v Hg. split; [|split].
    - apply dget_In in Hg. destruct (alike_get _ _ k v Hd Hg) as (u & _ & Ov & _). auto.
    - pose proof Hg as Hg'. apply dget_In in Hg'. destruct (alike_get _ _ k v Hd Hg') as (u & Hu & _ & Sv). rewrite Sv. unfold det in Hu. apply in_map_iff in Hu.
      destruct Hu as (k' & Eq & Hk). injection Eq as -> <-. apply tl_keys in Hk. destruct Hk as (Hk & _).
      destruct (appr_wf C fuel plan B (N - 1 - j) (val C x) Wx) as (Wn & Sn); [rewrite nshape_val; intros q Hq; apply HL; lia|]. rewrite nshape_val in Sn.
      pose proof (plan_good_ok _ _ _ _ _ (HL (N - 1 - j)%nat ltac:(lia))) as Hpo. apply ad_keys_length in Hk.
      change (nshape (band C k plan (appr C plan (N - 1 - j) (val C x))) = lev plan (N - j) (sshape x)).
      rewrite (band_shape C fuel) by (rewrite ?Sn; auto). rewrite Sn. replace (N - j)%nat with (S (N - 1 - j)) by lia. reflexivity.
    - unfold V. rewrite Ed', Hg. reflexivity. }
  destruct (wavedecn_waverecn C fuel junk w m axes plan (sshape x) B N V X' a' Hne Hn HR Hnd HG HP HV Oa' Sa) as (r & a2 & X2 & Er & Sr & Ed & Va2 & HV2).
  destruct (waverecn_arb C fuel junk w m axes plan (sshape x) B N V X' a' Hne HR Hnd HL HV Oa' Sa) as (r' & Er' & Or & _).
  rewrite Er in Er'. assert (r' = r) by congruence. subst r'. exists r, a2, X2. split; [exact Er|]. split; [exact Or|]. split; [exact Sr|]. split; [exact Ed|]. split; [exact Va2|].
  apply (hold_vals N (fun j => lev plan (N - j) (sshape x)) K X2 X' V); auto.
Qed.

Theorem waverecn_changed junk (x a a' : sarr C) X X' w m axes plan B N : sarr_ok C x -> 1 <= ndim x <= 64 -> plan <> [] ->
  resolves C (ndim x) w m axes plan -> NoDup axes -> plan_good C fuel B (sshape x) plan -> orthonormal_levels plan (sshape x) N ->
  wavedecn fuel junk x w m (Some (Z.of_nat N)) (Some axes) = Ok (a, X) -> sarr_ok C a' -> sshape a' = sshape a -> Forall2 alike X X' ->
  exists y, waverecn fuel junk (Some a') (map (map (fun '(k, v) => (k, Some v))) X') w m (Some axes) = Ok (Some y) /\ sshape y = sshape x /\
    nddist2 (val C x) (val C y) = nddist2 (val C a) (val C a') [+] ddist2s X X'.
Proof.
  intros Ox Hn Hne HR Hnd HG HO EX Oa' Sa' HX.
  destruct (waverecn_back junk x a a' X X' w m axes plan B N Ox Hn Hne HR Hnd HG HO EX Oa' Sa' HX) as (r & a2 & X2 & Er & Or & Sr & Ed & Va2 & HV). exists r. split; [exact Er|]. split; [exact Sr|].
  destruct (wavedecn_dist junk x r w m (Some axes) plan B N Ox Or Sr Hn Hne HR HG HO) as (b1 & X1 & b2 & Y2 & E1 & E2 & _ & _ & D).
  rewrite EX in E1. rewrite Ed in E2. injection E1 as <- <-. injection E2 as <- <-. rewrite <- D, Va2. f_equal.
  apply ddist2s_vals. exact HV.
Qed.
End P.
