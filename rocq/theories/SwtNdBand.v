(** The cosets of the undecimated sub-bands are decimated sub-bands of the
    cosets, so that one periodized idwtn per coset and offset returns the coset. *)
From Coq Require Import Ascii String Permutation.
From Verif Require Import Base BaseLemmas CConv Spec ExtLemmas Lengths LengthsProofs Dwt DwtProofs PR Linear Swt SwtSpec SwtProofs Nd NdSpec NdLinear Axis AxisProofs AxisProofs2 Multidim MultidimProofs MultidimFacts MultilevelNd SwtNd AxisOps NdSynth NdSwtSpec.
From Verif Require FswAxis CwtNd.

(** Zip a key with a list. *)
Fixpoint zipk {A} (key : string) (l : list A) : list (ascii * A) :=
  match key, l with String c k, a :: t => (c, a) :: zipk k t | _, _ => [] end.
Lemma zipk_snd {A} (l : list A) : forall key, String.length key = List.length l -> map snd (zipk key l) = l.
Proof. induction l as [|a l IH]; intros [|c k] H; cbn in *; try lia; auto. f_equal. apply IH. lia. Qed.
Lemma zipk_map {A B} (f : A -> B) (l : list A) : forall key, zipk key (map f l) = map (fun p => (fst p, f (snd p))) (zipk key l).
Proof. induction l as [|a l IH]; intros [|c k]; cbn; auto. f_equal. auto. Qed.
Lemma combine_map {A B E} (f : E -> A) (g : E -> B) l : combine (map f l) (map g l) = map (fun e => (f e, g e)) l.
Proof. induction l; cbn; congruence. Qed.

Section SB.
Variable C : CRing.
Add Ring Cring_ring_snb : (rth C).
Notation aop := (aop C).
Notation aps := (aps C).

(** ** Lists of operations indexed by the same list *)
Lemma ops_ok_map {E} (L : list E) (A : E -> aop) sh : NoDup (map (fun e => ao_ax C (A e)) L) -> (forall e, In e L -> op_ok C sh (A e)) ->
  ops_ok C sh (map A L).
Proof.
  intros H1 H2. split; [rewrite map_map; auto|]. apply Forall_forall. intros o Ho. apply in_map_iff in Ho. destruct Ho as (e & <- & He). auto.
Qed.
Lemma aps_fuse_map {E} (L : list E) (A B : E -> aop) x : nd_wf x -> ops_ok C (nshape x) (map A L) ->
  (forall e, In e L -> ao_ax C (B e) = ao_ax C (A e) /\ 0 < ao_n C (B e) /\ linop C (ao_n C (A e)) (ao_n C (B e)) (ao_T C (B e))) ->
  aps (map B L) (aps (map A L) x) = aps (map (fun e => (ao_ax C (A e), (ao_n C (B e), fun v => ao_T C (B e) (ao_T C (A e) v)))) L) x.
Proof.
  intros Hx Ho H. pose proof (aps_fuse C (map (fun e => (A e, B e)) L) x Hx) as F. rewrite !map_map in F. cbn [fst snd] in F.
  apply F; auto. apply Forall_forall. intros p Hp. apply in_map_iff in Hp. destruct Hp as (e & <- & He). apply H; auto.
Qed.
Lemma aps_ext_map {E} (L : list E) (A B : E -> aop) x : nd_wf x -> ops_ok C (nshape x) (map A L) ->
  (forall e, In e L -> ao_ax C (B e) = ao_ax C (A e) /\ ao_n C (B e) = ao_n C (A e) /\
     forall v, zlen v = nthz (ao_ax C (A e)) (nshape x) -> ao_T C (B e) v = ao_T C (A e) v) ->
  aps (map B L) x = aps (map A L) x.
Proof.
  intros Hx Ho H. pose proof (aps_ext C (map (fun e => (A e, B e)) L) x Hx) as F. rewrite !map_map in F. cbn [fst snd] in F.
  apply F; auto. apply Forall_forall. intros p Hp. apply in_map_iff in Hp. destruct Hp as (e & <- & He). apply H; auto.
Qed.
Lemma aps_id_map {E} (L : list E) (A : E -> aop) x : nd_wf x -> ops_ok C (nshape x) (map A L) ->
  (forall e, In e L -> ao_n C (A e) = nthz (ao_ax C (A e)) (nshape x) /\ forall v, zlen v = nthz (ao_ax C (A e)) (nshape x) -> ao_T C (A e) v = v) ->
  aps (map A L) x = x.
Proof.
  intros Hx Ho H. apply aps_id; auto. apply Forall_forall. intros p Hp. apply in_map_iff in Hp. destruct Hp as (e & <- & He). apply H; auto.
Qed.

(** ** The sub-bands as such operations *)
Definition pst (p : nat * wavelet C) : step C := (fst p, (snd p, PERIODIZATION)).
Definition wop (l : Z) (sh : list Z) (e : ascii * (nat * wavelet C)) : aop :=
  (fst (snd e), (nthz (fst (snd e)) sh, swt_step l (letter (fst e) (snd (snd e))))).
Definition dop (sh : list Z) (e : ascii * (nat * wavelet C)) : aop :=
  (fst (snd e), (coeff_len PERIODIZATION (nthz (fst (snd e)) sh) (zlen (letter (fst e) (snd (snd e)))), analysis PERIODIZATION (letter (fst e) (snd (snd e))))).

Lemma swt_band_aps l plan : forall key sh x, NoDup (map fst plan) -> (forall p, In p plan -> nthz (fst p) (nshape x) = nthz (fst p) sh) ->
  swt_band l key plan x = aps (map (wop l sh) (zipk key plan)) x.
Proof.
  induction plan as [|[ax w] p IH]; intros [|c k] sh x Hd H; cbn [swt_band zipk map aps]; auto.
  cbn [map fst] in Hd. inversion Hd; subst. change (ap C (wop l sh (c, (ax, w))) x) with (along ax (nthz ax sh) (swt_step l (letter c w)) x).
  pose proof (H (ax, w) (or_introl eq_refl)) as H0. cbn [fst] in H0. rewrite <- H0. fold (wax ax l (letter c w) x). apply IH; auto.
  intros q Hq. unfold wax. rewrite along_shape, nthz_setn_ne; [apply H; right; auto|]. intros E; subst. apply H2. apply in_map. auto.
Qed.
Lemma band_aps plan : forall key sh x, NoDup (map fst plan) -> (forall p, In p plan -> nthz (fst p) (nshape x) = nthz (fst p) sh) ->
  band C key (map pst plan) x = aps (map (dop sh) (zipk key plan)) x.
Proof.
  induction plan as [|[ax w] p IH]; intros [|c k] sh x Hd H; cbn [band zipk map aps]; auto.
  cbn [map fst] in Hd. inversion Hd; subst. change (ap C (dop sh (c, (ax, w))) x) with (along ax (coeff_len PERIODIZATION (nthz ax sh) (zlen (letter c w))) (analysis PERIODIZATION (letter c w)) x). cbn [fst snd st_ax st_w st_m pst].
  pose proof (H (ax, w) (or_introl eq_refl)) as H0. cbn [fst] in H0. rewrite <- H0. change (pick C c w) with (letter c w).
  fold (dax ax PERIODIZATION (letter c w) x). apply IH; auto.
  intros q Hq. unfold dax. rewrite along_shape, nthz_setn_ne; [apply H; right; auto|]. intros E; subst. apply H2. apply in_map. auto.
Qed.

(** ** One axis *)
Definition rollm (o : Z) (y : list C) : list C := if o =? 0 then y else roll (-1) y.
Definition rollp (o : Z) (y : list C) : list C := if o =? 0 then y else roll 1 y.
Lemma zlen_rollm o y : zlen (rollm o y) = zlen y.
Proof. unfold rollm. destruct (o =? 0); auto. apply zlen_roll. Qed.
Lemma zlen_rollp o y : zlen (rollp o y) = zlen y.
Proof. unfold rollp. destruct (o =? 0); auto. apply zlen_roll. Qed.
Lemma rollp_rollm o y : 1 <= zlen y -> rollp o (rollm o y) = y.
Proof. unfold rollp, rollm. destruct (o =? 0); auto. apply roll_roll. Qed.
Lemma linop_roll N s : 1 <= N -> linop C N N (roll s).
Proof.
  intros HN. split.
  - intros x Hx. rewrite zlen_roll. auto.
  - intros a x b y Hx Hy. unfold roll. rewrite zlen_vlin by congruence. rewrite Hx, Hy, vlin_tab. apply tab_ext. intros i Hi. apply gz_vlin. congruence.
Qed.
Lemma linop_id N : linop C N N (fun v => v).
Proof. split; auto. Qed.
Lemma linop_rollm N o : 1 <= N -> linop C N N (rollm o).
Proof. intros H. unfold rollm. destruct (o =? 0); [apply linop_id|apply linop_roll; auto]. Qed.
Lemma linop_rollp N o : 1 <= N -> linop C N N (rollp o).
Proof. intros H. unfold rollp. destruct (o =? 0); [apply linop_id|apply linop_roll; auto]. Qed.

Lemma slice_len_coset N a st : 1 <= st -> 0 <= a < st -> 1 <= N -> (st | N) -> slice_len N (SRange a N st) = N / st.
Proof.
  intros Hs Ha HN (q & Hq). cbn [slice_len]. rewrite Z.min_id. subst N. rewrite Z.div_mul by lia.
  assert ((q * st - a + st - 1) / st = q).
  { symmetry. apply Z.div_unique with (st - 1 - a); [lia|]. lia. }
  rewrite H. assert (0 <= q) by nia. lia.
Qed.
Lemma pick1_coset N a st v : 1 <= st -> 0 <= a < st -> 1 <= N -> (st | N) -> zlen v = N -> pick1 C (SRange a N st) v = coset C st a v.
Proof.
  intros Hs Ha HN Hd Hv. unfold pick1, coset. rewrite Hv, slice_len_coset by auto. reflexivity.
Qed.

Lemma div_half N st : 1 <= st -> (2 * st | N) -> (st | N).
Proof. intros Hs (q & Hq). exists (2 * q). lia. Qed.

Lemma fused1 l h v N f o : 1 <= l -> 1 <= N -> (2 ^ l | N) -> 0 <= f < 2 ^ (l - 1) -> o = 0 \/ o = 1 -> zlen v = N ->
  pick1 C (SRange (f + o * 2 ^ (l - 1)) N (2 * 2 ^ (l - 1))) (swt_step l h v)
  = analysis PERIODIZATION h (rollm o (pick1 C (SRange (f + 0 * 2 ^ (l - 1)) N (1 * 2 ^ (l - 1))) v)).
Proof.
  intros Hl HN Hd Hf Ho Hv.
  assert (Hst : 2 ^ l = 2 * 2 ^ (l - 1)) by (rewrite <- Z.pow_succ_r by lia; f_equal; lia).
  assert (Hp : 1 <= 2 ^ (l - 1)) by lia.
  rewrite Z.mul_0_l, Z.add_0_r, Z.mul_1_l.
  rewrite pick1_coset by (auto; try lia; try (rewrite zlen_swt_step; auto); rewrite <- Hst; auto).
  assert (Hd1 : (2 ^ (l - 1) | N)) by (apply div_half; [lia|rewrite <- Hst; auto]).
  rewrite (pick1_coset N f) by auto.
  destruct Ho as [-> | ->]; unfold rollm; cbn [Z.eqb].
  - rewrite Z.mul_0_l, Z.add_0_r. apply coset_even; auto; rewrite Hv; auto.
  - rewrite Z.mul_1_l. apply coset_odd; auto; rewrite Hv; auto.
Qed.

(** ** All axes *)
Notation Q := (prod (prod nat (wavelet C)) (prod Z Z)) (only parsing).
Definition q_ax (q : Q) : nat := fst (fst q).
Definition q_w (q : Q) : wavelet C := snd (fst q).
Definition q_f (q : Q) : Z := fst (snd q).
Definition q_o (q : Q) : Z := snd (snd q).

Definition q_ok (l : Z) (sh : list Z) (q : Q) : Prop :=
  (q_ax q < List.length sh)%nat /\ 1 <= nthz (q_ax q) sh /\ (2 ^ l | nthz (q_ax q) sh) /\ 0 <= q_f q < 2 ^ (l - 1) /\ (q_o q = 0 \/ q_o q = 1) /\
  wf_bank (q_w q).

(** The selections of coset [f] with offset [o], and of coset [f]. *)
Definition sel2 (l : Z) (sh : list Z) (q : Q) : nat * slice :=
  (q_ax q, SRange (q_f q + q_o q * 2 ^ (l - 1)) (nthz (q_ax q) sh) (2 * 2 ^ (l - 1))).
Definition sel1 (l : Z) (sh : list Z) (q : Q) : nat * slice :=
  (q_ax q, SRange (q_f q + 0 * 2 ^ (l - 1)) (nthz (q_ax q) sh) (1 * 2 ^ (l - 1))).

Lemma q_pow l sh q : 1 <= l -> q_ok l sh q -> 2 ^ l = 2 * 2 ^ (l - 1) /\ 1 <= 2 ^ (l - 1) /\ (2 * 2 ^ (l - 1) | nthz (q_ax q) sh) /\ (2 ^ (l - 1) | nthz (q_ax q) sh).
Proof.
  intros Hl (A & B & D & F & O & W). assert (Hst : 2 ^ l = 2 * 2 ^ (l - 1)) by (rewrite <- Z.pow_succ_r by lia; f_equal; lia).
  split; auto. split; [lia|]. rewrite <- Hst. split; auto. apply div_half; [lia|]. rewrite <- Hst. auto.
Qed.
Lemma sel1_len l sh q : 1 <= l -> q_ok l sh q ->
  slice_len (nthz (q_ax q) sh) (snd (sel1 l sh q)) = nthz (q_ax q) sh / 2 ^ (l - 1) /\ 2 <= nthz (q_ax q) sh / 2 ^ (l - 1) /\
  (nthz (q_ax q) sh / 2 ^ (l - 1)) mod 2 = 0 /\ sl_ok (nthz (q_ax q) sh) (snd (sel1 l sh q)).
Proof.
  intros Hl H. destruct (q_pow _ _ _ Hl H) as (P1 & P2 & P3 & P4). destruct H as (A & B & D & F & O & W).
  cbn [snd sel1]. rewrite Z.mul_0_l, Z.add_0_r, Z.mul_1_l. split; [apply slice_len_coset; auto|].
  destruct P3 as (t & Ht). assert (Q1 : nthz (q_ax q) sh / 2 ^ (l - 1) = 2 * t).
  { rewrite Ht. replace (t * (2 * 2 ^ (l - 1))) with (2 * t * 2 ^ (l - 1)) by lia. apply Z.div_mul. lia. }
  rewrite Q1. assert (1 <= t) by nia. split; [lia|]. split; [rewrite Z.mul_comm; apply Z_mod_mult|].
  cbn [sl_ok]. lia.
Qed.
Lemma sel2_len l sh q : 1 <= l -> q_ok l sh q ->
  slice_len (nthz (q_ax q) sh) (snd (sel2 l sh q)) = nthz (q_ax q) sh / (2 * 2 ^ (l - 1)) /\ 1 <= nthz (q_ax q) sh / (2 * 2 ^ (l - 1)) /\
  nthz (q_ax q) sh / 2 ^ (l - 1) = 2 * (nthz (q_ax q) sh / (2 * 2 ^ (l - 1))) /\
  sl_ok (nthz (q_ax q) sh) (snd (sel2 l sh q)).
Proof.
  intros Hl H. destruct (q_pow _ _ _ Hl H) as (P1 & P2 & P3 & P4). destruct H as (A & B & D & F & O & W).
  cbn [snd sel2]. split; [apply slice_len_coset; auto; try lia; destruct O as [-> | ->]; lia|].
  destruct P3 as (t & Ht). assert (Q1 : nthz (q_ax q) sh / (2 * 2 ^ (l - 1)) = t) by (rewrite Ht; apply Z.div_mul; lia).
  rewrite Q1. assert (1 <= t) by nia. split; [lia|]. split.
  - rewrite Ht. replace (t * (2 * 2 ^ (l - 1))) with (2 * t * 2 ^ (l - 1)) by lia. apply Z.div_mul. lia.
  - cbn [sl_ok]. destruct O as [-> | ->]; lia.
Qed.

Lemma zlen_letter c w : wf_bank w -> zlen (letter c w) = @dec_len C w.
Proof. intros (H & _). unfold letter, dec_len in *. destruct (Ascii.eqb c _); auto. Qed.

Section OneCoset.
Variable l : Z.
Variable x : nd C.
Variable L : list Q.
Let sh := nshape x.
Hypothesis Hl : 1 <= l.
Hypothesis Hx : nd_wf x.
Hypothesis Hd : NoDup (map q_ax L).
Hypothesis HL : forall q, In q L -> q_ok l sh q.
Let plan := map fst L.
Let nd := List.length sh.
(** The coset of [x]. *)
Definition the_coset : Nd.nd C := pickS C (sls_of nd (map (sel1 l sh) L)) x.
Definition rmop (q : Q) : aop := (q_ax q, (nthz (q_ax q) sh / 2 ^ (l - 1), rollm (q_o q))).
Definition rpop (q : Q) : aop := (q_ax q, (nthz (q_ax q) sh / 2 ^ (l - 1), rollp (q_o q))).
Definition p1op (q : Q) : aop := (q_ax q, (nthz (q_ax q) sh / 2 ^ (l - 1), pick1 C (snd (sel1 l sh q)))).

Lemma coset_aps : the_coset = aps (map p1op L) x.
Proof.
  unfold the_coset. unfold nd, sh. rewrite pickS_sls.
  - rewrite map_map. fold sh. f_equal. apply map_ext_in. intros q Hq. unfold op_of, p1op. destruct (sel1_len _ _ _ Hl (HL q Hq)) as (<- & _).
    reflexivity.
  - auto.
  - rewrite map_map. exact Hd.
  - apply Forall_forall. intros p Hp. apply in_map_iff in Hp. destruct Hp as (q & <- & Hq). destruct (sel1_len _ _ _ Hl (HL q Hq)) as (S1 & S2 & S3 & S4).
    fold sh. cbn [fst sel1]. split; [apply (HL q Hq)|]. split; auto. cbn [snd sel1] in S1 |- *. rewrite S1. lia.
Qed.
Lemma p1_ok : ops_ok C sh (map p1op L).
Proof.
  apply ops_ok_map; [exact Hd|]. intros q Hq. destruct (sel1_len _ _ _ Hl (HL q Hq)) as (S1 & S2 & S3 & S4).
  split; [apply (HL q Hq)|]. split; [cbn; lia|]. cbn [ao_ax ao_n ao_T p1op fst snd]. rewrite <- S1. apply linop_pick1. destruct (HL q Hq) as (_ & ? & _). lia.
Qed.
Lemma coset_wf : nd_wf the_coset.
Proof. apply pickS_wf. auto. Qed.
Lemma coset_shape_len : List.length (nshape the_coset) = List.length sh.
Proof. rewrite coset_aps, aps_shape. apply ops_shape_len. Qed.
Lemma coset_nth q : In q L -> nthz (q_ax q) (nshape the_coset) = nthz (q_ax q) sh / 2 ^ (l - 1).
Proof.
  intros Hq. rewrite coset_aps, aps_shape. change (q_ax q) with (ao_ax C (p1op q)) at 1. rewrite ops_shape_in; [reflexivity| | |].
  - rewrite map_map. exact Hd.
  - apply in_map. auto.
  - apply (HL q Hq).
Qed.
Lemma coset_nth_ne k : ~ In k (map q_ax L) -> nthz k (nshape the_coset) = nthz k sh.
Proof. intros Hk. rewrite coset_aps, aps_shape. apply ops_shape_ne. rewrite map_map. exact Hk. Qed.

Lemma roll_ok (op : Q -> aop) : (forall q, In q L -> op q = rmop q \/ op q = rpop q) -> ops_ok C (nshape the_coset) (map op L).
Proof.
  intros H. assert (Ea : forall q, In q L -> ao_ax C (op q) = q_ax q) by (intros q Hq; destruct (H q Hq) as [-> | ->]; reflexivity).
  apply ops_ok_map.
  - rewrite (map_ext_in _ q_ax); auto.
  - intros q Hq. destruct (sel1_len _ _ _ Hl (HL q Hq)) as (S1 & S2 & S3 & S4). 
    assert (A : (q_ax q < List.length (nshape the_coset))%nat) by (rewrite coset_shape_len; apply (HL q Hq)).
    split; [rewrite Ea; auto|]. rewrite Ea by auto. rewrite coset_nth by auto.
    destruct (H q Hq) as [-> | ->]; cbn [rmop rpop ao_n ao_T fst snd]; (split; [lia|]); [apply linop_rollm|apply linop_rollp]; lia.
Qed.

(** The coset with the offsets of [L] taken off. *)
Definition the_rolled : Nd.nd C := aps (map rmop L) the_coset.
Lemma rolled_wf : nd_wf the_rolled.
Proof. apply aps_wf; [apply coset_wf|]. apply roll_ok. auto. Qed.
Lemma rolled_shape : nshape the_rolled = nshape the_coset.
Proof.
  unfold the_rolled. rewrite aps_shape. apply CwtNd.nthz_ext; [apply ops_shape_len|]. intros k _.
  destruct (in_dec Nat.eq_dec k (map q_ax L)) as [Hi|Hn].
  - apply in_map_iff in Hi. destruct Hi as (q & <- & Hq). rewrite coset_nth by auto. change (q_ax q) with (ao_ax C (rmop q)) at 1.
    rewrite ops_shape_in; [reflexivity| | |].
    + rewrite map_map. exact Hd.
    + apply in_map. auto.
    + rewrite coset_shape_len. apply (HL q Hq).
  - apply ops_shape_ne. rewrite map_map. exact Hn.
Qed.
Lemma unrolled : aps (map rpop L) the_rolled = the_coset.
Proof.
  unfold the_rolled. rewrite aps_fuse_map; [|apply coset_wf|apply roll_ok; auto|].
  - apply aps_id_map; [apply coset_wf| |].
    + apply ops_ok_map; [exact Hd|]. intros q Hq. destruct (sel1_len _ _ _ Hl (HL q Hq)) as (S1 & S2 & S3 & S4).
      split; [change (q_ax q < List.length (nshape the_coset))%nat; rewrite coset_shape_len; apply (HL q Hq)|]. split; [cbn; lia|]. cbn [ao_ax ao_n ao_T rmop rpop fst snd]. rewrite coset_nth by auto.
      split.
      * intros v Hv. rewrite zlen_rollp, zlen_rollm. auto.
      * intros a u b v Hu Hv. rewrite !rollp_rollm by (rewrite ?zlen_vlin by congruence; lia). reflexivity.
    + intros q Hq. destruct (sel1_len _ _ _ Hl (HL q Hq)) as (S1 & S2 & S3 & S4). cbn [ao_ax ao_n ao_T rmop rpop fst snd]. rewrite coset_nth by auto. split; auto.
      intros v Hv. apply rollp_rollm. lia.
  - intros q Hq. destruct (sel1_len _ _ _ Hl (HL q Hq)) as (S1 & S2 & S3 & S4). cbn [ao_ax ao_n ao_T rmop rpop fst snd]. split; auto. split; [lia|].
    apply linop_rollp. lia.
Qed.

Lemma plan_nodup : NoDup (map fst plan).
Proof. unfold plan. rewrite map_map. exact Hd. Qed.
Lemma plan_in p : In p plan -> exists q, In q L /\ p = fst q.
Proof. unfold plan. rewrite in_map_iff. intros (q & E & H). eauto. Qed.

Lemma swt_ops_ok key : String.length key = List.length L -> ops_ok C sh (map (wop l sh) (zipk key plan)).
Proof.
  intros Hk. apply ops_ok_map.
  - replace (map (fun e => ao_ax C (wop l sh e)) (zipk key plan)) with (map fst (map snd (zipk key plan))) by (rewrite map_map; reflexivity).
    rewrite zipk_snd by (unfold plan; rewrite map_length; auto). apply plan_nodup.
  - intros e He. assert (Hp : In (snd e) plan).
    { rewrite <- (zipk_snd plan key) by (unfold plan; rewrite map_length; auto). apply in_map. auto. }
    destruct (plan_in _ Hp) as (q & Hq & Eq). destruct (HL q Hq) as (A & B & _). unfold wop. rewrite Eq. split; [exact A|]. split; [cbn; unfold q_ax in B; lia|].
    cbn [ao_ax ao_n ao_T fst snd]. apply linop_swt.
Qed.
Lemma swt_band_wf key : String.length key = List.length L -> nd_wf (swt_band l key plan x).
Proof.
  intros Hk. rewrite (swt_band_aps l plan key sh x plan_nodup) by auto. apply aps_wf; auto. apply swt_ops_ok. auto.
Qed.
End OneCoset.

Lemma swt_band_shape l plan : forall key (x : nd C), nshape (swt_band l key plan x) = nshape x.
Proof.
  induction plan as [|[ax w] p IH]; intros [|c k] x; cbn [swt_band]; auto. rewrite IH. unfold wax. rewrite along_shape. apply setn_nthz.
Qed.

Theorem band_sel2 l (x : nd C) L key : 1 <= l -> nd_wf x -> NoDup (map q_ax L) -> (forall q, In q L -> q_ok l (nshape x) q) ->
  String.length key = List.length L ->
  pickS C (sls_of (List.length (nshape x)) (map (sel2 l (nshape x)) L)) (swt_band l key (map fst L) x)
  = band C key (map pst (map fst L)) (the_rolled l x L).
Proof.
  intros Hl Hx Hd HL Hk. set (sh := nshape x) in *. set (plan := map fst L).
  assert (HZ : map snd (zipk key L) = L) by (apply zipk_snd; auto).
  assert (HP : zipk key plan = map (fun e => (fst e, fst (snd e))) (zipk key L)) by (apply zipk_map).
  set (Z0 := zipk key L) in *.
  assert (HZin : forall e, In e Z0 -> In (snd e) L) by (intros e He; rewrite <- HZ; apply in_map; auto).
  assert (Hpn : NoDup (map fst plan)) by (apply plan_nodup; auto).
  assert (Hy : nshape (swt_band l key plan x) = sh) by (rewrite swt_band_shape; reflexivity).
  pose proof (swt_band_wf l x L Hx Hd HL key Hk) as Wy. fold plan in Wy.
  assert (HdZ : NoDup (map (fun e => q_ax (snd e)) Z0)).
  { replace (map (fun e => q_ax (snd e)) Z0) with (map q_ax (map snd Z0)) by (rewrite map_map; reflexivity). rewrite HZ. auto. }
  (* left *)
  assert (E1 : pickS C (sls_of (List.length sh) (map (sel2 l sh) L)) (swt_band l key plan x)
    = aps (map (fun e => op_of C sh (sel2 l sh (snd e))) Z0) (aps (map (fun e => wop l sh (fst e, fst (snd e))) Z0) x)).
  { rewrite <- Hy at 1. rewrite pickS_sls; auto.
    - rewrite Hy. transitivity (aps (map (op_of C sh) (map (sel2 l sh) (map snd Z0))) (swt_band l key plan x)); [rewrite HZ; reflexivity|]. rewrite !map_map. f_equal.
      rewrite (swt_band_aps l plan key sh x Hpn) by auto. rewrite HP, map_map. reflexivity.
    - rewrite map_map. exact Hd.
    - rewrite Hy. apply Forall_forall. intros p Hp. apply in_map_iff in Hp. destruct Hp as (q & <- & Hq).
      destruct (sel2_len _ _ _ Hl (HL q Hq)) as (S1 & S2 & S3 & S4). cbn [fst sel2]. split; [apply (HL q Hq)|]. split; [exact S4|].
      cbn [snd sel2] in S1 |- *. lia. }
  rewrite E1. clear E1.
  (* right *)
  rewrite (band_aps plan key (nshape (the_coset l x L)) (the_rolled l x L) Hpn) by (intros; rewrite rolled_shape; auto).
  unfold the_rolled. rewrite (coset_aps l x L) at 2 by auto. rewrite HP, map_map.
  assert (HM : forall F : Q -> aop, map F L = map (fun e => F (snd e)) Z0)
    by (intros F; transitivity (map F (map snd Z0)); [rewrite HZ; reflexivity|apply map_map]).
  rewrite (HM (rmop l x)), (HM (p1op l x)).
  (* conditions *)
  assert (Op1 : ops_ok C sh (map (fun e => p1op l x (snd e)) Z0)).
  { rewrite <- HM. apply p1_ok; auto. }
  assert (Ow : ops_ok C sh (map (fun e => wop l sh (fst e, fst (snd e))) Z0)).
  { pose proof (swt_ops_ok l x L Hd HL key Hk) as O. fold plan sh in O. rewrite HP, map_map in O. exact O. }
  rewrite (aps_fuse_map Z0 _ (fun e => op_of C sh (sel2 l sh (snd e)))); auto.
  2:{ intros e He. destruct (sel2_len _ _ _ Hl (HL _ (HZin e He))) as (S1 & S2 & S3 & S4). cbn [ao_ax ao_n ao_T op_of wop fst snd sel2] in *.
      split; [reflexivity|]. split; [lia|]. apply linop_pick1. destruct (HL _ (HZin e He)) as (_ & ? & _). unfold q_ax in *. lia. }
  rewrite (aps_fuse_map Z0 (fun e => p1op l x (snd e)) (fun e => rmop l x (snd e))); auto.
  2:{ intros e He. destruct (sel1_len _ _ _ Hl (HL _ (HZin e He))) as (S1 & S2 & S3 & S4). cbn [ao_ax ao_n ao_T p1op rmop fst snd] in *.
      split; [reflexivity|]. split; [fold sh; lia|]. fold sh. apply linop_rollm. lia. }
  rewrite aps_fuse_map; auto.
  - cbn [ao_ax ao_n ao_T p1op rmop dop op_of wop fst snd].
    apply aps_ext_map; auto.
    + apply ops_ok_map; [exact HdZ|]. intros e He. destruct (sel1_len _ _ _ Hl (HL _ (HZin e He))) as (S1 & S2 & S3 & S4).
      destruct (HL _ (HZin e He)) as (A & B & D & F & O & W). split; [exact A|]. cbn [ao_ax ao_n ao_T fst snd].
      fold (q_ax (snd e)) (q_w (snd e)). rewrite (coset_nth l x L) by auto. fold sh.
      set (M := nthz (q_ax (snd e)) sh / 2 ^ (l - 1)) in *.
      pose proof W as (_ & _ & _ & _ & HF). assert (Hh : zlen (letter (fst e) (q_w (snd e))) = dec_len (q_w (snd e))) by (apply zlen_letter; auto).
      split; [cbn [coeff_len]; lia|].
      assert (LA : linop C M (coeff_len PERIODIZATION M (zlen (letter (fst e) (q_w (snd e))))) (analysis PERIODIZATION (letter (fst e) (q_w (snd e)))))
        by (apply linop_analysis; lia).
      assert (LR : linop C M M (rollm (q_o (snd e)))) by (apply linop_rollm; lia).
      assert (LP : linop C (nthz (q_ax (snd e)) sh) M (pick1 C (snd (sel1 l sh (snd e))))) by (rewrite <- S1; apply linop_pick1; lia).
      split.
      * intros v Hv. apply LA, LR, LP, Hv.
      * intros a u b v Hu Hv. destruct LP as (LP1 & LP2). rewrite LP2 by auto. destruct LR as (LR1 & LR2). rewrite LR2 by auto.
        destruct LA as (LA1 & LA2). apply LA2; auto.
    + intros e He. destruct (sel2_len _ _ _ Hl (HL _ (HZin e He))) as (S1 & S2 & S3 & S4).
      destruct (HL _ (HZin e He)) as (A & B & D & F & O & W). cbn [ao_ax ao_n ao_T fst snd].
      fold (q_ax (snd e)) (q_w (snd e)). rewrite (coset_nth l x L) by auto. fold sh. rewrite S3. split; [reflexivity|]. split.
      * cbn [coeff_len]. cbn [sel2 snd fst] in S1 |- *. rewrite S1. lia.
      * intros v Hv. cbn [sel1 sel2 fst snd]. apply fused1; auto.
  - apply ops_ok_map; [exact HdZ|]. intros e He. destruct (sel1_len _ _ _ Hl (HL _ (HZin e He))) as (S1 & S2 & S3 & S4).
    destruct (HL _ (HZin e He)) as (A & B & D & F & O & W). split; [exact A|]. cbn [ao_ax ao_n ao_T p1op rmop fst snd]. fold sh.
    split; [lia|]. set (M := nthz (q_ax (snd e)) sh / 2 ^ (l - 1)) in *.
    assert (LR : linop C M M (rollm (q_o (snd e)))) by (apply linop_rollm; lia).
    assert (LP : linop C (nthz (q_ax (snd e)) sh) M (pick1 C (snd (sel1 l sh (snd e))))) by (rewrite <- S1; apply linop_pick1; lia).
    split.
    + intros v Hv. apply LR, LP, Hv.
    + intros a u b v Hu Hv. destruct LP as (LP1 & LP2). rewrite LP2 by auto. destruct LR as (LR1 & LR2). apply LR2; auto.
  - intros e He. destruct (sel1_len _ _ _ Hl (HL _ (HZin e He))) as (S1 & S2 & S3 & S4).
    destruct (HL _ (HZin e He)) as (A & B & D & F & O & W). cbn [ao_ax ao_n ao_T p1op rmop dop fst snd].
    fold (q_ax (snd e)) (q_w (snd e)). rewrite (coset_nth l x L) by auto. fold sh.
    set (M := nthz (q_ax (snd e)) sh / 2 ^ (l - 1)) in *.
    pose proof W as (_ & _ & _ & _ & HF). assert (Hh : zlen (letter (fst e) (q_w (snd e))) = dec_len (q_w (snd e))) by (apply zlen_letter; auto).
    split; [reflexivity|]. split; [cbn [coeff_len]; lia|]. apply linop_analysis; lia.
Qed.

End SB.
