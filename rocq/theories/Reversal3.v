(** The built-in filters: which of them are symmetric, which have linear phase. *)
From Verif Require Import Base BaseLemmas Spec Instances Dwt DwtProofs FilterSpec Filters FiltersProofs FiltersFacts Tables TablesProofs TablesFacts BuiltinMoments ReversalSpec Reversal SymmetrySpec DiscreteSymmetry.
From Coq Require Import QArith Qcanon String.
Open Scope list_scope.
Open Scope Z_scope.

Section LP.
Variable C : CRing.
Add Ring lpring : (rth C).
Implicit Types (a b h : list C).
Lemma sgn_opp (i F : Z) : F mod 2 = 0 -> (sgn (F - 1 - i) : C) = [--] sgn i.
Proof. intros H. unfold sgn. destruct (Z.eqb_spec ((F - 1 - i) mod 2) 0), (Z.eqb_spec (i mod 2) 0); try lia; ring. Qed.
Lemma sgn_sub (c i : Z) : (sgn (c - i) : C) = sgn c [*] sgn i.
Proof. unfold sgn. destruct (Z.eqb_spec ((c - i) mod 2) 0), (Z.eqb_spec (c mod 2) 0), (Z.eqb_spec (i mod 2) 0); try lia; ring. Qed.
Lemma gz_opp (l : list C) i : gz (map ropp l) i = [--] gz l i.
Proof. unfold gz. destruct (0 <=? i); [|ring]. replace (r0 : C) with ([--] r0 : C) at 1 by ring. apply (map_nth ropp). Qed.
Lemma gz_alt_flip a i : gz (alt_flip a) i = sgn i [*] gz a (zlen a - 1 - i).
Proof.
  pose proof (zlen_nonneg a). assert (L : zlen (alt_flip a) = zlen a) by (unfold alt_flip; apply zlen_tab; lia).
  destruct (Z.lt_ge_cases i 0); [rewrite !gz_out by lia; ring|]. destruct (Z.lt_ge_cases i (zlen a)); [|rewrite !gz_out by lia; ring].
  unfold alt_flip. rewrite gz_tab by lia. reflexivity.
Qed.
Lemma bi_bank_lp a b : rev a = a -> rev b = b -> zlen a mod 2 = 0 -> linear_phase (bi_bank a b).
Proof.
  intros Ha Hb He. unfold linear_phase, bi_bank. cbn [dec_lo dec_hi]. rewrite !rev_involutive. split; [symmetry; exact Hb|].
  pose proof (zlen_nonneg a). assert (LF : zlen (alt_flip a) = zlen a) by (unfold alt_flip; apply zlen_tab; lia).
  assert (P : forall i, gz a (zlen a - 1 - i) = gz a i) by (intros i; rewrite <- gz_rev_all, Ha; reflexivity).
  apply list_ext; [rewrite zlen_map, zlen_rev; reflexivity|]. rewrite LF. intros i Hi. rewrite gz_opp, gz_rev_all, LF, !gz_alt_flip.
  rewrite sgn_opp by exact He. rewrite !P. ring.
Qed.
Lemma mirrored_rev h : mirrored h -> mirrored (rev h).
Proof.
  intros (c & s & Hs & H). exists (2 * (zlen h - 1) - c), s. split; [exact Hs|]. intros i. rewrite !gz_rev_all. rewrite <- H. f_equal. lia.
Qed.
Lemma mirrored_flip h : mirrored h -> mirrored (alt_flip h).
Proof.
  intros (c & s & Hs & H). set (c' := 2 * (zlen h - 1) - c). exists c', (sgn c' [*] s). split.
  - unfold sgn. destruct (c' mod 2 =? 0); destruct Hs as [-> | ->]; [left|right|right|left]; ring.
  - intros i. rewrite !gz_alt_flip. rewrite sgn_sub. replace (zlen h - 1 - (c' - i)) with (c - (zlen h - 1 - i)) by (unfold c'; lia). rewrite H. ring.
Qed.
Lemma mirrored_rev_back h : mirrored (rev h) -> mirrored h.
Proof. intros H. apply mirrored_rev in H. rewrite rev_involutive in H. exact H. Qed.
Lemma mirrored_flip_back h : mirrored (alt_flip h) -> mirrored h.
Proof.
  intros (c & s & Hs & H). set (c' := 2 * (zlen h - 1) - c). exists c', (sgn c [*] s).
  split; [unfold sgn; destruct (c mod 2 =? 0); destruct Hs as [-> | ->]; [left|right|right|left]; ring|].
  intros i. specialize (H (zlen h - 1 - i)). rewrite !gz_alt_flip in H. replace (zlen h - 1 - (zlen h - 1 - i)) with i in H by lia.
  replace (zlen h - 1 - (c - (zlen h - 1 - i))) with (c' - i) in H by (unfold c'; lia). rewrite sgn_sub in H.
  assert (Q : forall k, (sgn k [*] sgn k : C) = r1) by (intros k; unfold sgn; destruct (k mod 2 =? 0); ring). set (u := zlen h - 1 - i) in *.
  transitivity ((sgn c [*] sgn c) [*] (sgn u [*] sgn u) [*] gz h (c' - i)); [rewrite !Q; ring|].
  transitivity (sgn c [*] sgn u [*] (sgn c [*] sgn u [*] gz h (c' - i))); [ring|]. rewrite H. transitivity (sgn c [*] s [*] (sgn u [*] sgn u) [*] gz h i); [ring|]. rewrite Q. ring.
Qed.
Lemma bi_bank_not_mirrored a : ~ mirrored a -> let w := bi_bank a a in ~ mirrored (dec_lo w) /\ ~ mirrored (dec_hi w) /\ ~ mirrored (rec_lo w) /\ ~ mirrored (rec_hi w).
Proof. intros H. cbn. repeat split; intros G; apply H; auto using mirrored_rev_back, mirrored_flip_back. Qed.
Lemma bi_bank_mirrored a b : mirrored a -> mirrored b -> let w := bi_bank a b in mirrored (dec_lo w) /\ mirrored (dec_hi w) /\ mirrored (rec_lo w) /\ mirrored (rec_hi w).
Proof. intros Ha Hb. cbn. repeat split; auto using mirrored_rev, mirrored_flip. Qed.
End LP.

Lemma dtab_rev E l : rev l = l -> rev (dtab (E, l)) = dtab (E, l).
Proof. intros H. unfold dtab. cbn [fst snd]. rewrite <- map_rev, H. reflexivity. Qed.
Lemma zlen_dtab t : zlen (dtab t) = zlen (snd t).
Proof. unfold dtab. apply zlen_map. Qed.
Lemma dec_0 E : dec E 0 = r0.
Proof. change (@r0 Qcring) with (Q2Qc 0). unfold dec. apply Q2Qc_eq_iff. unfold Qeq. cbn. lia. Qed.
Lemma dec_inj E z z' : dec E z = dec E z' -> z = z'.
Proof.
  intros H. unfold dec in H. apply Q2Qc_eq_iff in H. unfold Qeq in H. cbn [Qnum Qden] in H. apply Z.mul_reg_r in H; [exact H|lia].
Qed.
Lemma dec_opp E z : dec E (- z) = [--] dec E z.
Proof. unfold dec. change (@ropp Qcring) with Qcopp. unfold Qcopp. apply Q2Qc_eq_iff. cbn [this Q2Qc]. rewrite Qred_correct. unfold Qeq. cbn. lia. Qed.
Lemma gz_dtab t i : gz (dtab t) i = dec (fst t) (@gz Zring (snd t) i).
Proof.
  unfold dtab, gz. destruct (0 <=? i); [|symmetry; apply dec_0]. change (@r0 Zring) with 0. rewrite <- (dec_0 (fst t)). apply map_nth.
Qed.

(** ** Checks of the tables *)
Definition pal (t : positive * list Z) : bool := forallb (fun '(a, b) => a =? b) (combine (snd t) (rev (snd t))) && (zlen (snd t) mod 2 =? 0).
Lemma pal_ok t : pal t = true -> rev (dtab t) = dtab t /\ zlen (dtab t) mod 2 = 0.
Proof.
  unfold pal. intros H. apply andb_true_iff in H. destruct H as (H & E). apply Z.eqb_eq in E. rewrite zlen_dtab. split; [|exact E]. destruct t as [e l]. cbn [snd] in *.
  apply dtab_rev. assert (L : Datatypes.length l = Datatypes.length (rev l)) by (rewrite rev_length; reflexivity). revert H L. generalize (rev l). clear. induction l as [|a l IH]; intros [|b r] H L; try discriminate; [reflexivity|].
  cbn in H. apply andb_true_iff in H. destruct H as (A & B). apply Z.eqb_eq in A. subst b. f_equal. apply IH; [exact B|cbn in L; lia].
Qed.
Definition mirror_at (c : Z) (l : list Z) : bool := forallb (fun i => @gz Zring l (c - i) =? @gz Zring l i) (tab (zlen l) (fun i => i)).
Lemma mirror_ok c t : mirror_at c (snd t) = true -> mirrored (dtab t).
Proof.
  unfold mirror_at. intros H. rewrite forallb_forall in H. exists c, r1. split; [left; reflexivity|].
  assert (G : forall i, 0 <= i < zlen (snd t) -> @gz Zring (snd t) (c - i) = @gz Zring (snd t) i).
  { intros i Hi. apply Z.eqb_eq. apply H. unfold tab. apply in_map_iff. exists (Z.to_nat i). split; [lia|]. apply in_seq. lia. }
  intros i. pose proof (zlen_nonneg (snd t)) as NN. assert (O : forall k, k < 0 \/ zlen (snd t) <= k -> @gz Zring (snd t) k = 0) by (intros k Hk; apply (gz_out Zring); exact Hk). rewrite !gz_dtab. transitivity (dec (fst t) (@gz Zring (snd t) i)); [f_equal|symmetry; apply Qcmult_1_l].
  destruct (Z.lt_ge_cases i 0) as [A|A], (Z.lt_ge_cases i (zlen (snd t))) as [B|B]; try (apply G; lia).
  all: destruct (Z.lt_ge_cases (c - i) 0) as [A'|A'], (Z.lt_ge_cases (c - i) (zlen (snd t))) as [B'|B'].
  all: try lia; try (rewrite (O i) by lia; rewrite (O (c - i)) by lia; reflexivity).
  all: pose proof (G (c - i) ltac:(lia)) as E; replace (c - (c - i)) with i in E by lia; symmetry; exact E.
Qed.
(** The first and the last entry are not zero and differ in absolute value. *)
Definition ends_differ (t : positive * list Z) : bool :=
  let a := @gz Zring (snd t) 0 in let b := @gz Zring (snd t) (zlen (snd t) - 1) in negb (a =? 0) && negb (b =? 0) && negb (Z.abs a =? Z.abs b).
Lemma ends_ok t : ends_differ t = true -> ~ mirrored (dtab t).
Proof.
  unfold ends_differ. cbv zeta. intros H (c & s & Hs & E). set (F := zlen (snd t)) in *. set (a := @gz Zring (snd t) 0) in *. set (b := @gz Zring (snd t) (F - 1)) in *.
  assert (E' : exists e, (e = 1 \/ e = -1) /\ forall i, @gz Zring (snd t) (c - i) = e * @gz Zring (snd t) i).
  { destruct Hs as [-> | ->].
    - exists 1. split; [left; reflexivity|]. intros i. apply (dec_inj (fst t)). rewrite <- gz_dtab, E, gz_dtab, Z.mul_1_l. apply Qcmult_1_l.
    - exists (-1). split; [right; reflexivity|]. intros i. apply (dec_inj (fst t)). rewrite <- gz_dtab, E, gz_dtab.
      replace (-1 * @gz Zring (snd t) i) with (- @gz Zring (snd t) i) by lia. rewrite dec_opp. 
      generalize (dec (fst t) (@gz Zring (snd t) i)). intros q. change (Qcmult (Qcopp 1) q = Qcopp q). ring. }
  destruct E' as (e & He & G). pose proof (G 0) as G0. pose proof (G (F - 1)) as G1. rewrite Z.sub_0_r in G0. fold a in G0. fold b in G1.
  assert (c = F - 1). { assert (~ (c < 0 \/ F <= c)). { intros O. rewrite (gz_out Zring _ c) in G0 by exact O. change (@r0 Zring) with 0 in G0. lia. }
    assert (~ (c - (F - 1) < 0 \/ F <= c - (F - 1))). { intros O. rewrite (gz_out Zring _ (c - (F - 1))) in G1 by exact O. change (@r0 Zring) with 0 in G1. lia. } lia. }
  subst c. fold b in G0. lia.
Qed.
Lemma db_ends : forallb ends_differ (tl db_list) = true. Proof. vm_compute. reflexivity. Qed.
Lemma sym_ends : forallb ends_differ sym_list = true. Proof. vm_compute. reflexivity. Qed.
Lemma coif_ends : forallb (fun t => ends_differ (tscale t sqrt2_z)) coif_list = true. Proof. vm_compute. reflexivity. Qed.
Lemma bior_pal : forallb (fun '(n, q) => if (n / 10 =? 1) || (n / 10 =? 3) then pal (fst (bior_z q)) && pal (snd (bior_z q)) else true) bior_list = true.
Proof. vm_compute. reflexivity. Qed.
Lemma bior_mirror : forallb (fun '(n, q) => let c := snd q - (if (n / 10 =? 1) || (n / 10 =? 3) then 1 else 2) in mirror_at c (snd (fst (bior_z q))) && mirror_at c (snd (snd (bior_z q)))) bior_list = true.
Proof. vm_compute. reflexivity. Qed.
Lemma dmey_mirror : mirror_at 60 (snd dmey_z) = true.
Proof. vm_compute. reflexivity. Qed.

Theorem bior_linear_phase fuel name n w : (name = BIOR \/ name = RBIO) -> uint_range n -> 22 < Z.of_nat fuel -> n / 10 = 1 \/ n / 10 = 3 ->
  discrete_wavelet fuel builtin name n = Ok (Some w) -> linear_phase (w_bank w).
Proof.
  intros Hname Hn Hf Ho E. pose proof builtin_ok as BO.
  assert (G : forall q, lookup n = Some q -> linear_phase (bi_bank (bior_synth _ builtin q) (bior_ana _ builtin q)) /\ linear_phase (bi_bank (bior_ana _ builtin q) (bior_synth _ builtin q))).
  { intros q Hq. apply lookup_in in Hq. destruct (bior_forms _ _ Hq) as (-> & ->). pose proof bior_pal as Hp. rewrite forallb_forall in Hp. specialize (Hp _ Hq). cbn beta iota in Hp.
    replace ((n / 10 =? 1) || (n / 10 =? 3)) with true in Hp by (destruct Ho as [-> | ->]; reflexivity). apply andb_true_iff in Hp. destruct Hp as (P1 & P2).
    apply pal_ok in P1, P2. destruct P1, P2. split; apply bi_bank_lp; assumption. }
  destruct Hname as [-> | ->].
  - rewrite bior_structure in E by auto. destruct (lookup n) as [q|] eqn:Q; [|discriminate]. match type of E with Ok (Some ?v) = _ => assert (Ew : w = v) by congruence end. rewrite Ew. cbn [w_bank]. apply G. reflexivity.
  - rewrite rbio_structure in E by auto. rewrite bior_structure in E by auto. destruct (lookup n) as [q|] eqn:Q; [|discriminate]. cbv zeta in E. match type of E with Ok (Some ?v) = _ => assert (Ew : w = v) by congruence end. rewrite Ew. cbn [w_bank].
    rewrite (bi_swap _ _ _ eq_refl). apply G. reflexivity.
Qed.
Lemma db1_form fuel w : discrete_wavelet fuel builtin DB 1 = Ok (Some w) -> w_bank w = bi_bank (dtab db1_z) (dtab db1_z).
Proof.
  intros D. pose proof (db_structure Qcring fuel builtin 1 builtin_ok ltac:(unfold uint_range; lia)) as S. rewrite D in S. cbv zeta in S. cbn [Z.leb Z.compare andb Pos.compare Pos.compare_cont] in S. 
  match type of S with _ = Ok (Some ?v) => assert (Ew : w = v) by congruence end. rewrite Ew. cbn [w_bank]. unfold builtin. cbn [t_db]. rewrite nthZ_map by (vm_compute; split; [discriminate|reflexivity]). reflexivity.
Qed.
Theorem haar_linear_phase fuel name n w : (name = HAAR \/ name = DB /\ n = 1) -> discrete_wavelet fuel builtin name n = Ok (Some w) -> linear_phase (w_bank w).
Proof.
  intros H E. assert (D : discrete_wavelet fuel builtin DB 1 = Ok (Some w)).
  { destruct H as [-> | (-> & ->)]; [|exact E]. rewrite haar_structure in E by apply builtin_ok. exact E. }
  rewrite (db1_form _ _ D). destruct (pal_ok db1_z ltac:(reflexivity)) as (A & B). apply bi_bank_lp; assumption.
Qed.

(** ** The attribute *)
Theorem symmetry_true fuel name n w : uint_range n -> 22 < Z.of_nat fuel -> name <> HAAR -> (name = DB -> n <> 1) ->
  discrete_wavelet fuel builtin name n = Ok (Some w) -> let b := w_bank w in
  (discrete_symmetry name = "symmetric"%string -> mirrored (dec_lo b) /\ mirrored (dec_hi b) /\ mirrored (rec_lo b) /\ mirrored (rec_hi b)) /\
  (discrete_symmetry name <> "symmetric"%string -> ~ mirrored (dec_lo b) /\ ~ mirrored (dec_hi b) /\ ~ mirrored (rec_lo b) /\ ~ mirrored (rec_hi b)).
Proof.
  intros Hn Hf H1 H2 E b. unfold b. clear b. pose proof builtin_ok as BO.
  assert (G : forall q, lookup n = Some q -> mirrored (bior_synth _ builtin q) /\ mirrored (bior_ana _ builtin q)).
  { intros q Hq. apply lookup_in in Hq. destruct (bior_forms _ _ Hq) as (-> & ->). pose proof bior_mirror as Hp. rewrite forallb_forall in Hp. specialize (Hp _ Hq). cbv beta iota zeta in Hp.
    apply andb_true_iff in Hp. destruct Hp as (P1 & P2). split; eapply mirror_ok; eassumption. }
  destruct name; [ | | | | | | | discriminate E ..].
  - congruence.
  - split; [intros _|intros X; elim X; reflexivity]. rewrite rbio_structure in E by auto. rewrite bior_structure in E by auto. destruct (lookup n) as [q|] eqn:Q; [|discriminate]. cbv zeta in E. match type of E with Ok (Some ?v) = _ => assert (Ew : w = v) by congruence end. rewrite Ew. cbn [w_bank].
    rewrite (bi_swap _ _ _ eq_refl). destruct (G q eq_refl). apply bi_bank_mirrored; assumption.
  - split; [discriminate|intros _]. rewrite db_structure in E by auto. destruct ((1 <=? n) && (n <=? 38)) eqn:B; [|discriminate]. cbv zeta in E. match type of E with Ok (Some ?v) = _ => assert (Ew : w = v) by congruence end. rewrite Ew. cbn [w_bank].
    specialize (H2 eq_refl). apply andb_true_iff in B. apply bi_bank_not_mirrored. unfold builtin. cbn [t_db]. rewrite nthZ_map by (change (zlen db_list) with 38; lia). apply ends_ok.
    pose proof (nth_check _ (tl db_list) (n - 2) db_ends ltac:(change (zlen (tl db_list)) with 37; lia)) as K.
    replace (Z.to_nat (n - 1)) with (S (Z.to_nat (n - 2))) by lia. exact K.
  - split; [discriminate|intros _]. rewrite sym_structure in E by auto. destruct ((2 <=? n) && (n <=? 20)) eqn:B; [|discriminate]. cbv zeta in E. match type of E with Ok (Some ?v) = _ => assert (Ew : w = v) by congruence end. rewrite Ew. cbn [w_bank].
    apply andb_true_iff in B. apply bi_bank_not_mirrored. unfold builtin. cbn [t_sym]. rewrite nthZ_map by (change (zlen sym_list) with 19; lia). apply ends_ok.
    exact (nth_check _ sym_list (n - 2) sym_ends ltac:(change (zlen sym_list) with 19; lia)).
  - split; [discriminate|intros _]. rewrite coif_structure in E by auto. destruct ((1 <=? n) && (n <=? 17)) eqn:B; [|discriminate]. cbv zeta in E. match type of E with Ok (Some ?v) = _ => assert (Ew : w = v) by congruence end. rewrite Ew. cbn [w_bank].
    apply andb_true_iff in B. apply bi_bank_not_mirrored. unfold builtin. cbn [t_coif t_sqrt2]. rewrite nthZ_map by (change (zlen coif_list) with 17; lia). rewrite (dtab_scale _ sqrt2_z). apply ends_ok.
    exact (nth_check (fun t => ends_differ (tscale t sqrt2_z)) coif_list (n - 1) coif_ends ltac:(change (zlen coif_list) with 17; lia)).
  - split; [intros _|intros X; elim X; reflexivity]. rewrite bior_structure in E by auto. destruct (lookup n) as [q|] eqn:Q; [|discriminate]. match type of E with Ok (Some ?v) = _ => assert (Ew : w = v) by congruence end. rewrite Ew. cbn [w_bank].
    destruct (G q eq_refl). apply bi_bank_mirrored; assumption.
  - split; [intros _|intros X; elim X; reflexivity]. rewrite dmey_structure in E by auto. cbv zeta in E. match type of E with Ok (Some ?v) = _ => assert (Ew : w = v) by congruence end. rewrite Ew. cbn [w_bank].
    assert (M : mirrored (t_dmey builtin)) by (unfold builtin; cbn [t_dmey]; apply (mirror_ok 60); exact dmey_mirror). apply bi_bank_mirrored; exact M.
Qed.
Theorem haar_symmetric fuel name n w : (name = HAAR \/ name = DB /\ n = 1) -> discrete_wavelet fuel builtin name n = Ok (Some w) -> let b := w_bank w in
  discrete_symmetry name = "asymmetric"%string /\ mirrored (dec_lo b) /\ mirrored (dec_hi b) /\ mirrored (rec_lo b) /\ mirrored (rec_hi b).
Proof.
  intros H E b. unfold b. split; [destruct H as [-> | (-> & _)]; reflexivity|]. assert (D : discrete_wavelet fuel builtin DB 1 = Ok (Some w)).
  { destruct H as [-> | (-> & ->)]; [|exact E]. rewrite haar_structure in E by apply builtin_ok. exact E. }
  rewrite (db1_form _ _ D). apply bi_bank_mirrored; apply (mirror_ok 1); reflexivity.
Qed.
Lemma haar_refutes : exists name n w, discrete_wavelet 40 builtin name n = Ok (Some w) /\ discrete_symmetry name <> "symmetric"%string /\ mirrored (dec_lo (w_bank w)).
Proof.
  destruct (discrete_wavelet 40 builtin DB 1) as [[w|]| | |] eqn:D.
  1: { exists DB, 1, w. split; [exact D|]. split; [discriminate|]. apply (haar_symmetric 40 DB 1 w ltac:(right; split; reflexivity) D). }
  all: pose proof (db_structure Qcring 40 builtin 1 builtin_ok ltac:(unfold uint_range; lia)) as S; cbv zeta in S; rewrite D in S; discriminate S.
Qed.
