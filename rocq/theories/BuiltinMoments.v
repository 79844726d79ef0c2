(** The vanishing moments announced by the built-in wavelets. *)
From Verif Require Import Base BaseLemmas CConv Spec Instances Lengths Dwt FilterSpec Filters FiltersProofs FiltersFacts PRError Tables TablesProofs TablesFacts WavefunSpec MomentSpec TableMoments.
From Coq Require Import QArith Qcanon Qcabs.
Open Scope Z_scope.

Lemma numbered_nth {A} (P : nat * A -> bool) from (l : list A) i d : forallb P (numbered from l) = true -> (i < Datatypes.length l)%nat -> P ((from + i)%nat, nth i l d) = true.
Proof.
  intros H Hi. rewrite forallb_forall in H. apply H. clear H. revert from i Hi. induction l as [|a l IH]; intros from i Hi; cbn [Datatypes.length] in Hi; [lia|].
  unfold numbered. cbn [Datatypes.length seq combine]. destruct i as [|i]; [left; rewrite Nat.add_0_r; reflexivity|]. right. cbn [nth].
  replace (from + S i)%nat with (S from + i)%nat by lia. apply IH. lia.
Qed.

(** How small the vanishing moments are, and how large the next one is. *)
Definition vanishing (name : family) : R :=
  match name with HAAR | DB | COIF => ratio 1 (10 ^ 60) | _ => ratio 3 (10 ^ 11) end.
Definition present (name : family) : R :=
  match name with HAAR | DB => ratio 1 (10 ^ 10) | SYM => ratio 1 (10 ^ 7) | COIF => ratio 1 (10 ^ 16) | _ => ratio 1 (10 ^ 3) end.

Lemma bior_forms n q : In (n, q) bior_list -> bior_synth _ builtin q = dtab (fst (bior_z q)) /\ bior_ana _ builtin q = dtab (snd (bior_z q)).
Proof.
  intros Hin. unfold bior_synth, bior_ana, bior_z, builtin. cbn [t_bior]. unfold bior_list in Hin. cbn [In] in Hin.
  repeat (destruct Hin as [Hin|Hin]; [injection Hin as _ <-; cbn [fst snd nthZ]; rewrite <- ?dtab_window; split; reflexivity|]). contradiction.
Qed.
Lemma lookup_in n q : lookup n = Some q -> In (n, q) bior_list.
Proof.
  unfold lookup. destruct (find _ bior_list) as [[k q']|] eqn:E; [|discriminate]. intros H. injection H as ->. apply find_some in E. destruct E as (Hin & Hk).
  cbn in Hk. apply Z.eqb_eq in Hk. subst k. exact Hin.
Qed.

Definition psi_claim (w : dwave Qcring) (eps del : R) (last : bool) : Prop :=
  let h := dec_hi (w_bank w) in
  (forall r, Z.of_nat r < w_psi w -> (qabs (moment h r) [<=] eps [*] moment (map qabs h) r)) /\
  (last = true -> ~ (qabs (binomial_moment h (Z.to_nat (w_psi w))) [<=] del [*] binomial_moment (map qabs h) (Z.to_nat (w_psi w)))).

Lemma numbered_len_db i : 0 <= i < 38 -> zlen (snd (nth (Z.to_nat i) db_list (1%positive, []))) = 2 * (i + 1).
Proof.
  intros Hi. destruct (db_tab i Hi) as (H & _). unfold builtin in H. cbn [t_db] in H. rewrite nthZ_map in H by exact Hi. rewrite zlen_dtab in H. exact H.
Qed.
Lemma numbered_len_sym i : 0 <= i < 19 -> zlen (snd (nth (Z.to_nat i) sym_list (1%positive, []))) = 2 * (i + 2).
Proof.
  intros Hi. destruct (sym_tab i Hi) as (H & _). unfold builtin in H. cbn [t_sym] in H. rewrite nthZ_map in H by exact Hi. rewrite zlen_dtab in H. exact H.
Qed.
Lemma numbered_len_coif i : 0 <= i < 17 -> zlen (snd (nth (Z.to_nat i) coif_list (1%positive, []))) = 6 * (i + 1).
Proof.
  intros Hi. destruct (coif_tab i Hi) as (H & _). rewrite zlen_map in H. unfold builtin in H. cbn [t_coif] in H. rewrite nthZ_map in H by exact Hi. rewrite zlen_dtab in H. exact H.
Qed.

Theorem psi_moments fuel name n : uint_range n -> 22 < Z.of_nat fuel -> valid_order name n = true -> name <> RBIO -> name <> DMEY ->
  exists w, discrete_wavelet fuel builtin name n = Ok (Some w) /\ 1 <= w_psi w /\
    psi_claim w (vanishing name) (present name) (negb (n =? 55) || match name with BIOR => false | _ => true end).
Proof.
  intros Hn Hf Hv N1 N2. pose proof builtin_ok as HT.
  assert (HDB : forall m l, 1 <= m <= 38 -> exists w, discrete_wavelet fuel builtin DB m = Ok (Some w) /\ 1 <= w_psi w /\ psi_claim w (ratio 1 (10 ^ 60)) (ratio 1 (10 ^ 10)) l).
  { intros m l Hm. rewrite db_structure by (auto; unfold uint_range; lia). replace ((1 <=? m) && (m <=? 38)) with true by lia. cbv zeta.
    eexists. split; [reflexivity|]. unfold psi_claim. cbn [w_bank w_psi]. split; [lia|]. unfold builtin. cbn [t_db]. rewrite nthZ_map by (change (zlen db_list) with 38; lia).
    pose proof (numbered_nth _ 1 db_list (Z.to_nat (m - 1)) (1%positive, []) db_moments ltac:(change (Datatypes.length db_list) with 38%nat; lia)) as H.
    cbv beta iota in H. apply andb_true_iff in H as (H1 & H2). pose proof (numbered_len_db (m - 1) ltac:(lia)) as L.
    replace (1 + Z.to_nat (m - 1))%nat with (Z.to_nat m) in H1, H2 by lia.
    set (t := nth (Z.to_nat (m - 1)) db_list (1%positive, [])) in *. clearbody t. split.
    - intros r Hr. apply (hi_check_ok 200 1 (10 ^ 60) (Z.to_nat m)); [lia|exact H1|lia|lia|vm_compute; discriminate|lia].
    - intros _. apply (last_check_ok 1 (10 ^ 10)); [lia|exact H2]. }
  destruct name; cbn [valid_order] in Hv; try discriminate; try congruence; cbn [vanishing present].
  - rewrite haar_structure by auto. apply HDB. lia.
  - apply andb_true_iff in Hv. apply HDB. lia.
  - rewrite sym_structure by auto. rewrite Hv. cbv zeta. apply andb_true_iff in Hv. 
    eexists. split; [reflexivity|]. unfold psi_claim. cbn [w_bank w_psi]. split; [lia|]. unfold builtin. cbn [t_sym]. rewrite nthZ_map by (change (zlen sym_list) with 19; lia).
    pose proof (numbered_nth _ 2 sym_list (Z.to_nat (n - 2)) (1%positive, []) sym_moments ltac:(change (Datatypes.length sym_list) with 19%nat; lia)) as H.
    cbv beta iota in H. apply andb_true_iff in H as (H1 & H2). pose proof (numbered_len_sym (n - 2) ltac:(lia)) as L.
    replace (2 + Z.to_nat (n - 2))%nat with (Z.to_nat n) in H1, H2 by lia.
    set (t := nth (Z.to_nat (n - 2)) sym_list (1%positive, [])) in *. clearbody t. split.
    + intros r Hr. apply (hi_check_ok 35 3 (10 ^ 11) (Z.to_nat n)); [lia|exact H1|lia|lia|vm_compute; discriminate|lia].
    + intros _. apply (last_check_ok 1 (10 ^ 7)); [lia|exact H2].
  - rewrite coif_structure by auto. rewrite Hv. cbv zeta. apply andb_true_iff in Hv.
    eexists. split; [reflexivity|]. unfold psi_claim. cbn [w_bank w_psi]. split; [lia|]. unfold builtin. cbn [t_coif t_sqrt2]. rewrite nthZ_map by (change (zlen coif_list) with 17; lia).
    rewrite (dtab_scale _ sqrt2_z).
    pose proof (numbered_nth _ 1 coif_list (Z.to_nat (n - 1)) (1%positive, []) coif_moments ltac:(change (Datatypes.length coif_list) with 17%nat; lia)) as H.
    cbv beta iota in H. apply andb_true_iff in H as (H1 & H2). pose proof (numbered_len_coif (n - 1) ltac:(lia)) as L.
    replace (2 * (1 + Z.to_nat (n - 1)))%nat with (Z.to_nat (2 * n)) in H1, H2 by lia.
    set (t := nth (Z.to_nat (n - 1)) coif_list (1%positive, [])) in *. clearbody t. split.
    + intros r Hr. apply (hi_check_scal 200 1 (10 ^ 60) (Z.to_nat (2 * n))); [lia|exact H1|lia|lia|vm_compute; discriminate|lia].
    + intros _. apply (last_check_scal 1 (10 ^ 16)); [lia|exact H2|discriminate].
  - pose proof (lookup_valid n) as L. rewrite Hv in L. destruct L as (q & Hq).
    rewrite bior_structure by auto. rewrite Hq. pose proof (lookup_len _ builtin n q HT Hq) as LL. pose proof (lookup_in n q Hq) as Hin. destruct (bior_forms n q Hin) as (Ea & Eb).
    eexists. split; [reflexivity|]. unfold psi_claim. cbn [w_bank w_psi].
    assert (Hn1 : 1 <= n / 10). { clear -Hin. unfold bior_list in Hin. cbn [In] in Hin. repeat (destruct Hin as [Hin|Hin]; [injection Hin as <- _; vm_compute; discriminate|]). contradiction. }
    split; [exact Hn1|]. pose proof bior_moments as H. rewrite forallb_forall in H. specialize (H _ Hin). cbv beta iota in H. apply andb_true_iff in H as (H1 & H2).
    destruct LL as (L0 & _ & LE). rewrite <- L0 in LE. rewrite Ea in *. rewrite zlen_dtab in LE. set (t := fst (bior_z q)) in *. split.
    + intros r Hr. apply (hi_check_ok 35 3 (10 ^ 11) (Z.to_nat (n / 10))); [exact LE|exact H1|lia|lia|vm_compute; discriminate|lia].
    + intros Hl. rewrite orb_false_r in Hl. apply orb_true_iff in H2 as [H2|H2]; [rewrite H2 in Hl; discriminate|]. apply (last_check_ok 1 (10 ^ 3)); [exact LE|exact H2].
Qed.

(** ** The reversed biorthogonal wavelets *)
Lemma rbio_checks : forallb (fun '(n, q) => (n =? 55) || (hi_check 35 (Z.to_nat (n mod 10)) (snd (bior_z q)) && last_check 1 (10 ^ 3) (Z.to_nat (n mod 10)) (snd (bior_z q)))) bior_list = true.
Proof. vm_compute. reflexivity. Qed.

Theorem rbio_moments fuel n : uint_range n -> 22 < Z.of_nat fuel -> valid_order RBIO n = true -> n <> 55 ->
  exists w, discrete_wavelet fuel builtin RBIO n = Ok (Some w) /\ w_psi w = n / 10 /\ w_phi w = n mod 10 /\ let h := dec_hi (w_bank w) in
    (forall r, Z.of_nat r < w_phi w -> (qabs (moment h r) [<=] ratio 3 (10 ^ 11) [*] moment (map qabs h) r)) /\ ~ (qabs (binomial_moment h (Z.to_nat (w_phi w))) [<=] ratio 1 (10 ^ 3) [*] binomial_moment (map qabs h) (Z.to_nat (w_phi w))).
Proof.
  intros Hn Hf Hv N. pose proof builtin_ok as HT. cbn [valid_order] in Hv.
  pose proof (lookup_valid n) as L. rewrite Hv in L. destruct L as (q & Hq). rewrite rbio_structure by auto.
  rewrite bior_structure by auto. rewrite Hq. cbv zeta. cbn [w_bank w_psi w_phi].
  rewrite (bi_swap _ _ _ eq_refl). pose proof (lookup_len _ builtin n q HT Hq) as LL. pose proof (lookup_in n q Hq) as Hin. destruct (bior_forms n q Hin) as (Ea & Eb).
  eexists. split; [reflexivity|]. cbn [w_bank w_psi w_phi]. split; [reflexivity|]. split; [reflexivity|].
  pose proof rbio_checks as H. rewrite forallb_forall in H. specialize (H _ Hin). cbv beta iota in H. apply orb_true_iff in H as [H|H]; [lia|].
  apply andb_true_iff in H as (H1 & H2). destruct LL as (_ & _ & LE). rewrite Eb in *. rewrite zlen_dtab in LE. set (t := snd (bior_z q)) in *.
  pose proof (Z.mod_pos_bound n 10 ltac:(lia)). split.
  - intros r Hr. apply (hi_check_ok 35 3 (10 ^ 11) (Z.to_nat (n mod 10))); [exact LE|exact H1|lia|lia|vm_compute; discriminate|lia].
  - apply (last_check_ok 1 (10 ^ 3)); [exact LE|exact H2].
Qed.

Lemma choose_1 n : choose n 1 = Z.of_nat n.
Proof. induction n as [|n IH]; [reflexivity|]. cbn [choose] in *. destruct n; cbn [choose] in *; lia. Qed.
Lemma binomial_1 (h : list R) : binomial_moment h 1 = moment h 1.
Proof.
  unfold binomial_moment, moment. apply sumZ_ext. intros k Hk. rewrite choose_1, Z2Nat.id by lia. cbn [powr]. ring.
Qed.

(** rbio3.1 announces three vanishing moments; the second one is half of the sum of the absolute values. *)
Theorem rbio_psi fuel : 22 < Z.of_nat fuel -> exists w r, discrete_wavelet fuel builtin RBIO 31 = Ok (Some w) /\ w_psi w = 3 /\ Z.of_nat r < w_psi w /\ let h := dec_hi (w_bank w) in ~ (qabs (moment h r) [<=] ratio 1 3 [*] moment (map qabs h) r).
Proof.
  intros Hf. pose proof builtin_ok as HT. rewrite rbio_structure by (auto; unfold uint_range; lia). rewrite bior_structure by (auto; unfold uint_range; lia).
  destruct (lookup 31) as [q|] eqn:Hq; [|discriminate]. cbv zeta. cbn [w_bank]. rewrite (bi_swap _ _ _ eq_refl).
  pose proof (lookup_len _ builtin 31 q HT Hq) as (_ & _ & LE). destruct (bior_forms 31 q (lookup_in 31 q Hq)) as (Ea & Eb).
  eexists _, 1%nat. split; [reflexivity|]. split; [reflexivity|]. cbn [w_psi w_bank]. split; [reflexivity|].
  rewrite Eb in *. rewrite zlen_dtab in LE. rewrite <- !binomial_1. apply (last_check_ok 1 3); [exact LE|].
  vm_compute in Hq. injection Hq as <-. vm_compute. reflexivity.
Qed.
(** bior5.5 announces five, and has six. *)
Theorem bior55_psi fuel : exists w, discrete_wavelet fuel builtin BIOR 55 = Ok (Some w) /\ w_psi w = 5 /\ let h := dec_hi (w_bank w) in forall r, (r < 6)%nat -> (qabs (moment h r) [<=] ratio 3 (10 ^ 11) [*] moment (map qabs h) r).
Proof.
  pose proof builtin_ok as HT. rewrite bior_structure by (auto; unfold uint_range; lia).
  destruct (lookup 55) as [q|] eqn:Hq; [|discriminate]. pose proof (lookup_len _ builtin 55 q HT Hq) as (L0 & _ & LE). destruct (bior_forms 55 q (lookup_in 55 q Hq)) as (Ea & Eb).
  eexists. split; [reflexivity|]. split; [reflexivity|]. cbn [w_psi w_bank]. rewrite <- L0 in LE. rewrite Ea in *. rewrite zlen_dtab in LE.
  intros r Hr. apply (hi_check_ok 35 3 (10 ^ 11) 6); [exact LE| |lia|lia|vm_compute; discriminate|exact Hr].
  vm_compute in Hq. injection Hq as <-. vm_compute. reflexivity.
Qed.
