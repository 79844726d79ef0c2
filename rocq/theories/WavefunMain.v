(** Consequences for the arrays returned by wavefun, integrate_wavelet and
    central_frequency. *)
From Coq Require Import QArith.
From Verif Require Import Base BaseLemmas CConv Spec Lengths Dwt DwtProofs Swt Multilevel MultilevelProofs.
From Verif Require Import FilterSpec Filters FiltersProofs FiltersFacts Cwt CwtSpec CwtProofs Wavefun WavefunSpec WavefunProofs WavefunFacts.
Open Scope Z_scope.

Section WM.
Variable C : CRing.
Add Ring Cring_ring_wfm : (rth C).
Notation "a [+] b" := (radd a b). Notation "a [*] b" := (rmul a b).
Variable fuel : nat.
Variable s : C.

Lemma supp_len orth F level : 2 <= F -> F mod 2 = 0 -> 1 <= level -> supp F (Z.to_nat level) + 1 <= wavefun_len orth F level.
Proof.
  intros HF He HL. unfold supp, wavefun_len. rewrite Z2Nat.id by lia.
  destruct (Z.eqb_spec F 2) as [->|]; [destruct orth; lia|]. destruct orth; nia.
Qed.

Lemma orth_holds (W : dwave C) level phi psi x :
  wf_bank (w_bank W) -> wf_res fuel (dec_len (w_bank W)) level ->
  wavefun fuel s W level = Ok (WfOrth phi psi x) ->
  let h := rec_lo (w_bank W) in let g := rec_hi (w_bank W) in
  1 <= level /\ exists n, Z.to_nat level = S n /\ level = Z.of_nat (S n) /\ zlen g = zlen h /\ 2 <= zlen h /\ zlen phi = zlen psi /\ zlen x = zlen psi /\ 2 < zlen psi /\
  holds C s phi r1 h h (S n) /\ holds C s psi r1 g h (S n) /\
  (forall i, 0 <= i < zlen x -> (nth (Z.to_nat i) x 0 == inject_Z i / inject_Z (2 ^ level))%Q).
Proof.
  intros Hw Hr E h g. pose proof Hw as (H1 & H2 & H3 & H4 & H5).
  destruct (Z.ltb_spec level 1) as [HL|HL]; [rewrite wavefun_level in E by auto; discriminate|].
  destruct (w_orthogonal W) eqn:Ho.
  2:{ destruct (wavefun_bior C fuel s W level Hw Ho HL Hr) as (? & ? & ? & ? & ? & E2 & _). rewrite E2 in E. discriminate. }
  destruct (wavefun_orth C fuel s W level Hw Ho HL Hr) as (phi' & psi' & x' & E2 & L1 & L2 & L3 & G1 & G2 & G3).
  rewrite E2 in E. injection E as -> -> ->. split; [exact HL|].
  exists (Z.to_nat (level - 1)). fold h in H2, G1, G2. fold g in H3, G2.
  assert (EL : Z.to_nat level = S (Z.to_nat (level - 1))) by lia.
  pose proof (supp_len true (dec_len (w_bank W)) level H5 H4 HL) as HS.
  assert (Hsp : 1 <= supp (dec_len (w_bank W)) (Z.to_nat level) - 1).
  { unfold supp. rewrite Z2Nat.id by lia. assert (2 <= 2 ^ level) by (replace level with (1 + (level - 1)) by lia; rewrite Z.pow_add_r by lia; pose proof (Z.pow_pos_nonneg 2 (level - 1)); lia). nia. }
  split; [exact EL|]. split; [lia|]. split; [congruence|]. split; [lia|]. split; [congruence|]. split; [congruence|]. split; [lia|].
  split; [|split].
  - split; [rewrite H2, <- EL; lia|]. intros i. rewrite G1, EL, cascade_self by lia. ring.
  - split; [rewrite H2, <- EL; lia|]. intros i. rewrite G2, EL. ring.
  - intros i Hi. apply G3. lia.
Qed.

Lemma bior_holds (W : dwave C) level phi_d psi_d phi_r psi_r x :
  wf_bank (w_bank W) -> wf_res fuel (dec_len (w_bank W)) level ->
  wavefun fuel s W level = Ok (WfBior phi_d psi_d phi_r psi_r x) ->
  let w := w_bank W in
  1 <= level /\ exists n q, (q = r1 \/ q = ropp r1) /\ Z.to_nat level = S n /\ level = Z.of_nat (S n) /\
    zlen (rec_lo w) = dec_len w /\ zlen (rec_hi w) = dec_len w /\ zlen (rev (dec_lo w)) = dec_len w /\ zlen (rev (dec_hi w)) = dec_len w /\ 2 <= dec_len w /\
    zlen phi_d = zlen psi_d /\ zlen psi_r = zlen psi_d /\ zlen phi_r = zlen psi_d /\ zlen x = zlen psi_d /\ 2 < zlen psi_d /\
    holds C s phi_d r1 (rev (dec_lo w)) (rev (dec_lo w)) (S n) /\ holds C s psi_d q (rev (dec_hi w)) (rev (dec_lo w)) (S n) /\
    holds C s phi_r r1 (rec_lo w) (rec_lo w) (S n) /\ holds C s psi_r q (rec_hi w) (rec_lo w) (S n) /\
  (forall i, 0 <= i < zlen x -> (nth (Z.to_nat i) x 0 == inject_Z i / inject_Z (2 ^ level))%Q).
Proof.
  intros Hw Hr E w. pose proof Hw as (H1 & H2 & H3 & H4 & H5).
  destruct (Z.ltb_spec level 1) as [HL|HL]; [rewrite wavefun_level in E by auto; discriminate|].
  destruct (w_orthogonal W) eqn:Ho.
  { destruct (wavefun_orth C fuel s W level Hw Ho HL Hr) as (? & ? & ? & E2 & _). rewrite E2 in E. discriminate. }
  destruct (wavefun_bior C fuel s W level Hw Ho HL Hr) as (a & b & c & d & x' & E2 & L1 & L2 & L3 & L4 & L5 & G1 & G2 & G3 & G4 & G5).
  rewrite E2 in E. injection E as -> -> -> -> ->. split; [exact HL|].
  exists (Z.to_nat (level - 1)).
  match type of G2 with forall i, _ = ?q [*] _ => exists q; split; [destruct (_ && _); auto|]; set (q0 := q) in * end.
  fold w in H1, H2, H3, H4, H5, L1, L2, L3, L4, L5, G1, G2, G3, G4, G5.
  assert (EL : Z.to_nat level = S (Z.to_nat (level - 1))) by lia.
  pose proof (supp_len false (dec_len w) level H5 H4 HL) as HS.
  assert (Hsp : 1 <= supp (dec_len w) (Z.to_nat level) - 1).
  { unfold supp. rewrite Z2Nat.id by lia. assert (2 <= 2 ^ level) by (replace level with (1 + (level - 1)) by lia; rewrite Z.pow_add_r by lia; pose proof (Z.pow_pos_nonneg 2 (level - 1)); lia). nia. }
  assert (R1 : zlen (rev (dec_lo w)) = dec_len w) by (rewrite zlen_rev; reflexivity).
  assert (R2 : zlen (rev (dec_hi w)) = dec_len w) by (rewrite zlen_rev; exact H1).
  repeat (split; [first [exact EL|lia|congruence|assumption]|]).
  split; [|split; [|split; [|split]]].
  - split; [rewrite R1, <- EL; lia|]. intros i. rewrite G1, EL, cascade_self by lia. ring.
  - split; [rewrite R1, <- EL; lia|]. intros i. rewrite G2, EL. ring.
  - split; [rewrite H2, <- EL; lia|]. intros i. rewrite G3, EL, cascade_self by lia. ring.
  - split; [rewrite H2, <- EL; lia|]. intros i. rewrite G4, EL. ring.
  - intros i Hi. apply G5. lia.
Qed.

Hypothesis Hs : s [*] s = r1 [+] r1.

Lemma two_half n : s [*] s [*] rz (2 ^ Z.of_nat n) = rz (2 ^ Z.of_nat (S n)).
Proof. rewrite Hs, pow2_S, rz_mul, rz_2. reflexivity. Qed.

Theorem orth_sums (W : dwave C) level phi psi x :
  wf_bank (w_bank W) -> wf_res fuel (dec_len (w_bank W)) level ->
  wavefun fuel s W level = Ok (WfOrth phi psi x) ->
  sumZ 0 (zlen (rec_lo (w_bank W))) (gz (rec_lo (w_bank W))) = s ->
  sumZ 0 (zlen phi) (gz phi) = rz (2 ^ level) /\
  (sumZ 0 (zlen (rec_hi (w_bank W))) (gz (rec_hi (w_bank W))) = r0 -> sumZ 0 (zlen psi) (gz psi) = r0).
Proof.
  intros Hw Hr E Hsum. destruct (orth_holds W level phi psi x Hw Hr E) as (HL & n & EL & EL2 & Hg & Hh & _ & _ & _ & H1 & H2 & _).
  split.
  - rewrite (holds_sum C s Hs phi r1 (rec_lo (w_bank W)) (rec_lo (w_bank W)) n) by (auto; lia).
    rewrite Hsum, EL2, <- two_half. ring.
  - intros H0. rewrite (holds_sum C s Hs psi r1 (rec_hi (w_bank W)) (rec_lo (w_bank W)) n) by (auto; lia).
    rewrite H0. ring.
Qed.

Theorem bior_sums (W : dwave C) level phi_d psi_d phi_r psi_r x : let w := w_bank W in
  wf_bank w -> wf_res fuel (dec_len w) level ->
  wavefun fuel s W level = Ok (WfBior phi_d psi_d phi_r psi_r x) ->
  (total (dec_lo w) = s -> total phi_d = rz (2 ^ level) /\ (total (dec_hi w) = r0 -> total psi_d = r0)) /\
  (total (rec_lo w) = s -> total phi_r = rz (2 ^ level) /\ (total (rec_hi w) = r0 -> total psi_r = r0)).
Proof.
  intros w Hw Hr E. unfold total. destruct (bior_holds W level _ _ _ _ _ Hw Hr E) as (HL & n & q & Hq & EL & EL2 & R1 & R2 & R3 & R4 & R5 & _ & _ & _ & _ & _ & H1 & H2 & H3 & H4 & _).
  fold w in R1, R2, R3, R4, R5, H1, H2, H3, H4.
  assert (Erev : forall l : list C, sumZ 0 (zlen (rev l)) (gz (rev l)) = sumZ 0 (zlen l) (gz l)).
  { intros l. rewrite zlen_rev. rewrite (sumZ_rev _ 0 (zlen l) (gz l)). apply sumZ_ext. intros t Ht. rewrite gz_rev by lia. f_equal. }
  split; intros Hsum; split.
  - rewrite (holds_sum C s Hs phi_d r1 (rev (dec_lo w)) (rev (dec_lo w)) n) by (solve [assumption | reflexivity | lia | rewrite Erev; exact Hsum]). rewrite Erev, Hsum, EL2, <- two_half. ring.
  - intros H0. rewrite (holds_sum C s Hs psi_d q (rev (dec_hi w)) (rev (dec_lo w)) n) by (solve [assumption | reflexivity | lia | rewrite Erev; exact Hsum]). rewrite Erev, H0. ring.
  - rewrite (holds_sum C s Hs phi_r r1 (rec_lo w) (rec_lo w) n) by (solve [assumption | reflexivity | lia | rewrite Erev; exact Hsum]). rewrite Hsum, EL2, <- two_half. ring.
  - intros H0. rewrite (holds_sum C s Hs psi_r q (rec_hi w) (rec_lo w) n) by (solve [assumption | reflexivity | lia | rewrite Erev; exact Hsum]). rewrite H0. ring.
Qed.

Theorem orth_inner (W : dwave C) level phi psi x :
  wf_bank (w_bank W) -> wf_res fuel (dec_len (w_bank W)) level ->
  wavefun fuel s W level = Ok (WfOrth phi psi x) ->
  let h := rec_lo (w_bank W) in let g := rec_hi (w_bank W) in
  even_shift_dual h h ->
  forall k, inner_shift phi phi (2 ^ level * k) = (if k =? 0 then rz (2 ^ level) else r0) /\
    inner_shift psi psi (2 ^ level * k) = rz (2 ^ level) [*] corr g g (2 * k) /\
    inner_shift phi psi (2 ^ level * k) = rz (2 ^ level) [*] corr h g (2 * k).
Proof.
  intros Hw Hr E h g Hd k. destruct (orth_holds W level phi psi x Hw Hr E) as (HL & n & EL & EL2 & Hg & Hh & _ & _ & _ & H1 & H2 & _).
  fold h in Hg, Hh, H1, H2. fold g in Hg, H2. rewrite EL2.
  split; [|split].
  - rewrite (holds_inner C s Hs phi phi r1 r1 h h h h n) by (auto; lia). rewrite (Hd (2 * k)) by (rewrite Z.mul_comm; apply Z_mod_mult).
    destruct (Z.eqb_spec k 0); destruct (Z.eqb_spec (2 * k) 0); try lia; ring.
  - rewrite (holds_inner C s Hs psi psi r1 r1 g h g h n) by (auto; lia). ring.
  - rewrite (holds_inner C s Hs phi psi r1 r1 h h g h n) by (auto; lia). ring.
Qed.

Theorem bior_inner (W : dwave C) level phi_d psi_d phi_r psi_r x : let w := w_bank W in
  wf_bank w -> wf_res fuel (dec_len w) level ->
  wavefun fuel s W level = Ok (WfBior phi_d psi_d phi_r psi_r x) ->
  let h := rec_lo w in let g := rec_hi w in let h' := rev (dec_lo w) in let g' := rev (dec_hi w) in
  even_shift_dual h h' ->
  exists sign, (sign = r1 \/ sign = ropp r1) /\
  forall k, inner_shift phi_r phi_d (2 ^ level * k) = (if k =? 0 then rz (2 ^ level) else r0) /\
    inner_shift psi_r psi_d (2 ^ level * k) = rz (2 ^ level) [*] corr g g' (2 * k) /\
    inner_shift phi_r psi_d (2 ^ level * k) = sign [*] rz (2 ^ level) [*] corr h g' (2 * k) /\
    inner_shift psi_r phi_d (2 ^ level * k) = sign [*] rz (2 ^ level) [*] corr g h' (2 * k).
Proof.
  intros w Hw Hr E h g h' g' Hd. destruct (bior_holds W level _ _ _ _ _ Hw Hr E) as (HL & n & q & Hq & EL & EL2 & R1 & R2 & R3 & R4 & R5 & _ & _ & _ & _ & _ & H1 & H2 & H3 & H4 & _).
  fold w in R1, R2, R3, R4, R5, H1, H2, H3, H4. fold h in R1, H3, H4. fold g in R2, H4. fold h' in R3, H1, H2. fold g' in R4, H2.
  exists q. split; [exact Hq|]. intros k. rewrite EL2.
  split; [|split; [|split]].
  - rewrite (holds_inner C s Hs phi_r phi_d r1 r1 h h h' h' n) by (auto; lia). rewrite (Hd (2 * k)) by (rewrite Z.mul_comm; apply Z_mod_mult).
    destruct (Z.eqb_spec k 0); destruct (Z.eqb_spec (2 * k) 0); try lia; ring.
  - rewrite (holds_inner C s Hs psi_r psi_d q q g h g' h' n) by (auto; lia).
    replace (q [*] q) with (r1 : C) by (destruct Hq as [-> | ->]; ring). ring.
  - rewrite (holds_inner C s Hs phi_r psi_d r1 q h h g' h' n) by (auto; lia). ring.
  - rewrite (holds_inner C s Hs psi_r phi_d q r1 g h h' h' n) by (auto; lia). ring.
Qed.

Theorem orth_moments (W : dwave C) level phi psi x m :
  wf_bank (w_bank W) -> wf_res fuel (dec_len (w_bank W)) level ->
  wavefun fuel s W level = Ok (WfOrth phi psi x) ->
  (forall r, (r <= m)%nat -> moment (rec_hi (w_bank W)) r = r0) ->
  moment psi m = r0.
Proof.
  intros Hw Hr E Hm. destruct (orth_holds W level phi psi x Hw Hr E) as (HL & n & EL & EL2 & Hg & Hh & _ & _ & _ & H1 & H2 & _).
  rewrite <- (holds_moment C s psi r1 (rec_hi (w_bank W)) (rec_lo (w_bank W)) n m) by (auto; lia).
  apply sumZ_ext. intros; ring.
Qed.

Theorem bior_moments (W : dwave C) level phi_d psi_d phi_r psi_r x m : let w := w_bank W in
  wf_bank w -> wf_res fuel (dec_len w) level ->
  wavefun fuel s W level = Ok (WfBior phi_d psi_d phi_r psi_r x) ->
  ((forall r, (r <= m)%nat -> moment (rev (dec_hi w)) r = r0) -> moment psi_d m = r0) /\
  ((forall r, (r <= m)%nat -> moment (rec_hi w) r = r0) -> moment psi_r m = r0).
Proof.
  intros w Hw Hr E. destruct (bior_holds W level _ _ _ _ _ Hw Hr E) as (HL & n & q & Hq & EL & EL2 & R1 & R2 & R3 & R4 & R5 & _ & _ & _ & _ & _ & H1 & H2 & H3 & H4 & _).
  fold w in R1, R2, R3, R4, R5, H1, H2, H3, H4.
  split; intros Hm.
  - rewrite <- (holds_moment C s psi_d q (rev (dec_hi w)) (rev (dec_lo w)) n m) by (auto; lia). apply sumZ_ext. intros; ring.
  - rewrite <- (holds_moment C s psi_r q (rec_hi w) (rec_lo w) n m) by (auto; lia). apply sumZ_ext. intros; ring.
Qed.

Theorem orth_translates (W : dwave C) level phi psi x :
  wf_bank (w_bank W) -> wf_res fuel (dec_len (w_bank W)) level ->
  wavefun fuel s W level = Ok (WfOrth phi psi x) ->
  let h := rec_lo (w_bank W) in
  s [*] even_part h = r1 -> s [*] odd_part h = r1 ->
  forall i, 0 <= i < 2 ^ level -> sumZ 0 (zlen h) (fun k => gz phi (i + 2 ^ level * k)) = r1.
Proof.
  intros Hw Hr E h He Ho i Hi. destruct (orth_holds W level phi psi x Hw Hr E) as (HL & n & EL & EL2 & Hg & Hh & _ & _ & _ & H1 & H2 & _).
  rewrite EL2 in *. apply (holds_translates C s phi h n); auto.
Qed.

Theorem bior_translates (W : dwave C) level phi_d psi_d phi_r psi_r x : let w := w_bank W in
  wf_bank w -> wf_res fuel (dec_len w) level ->
  wavefun fuel s W level = Ok (WfBior phi_d psi_d phi_r psi_r x) ->
  (s [*] even_part (rec_lo w) = r1 -> s [*] odd_part (rec_lo w) = r1 ->
   forall i, 0 <= i < 2 ^ level -> sumZ 0 (dec_len w) (fun k => gz phi_r (i + 2 ^ level * k)) = r1) /\
  (s [*] even_part (rev (dec_lo w)) = r1 -> s [*] odd_part (rev (dec_lo w)) = r1 ->
   forall i, 0 <= i < 2 ^ level -> sumZ 0 (dec_len w) (fun k => gz phi_d (i + 2 ^ level * k)) = r1).
Proof.
  intros w Hw Hr E. destruct (bior_holds W level _ _ _ _ _ Hw Hr E) as (HL & n & q & Hq & EL & EL2 & R1 & R2 & R3 & R4 & R5 & _ & _ & _ & _ & _ & H1 & H2 & H3 & H4 & _).
  fold w in R1, R2, R3, R4, R5, H1, H2, H3, H4. rewrite EL2.
  split; intros He Ho i Hi.
  - rewrite <- R1. apply (holds_translates C s phi_r (rec_lo w) n); auto. lia.
  - rewrite <- R3. apply (holds_translates C s phi_d (rev (dec_lo w)) n); auto. lia.
Qed.

(** * integrate_wavelet *)
Variable inj : Q -> C.

Lemma step_half (x : list Q) level : 2 < zlen x ->
  (forall i, 0 <= i < zlen x -> (nth (Z.to_nat i) x 0 == inject_Z i / inject_Z (2 ^ level))%Q) ->
  (grid_step x == 1 / inject_Z (2 ^ level))%Q.
Proof.
  intros Hx H. unfold grid_step. pose proof (H 0 ltac:(lia)) as H0. pose proof (H 1 ltac:(lia)) as H1.
  change (Z.to_nat 0) with 0%nat in H0. change (Z.to_nat 1) with 1%nat in H1. rewrite H0, H1. unfold Qdiv. ring.
Qed.

Lemma integrate_last (psi : list C) st : 1 <= zlen psi -> total psi = r0 -> gz (integrate psi st) (zlen psi - 1) = r0.
Proof.
  intros Hl H. rewrite gz_integrate by lia. unfold integral. unfold total in H.
  replace (zlen psi - 1 + 1) with (zlen psi) by lia. rewrite H. ring.
Qed.

Theorem integrate_orth (W : dwave C) level phi psi x :
  wf_bank (w_bank W) -> wf_res fuel (dec_len (w_bank W)) level ->
  wavefun fuel s W level = Ok (WfOrth phi psi x) ->
  exists I, integrate_wavelet fuel s inj W level = Ok ([I], x) /\ zlen I = zlen x /\
    (grid_step x == 1 / inject_Z (2 ^ level))%Q /\
    (forall i, 0 <= i < zlen x -> gz I i = sumZ 0 (i + 1) (gz psi) [*] inj (grid_step x)) /\
    (total (rec_lo (w_bank W)) = s -> total (rec_hi (w_bank W)) = r0 -> gz I (zlen x - 1) = r0).
Proof.
  intros Hw Hr E. destruct (orth_holds W level phi psi x Hw Hr E) as (HL & n & EL & EL2 & Hg & Hh & L1 & L2 & L3 & H1 & H2 & Hx).
  unfold integrate_wavelet. rewrite E. cbn [bind]. replace (zlen x <? 2) with false by lia.
  eexists. split; [reflexivity|]. split; [rewrite zlen_integrate; lia|].
  split; [apply step_half; [lia|exact Hx]|]. split.
  - intros i Hi. rewrite gz_integrate by lia. unfold integral. ring.
  - intros Hlo Hhi. rewrite L2. apply integrate_last; [lia|].
    destruct (orth_sums W level phi psi x Hw Hr E Hlo) as (_ & H0). apply H0. exact Hhi.
Qed.

Theorem integrate_bior (W : dwave C) level phi_d psi_d phi_r psi_r x : let w := w_bank W in
  wf_bank w -> wf_res fuel (dec_len w) level ->
  wavefun fuel s W level = Ok (WfBior phi_d psi_d phi_r psi_r x) ->
  exists I J, integrate_wavelet fuel s inj W level = Ok ([I; J], x) /\ zlen I = zlen x /\ zlen J = zlen x /\
    (grid_step x == 1 / inject_Z (2 ^ level))%Q /\
    (forall i, 0 <= i < zlen x -> gz I i = sumZ 0 (i + 1) (gz psi_d) [*] inj (grid_step x) /\
                                  gz J i = sumZ 0 (i + 1) (gz psi_r) [*] inj (grid_step x)) /\
    (total (dec_lo w) = s -> total (dec_hi w) = r0 -> gz I (zlen x - 1) = r0) /\
    (total (rec_lo w) = s -> total (rec_hi w) = r0 -> gz J (zlen x - 1) = r0).
Proof.
  intros w Hw Hr E. destruct (bior_holds W level _ _ _ _ _ Hw Hr E) as (HL & n & q & Hq & EL & EL2 & R1 & R2 & R3 & R4 & R5 & L1 & L2 & L3 & L4 & L5 & H1 & H2 & H3 & H4 & Hx).
  destruct (bior_sums W level _ _ _ _ _ Hw Hr E) as (S1 & S2). fold w in S1, S2.
  unfold integrate_wavelet. rewrite E. cbn [bind]. replace (zlen x <? 2) with false by lia.
  eexists. eexists. split; [reflexivity|]. split; [rewrite zlen_integrate; lia|]. split; [rewrite zlen_integrate; lia|].
  split; [apply step_half; [lia|exact Hx]|]. split; [|split].
  - intros i Hi. rewrite !gz_integrate by lia. unfold integral. split; ring.
  - intros Hlo Hhi. rewrite L4. apply integrate_last; [lia|]. apply S1; auto.
  - intros Hlo Hhi. rewrite L4, <- L2. apply integrate_last; [lia|]. apply S2; auto.
Qed.

End WM.

(** * central_frequency *)
Definition qgt (a b : Q) : bool := negb (Qle_bool a b).

Lemma argmax_from_spec l : forall (done : list Q) (best : Q) ib,
  0 <= ib < zlen done -> nth (Z.to_nat ib) done 0%Q = best ->
  (forall j, 0 <= j < zlen done -> (nth (Z.to_nat j) done 0 <= best)%Q) ->
  (forall j, 0 <= j < ib -> (nth (Z.to_nat j) done 0 < best)%Q) ->
  let k := argmax_from qgt best ib (zlen done) l in let all := done ++ l in
  0 <= k < zlen all /\ (forall j, 0 <= j < zlen all -> (nth (Z.to_nat j) all 0 <= nth (Z.to_nat k) all 0)%Q) /\
  (forall j, 0 <= j < k -> (nth (Z.to_nat j) all 0 < nth (Z.to_nat k) all 0)%Q).
Proof.
  induction l as [|a l IH]; intros done best ib Hib Hb Hle Hlt; cbv zeta.
  - cbn [argmax_from]. rewrite app_nil_r. rewrite Hb. auto.
  - cbn [argmax_from]. replace (done ++ a :: l) with ((done ++ [a]) ++ l) by (rewrite <- app_assoc; reflexivity).
    assert (Hz : zlen done + 1 = zlen (done ++ [a])) by (rewrite zlen_app; reflexivity). rewrite Hz.
    assert (Hn : forall j, 0 <= j < zlen done -> nth (Z.to_nat j) (done ++ [a]) 0%Q = nth (Z.to_nat j) done 0%Q)
      by (intros j Hj; apply app_nth1; unfold zlen in *; lia).
    assert (Hl : nth (Z.to_nat (zlen done)) (done ++ [a]) 0%Q = a).
    { unfold zlen. rewrite Nat2Z.id. rewrite app_nth2 by lia. rewrite Nat.sub_diag. reflexivity. }
    assert (Eg : qgt a best = negb (Qle_bool a best)) by reflexivity. destruct (Qle_bool a best) eqn:Ea; cbn [negb] in Eg; rewrite Eg.
    + apply Qle_bool_iff in Ea. apply IH.
      * lia.
      * rewrite Hn by lia. exact Hb.
      * intros j Hj. destruct (Z.eq_dec j (zlen done)) as [->|]; [rewrite Hl; exact Ea|]. rewrite Hn by lia. apply Hle. lia.
      * intros j Hj. rewrite Hn by lia. apply Hlt. lia.
    + assert (Hgt : (best < a)%Q). { apply Qnot_le_lt. intros H. apply Qle_bool_iff in H. congruence. }
      apply IH.
      * lia.
      * exact Hl.
      * intros j Hj. destruct (Z.eq_dec j (zlen done)) as [->|]; [rewrite Hl; apply Qle_refl|]. rewrite Hn by lia.
        apply Qle_trans with best; [apply Hle; lia|apply Qlt_le_weak; exact Hgt].
      * intros j Hj. rewrite Hn by lia. apply Qle_lt_trans with best; [apply Hle; lia|exact Hgt].
Qed.

Lemma peak_unique mag k k' : peak mag k -> peak mag k' -> k = k'.
Proof.
  intros (H1 & H2 & H3) (H1' & H2' & H3'). destruct (Z.lt_total k k') as [H|[H|H]]; [|exact H|].
  - exfalso. apply (Qlt_irrefl (nth (Z.to_nat k) mag 0%Q)). eapply Qlt_le_trans; [apply H3'; lia|]. apply H2; lia.
  - exfalso. apply (Qlt_irrefl (nth (Z.to_nat k') mag 0%Q)). eapply Qlt_le_trans; [apply H3; lia|]. apply H2'; lia.
Qed.

Lemma argmax_peak (mag : list Q) : 2 <= zlen mag -> exists i, argmax qgt (tl mag) = Ok i /\ peak mag (i + 1).
Proof.
  intros H. destruct mag as [|m0 [|m1 l]]; [unfold zlen in H; cbn in H; lia|unfold zlen in H; cbn in H; lia|].
  cbn [tl argmax]. eexists. split; [reflexivity|].
  destruct (argmax_from_spec l [m1] m1 0) as (K1 & K2 & K3).
  - change (zlen [m1]) with 1. lia.
  - reflexivity.
  - change (zlen [m1]) with 1. intros j Hj. replace j with 0 by lia. apply Qle_refl.
  - intros j Hj. lia.
  - change (zlen [m1]) with 1 in *. set (k := argmax_from qgt m1 0 1 l) in *. cbv zeta in K1, K2, K3.
    change ([m1] ++ l) with (m1 :: l) in *. rewrite (zlen_cons m1) in *.
    assert (Hn : forall j, 0 <= j -> nth (Z.to_nat (j + 1)) (m0 :: m1 :: l) 0%Q = nth (Z.to_nat j) (m1 :: l) 0%Q).
    { intros j Hj. replace (Z.to_nat (j + 1)) with (S (Z.to_nat j)) by lia. reflexivity. }
    split; [rewrite !zlen_cons; lia|]. split.
    + intros j Hj. rewrite !zlen_cons in Hj. rewrite Hn by lia. replace j with (j - 1 + 1) by lia. rewrite Hn by lia. apply K2. lia.
    + intros j Hj. rewrite Hn by lia. replace j with (j - 1 + 1) by lia. rewrite Hn by lia. apply K3. lia.
Qed.

Theorem central_spec (x mag : list Q) k : peak mag k -> (0 < grid_width x)%Q ->
  exists f, central_frequency qgt x mag = Ok f /\
    (f == inject_Z (if zlen mag <? 2 * (k + 1) then zlen mag - k else k) / grid_width x)%Q.
Proof.
  intros Hk Hx. pose proof Hk as (Hb & _). destruct (argmax_peak mag ltac:(lia)) as (i & Ei & Hi).
  assert (k = i + 1) by (eapply peak_unique; eauto). subst k.
  unfold central_frequency. destruct (Qle_bool (grid_width x) 0) eqn:E.
  { apply Qle_bool_iff in E. exfalso. apply (Qlt_irrefl 0). eapply Qlt_le_trans; eauto. }
  rewrite Ei. cbn [bind]. eexists. split; [reflexivity|].
  replace (2 * (i + 1 + 1)) with (2 * (i + 2)) by lia.
  assert (Hz : forall z, 0 < z -> ~ (inject_Z z == 0)%Q).
  { intros z Hz E2. assert (H : (inject_Z 0 < inject_Z z)%Q) by (rewrite <- Zlt_Qlt; exact Hz).
    change (inject_Z 0) with 0%Q in H. rewrite E2 in H. apply (Qlt_irrefl 0 H). }
  assert (Hw : ~ (grid_width x == 0)%Q) by (intros E2; rewrite E2 in Hx; apply (Qlt_irrefl 0 Hx)).
  destruct (Z.ltb_spec (zlen mag) (2 * (i + 2))).
  - replace (zlen mag - (i + 2) + 2 - 1) with (zlen mag - (i + 1)) by lia. field. split; [exact Hw|apply Hz; lia].
  - replace (i + 2 - 1) with (i + 1) by lia. field. split; [exact Hw|apply Hz; lia].
Qed.

Theorem central_min (x mag : list Q) k : peak mag k -> (0 < grid_width x)%Q -> 2 * k + 1 <> zlen mag ->
  exists f, central_frequency qgt x mag = Ok f /\ (f == inject_Z (Z.min k (zlen mag - k)) / grid_width x)%Q.
Proof.
  intros Hk Hx Hne. destruct (central_spec x mag k Hk Hx) as (f & E & Hf). exists f. split; [exact E|]. rewrite Hf.
  destruct (Z.ltb_spec (zlen mag) (2 * (k + 1))).
  - rewrite Z.min_r by lia. reflexivity.
  - rewrite Z.min_l by lia. reflexivity.
Qed.

Theorem central_middle (x mag : list Q) k : peak mag k -> (0 < grid_width x)%Q -> 2 * k + 1 = zlen mag ->
  exists f, central_frequency qgt x mag = Ok f /\ (f == inject_Z (k + 1) / grid_width x)%Q.
Proof.
  intros Hk Hx He. destruct (central_spec x mag k Hk Hx) as (f & E & Hf). exists f. split; [exact E|]. rewrite Hf.
  replace (zlen mag <? 2 * (k + 1)) with true by lia. replace (zlen mag - k) with (k + 1) by lia. reflexivity.
Qed.

Theorem scale_freq (x mag : list Q) f a : central_frequency qgt x mag = Ok f ->
  scale2frequency qgt x mag a = Ok (f / a)%Q /\ frequency2scale qgt x mag a = Ok (f / a)%Q /\
  (~ (a == 0)%Q -> ~ (f == 0)%Q -> exists g b, scale2frequency qgt x mag a = Ok g /\ frequency2scale qgt x mag g = Ok b /\ (b == a)%Q).
Proof.
  intros E. unfold scale2frequency, frequency2scale. rewrite E. cbn [bind]. split; [reflexivity|]. split; [reflexivity|].
  intros Ha Hf. eexists. eexists. split; [reflexivity|]. split; [reflexivity|]. field. auto.
Qed.
