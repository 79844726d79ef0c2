(** Transforms of polynomial signals. *)
From Verif Require Import Base BaseLemmas CConv Spec ExtLemmas Lengths Dwt DwtProofs Multilevel MultilevelProofs Facts1 Swt SwtProofs FactsSwt WavefunSpec PolySpec.
Open Scope Z_scope.

Section PolyData.
Variable C : CRing.
Add Ring pdring : (rth C).
Implicit Types (x h c d : list C) (w : wavelet C) (f g e : Z -> C) (a s : C).

Definition poly (p : nat) (f : Z -> C) : Prop := exists c, length c = p /\ forall i, f i = peval c i.

Lemma poly_ext p f g : (forall i, f i = g i) -> poly p f -> poly p g.
Proof. intros H (c & L & E). exists c. split; [exact L|]. intros i. rewrite <- H. apply E. Qed.
Lemma poly_0 p : poly p (fun _ => r0).
Proof.
  exists (repeat r0 p). split; [apply repeat_length|]. intros i. induction p as [|p IH]; cbn [repeat peval]; [reflexivity|]. rewrite <- IH. ring.
Qed.
Lemma peval_add c d i : length c = length d -> peval (vadd c d) i = peval c i [+] peval d i.
Proof.
  revert d. induction c as [|a c IH]; intros [|b d] H; try discriminate; [cbn; ring|]. unfold vadd. cbn [combine map peval]. fold (vadd c d). rewrite IH by (cbn in H; lia). ring.
Qed.
Lemma vadd_length c d : length c = length d -> length (vadd c d) = length c.
Proof. intros H. unfold vadd. rewrite map_length, combine_length. lia. Qed.
Lemma poly_add p f g : poly p f -> poly p g -> poly p (fun i => f i [+] g i).
Proof.
  intros (c & L & E) (d & M & G). exists (vadd c d). split; [rewrite vadd_length; lia|]. intros i. rewrite peval_add by lia. rewrite <- E, <- G. reflexivity.
Qed.
Lemma poly_scal p s f : poly p f -> poly p (fun i => s [*] f i).
Proof.
  intros (c & L & E). exists (map (fun a => s [*] a) c). split; [rewrite map_length; exact L|]. intros i. rewrite E. clear. induction c as [|a c IH]; cbn [map peval]; [ring|]. rewrite <- IH. ring.
Qed.
Lemma poly_cons p f a : poly p f -> poly (S p) (fun i => a [+] rz i [*] f i).
Proof. intros (c & L & E). exists (a :: c). split; [cbn; lia|]. intros i. cbn [peval]. rewrite E. reflexivity. Qed.
Lemma poly_weaken p f : poly p f -> poly (S p) f.
Proof.
  intros (c & L & E). exists (c ++ [r0]). split; [rewrite app_length, L; cbn; lia|]. intros i. rewrite E. clear. induction c as [|a c IH]; cbn [app peval]; [ring|]. rewrite IH. reflexivity.
Qed.
Lemma poly_affine p f u v : poly p f -> poly p (fun i => f (u * i + v)).
Proof.
  intros (c & L & E). apply (poly_ext p (fun i => peval c (u * i + v))); [intros; rewrite E; reflexivity|]. clear E f. revert c L.
  induction p as [|p IH]; intros [|a c] L; try discriminate.
  - apply poly_0.
  - cbn [peval]. specialize (IH c ltac:(cbn in L; lia)).
    apply (poly_ext (S p) (fun i => (a [+] rz i [*] (rz u [*] peval c (u * i + v))) [+] rz v [*] peval c (u * i + v))).
    + intros i. rewrite rz_add, rz_mul. ring.
    + apply poly_add; [apply poly_cons, poly_scal; exact IH|]. apply poly_weaken, poly_scal. exact IH.
Qed.
Lemma poly_sum p (a b : Z) (f : Z -> Z -> C) : (forall t, poly p (f t)) -> poly p (fun i => sumZ a b (fun t => f t i)).
Proof.
  intros H. unfold sumZ. induction (Z.to_nat (b - a)) as [|n IH]; [apply poly_0|]. cbn [sumn]. apply poly_add; [exact IH|apply H].
Qed.
Lemma poly_conv p h e u v : poly p e -> poly p (fun k => conv h e (u * k + v)).
Proof.
  intros H. unfold conv. apply poly_sum. intros t. apply poly_scal. apply (poly_ext p (fun i => e (u * i + (v - t)))); [intros i; f_equal; lia|]. apply poly_affine. exact H.
Qed.

(** A filter with p vanishing moments removes the polynomials of degree < p. *)
Lemma moment_peval h : forall c, (forall r, (r < length c)%nat -> moment h r = r0) -> sumZ 0 (zlen h) (fun j => gz h j [*] peval c j) = r0.
Proof.
  assert (G : forall c q, (forall r, (q <= r < q + length c)%nat -> moment h r = r0) -> sumZ 0 (zlen h) (fun j => gz h j [*] (powr (rz j) q [*] peval c j)) = r0).
  { induction c as [|a c IH]; intros q H.
    - apply sumZ_zero. intros. cbn [peval]. ring.
    - rewrite (sumZ_ext _ _ _ _ (fun j => a [*] (gz h j [*] powr (rz j) q) [+] gz h j [*] (powr (rz j) (S q) [*] peval c j))) by (intros; cbn [peval powr]; ring).
      rewrite sumZ_add, sumZ_scal. fold (moment h q). rewrite (H q) by (cbn [length]; lia). rewrite IH; [ring|]. intros r Hr. apply H. cbn [length]. lia. }
  intros c H. rewrite <- (G c O); [|intros r Hr; apply H; lia]. apply sumZ_ext. intros. cbn [powr]. ring.
Qed.
Lemma conv_peval h p e i : poly p e -> (forall r, (r < p)%nat -> moment h r = r0) -> conv h e i = r0.
Proof.
  intros H Hm. destruct (poly_affine p e (-1) i H) as (c & L & E). unfold conv.
  rewrite (sumZ_ext _ _ _ _ (fun j => gz h j [*] peval c j)); [apply moment_peval; rewrite L; exact Hm|].
  intros j Hj. rewrite <- E. do 2 f_equal. lia.
Qed.
Lemma conv_agree h (e f : Z -> C) i : (forall j, 0 <= j < zlen h -> e (i - j) = f (i - j)) -> conv h e i = conv h f i.
Proof. intros H. unfold conv. apply sumZ_ext. intros j Hj. rewrite H by exact Hj. reflexivity. Qed.

(** ** Inside the signal *)
Theorem dwt_interior fuel x w m p : wf_bank w -> min_len m <= zlen x -> resources fuel (zlen x) (dec_len w) -> polynomial p x ->
  (forall r, (r < p)%nat -> moment (dec_hi w) r = r0) ->
  exists cA cD, dwt fuel x w m = Ok (cA, cD) /\
    forall k, dec_len w - 1 <= 2 * k + first_pos m (dec_len w) <= zlen x - 1 -> 0 <= k < zlen cD /\ gz cD k = r0.
Proof.
  intros Hw Hx Hr (c & L & E) Hm. pose proof Hw as (H1 & H2 & H3 & H4 & H5). eexists _, _. split; [apply dwt_single_spec; auto|]. intros k Hk.
  assert (HF : zlen (dec_hi w) = dec_len w) by lia. assert (B : 0 <= k < coeff_len m (zlen x) (dec_len w)).
  { clear -Hk H4 H5. assert (D : dec_len w mod 2 = 0) by lia. pose proof (Z.div_mod (dec_len w) 2). destruct m; cbn [coeff_len first_pos] in *; lia. }
  unfold analysis. rewrite HF, zlen_tab by lia. split; [exact B|]. rewrite gz_tab by exact B.
  rewrite (conv_agree _ _ (peval c)); [apply (conv_peval _ p); [exists c; auto|exact Hm]|]. intros j Hj. rewrite ext_in by lia. apply E. lia.
Qed.

Lemma inside_step F N j k t : 2 <= F -> 0 <= t < F -> inside F N (S j) k -> inside F N j (2 * k + 1 - t).
Proof.
  unfold inside. intros HF Ht. rewrite Nat2Z.inj_succ, Z.pow_succ_r by lia. pose proof (Z.pow_pos_nonneg 2 (Z.of_nat j) ltac:(lia) ltac:(lia)). intros (H1 & H2). split; nia.
Qed.
Lemma approx_len_ge m F N j : 2 <= F -> N <= 2 ^ Z.of_nat j * approx_len m F j N.
Proof.
  intros HF. induction j as [|j IH]; [cbn [approx_len Z.of_nat]; rewrite Z.pow_0_r; lia|]. rewrite Nat2Z.inj_succ, Z.pow_succ_r by lia. cbn [approx_len].
  pose proof (Z.pow_pos_nonneg 2 (Z.of_nat j) ltac:(lia) ltac:(lia)). set (n := approx_len m F j N) in *. assert (n <= 2 * coeff_len m n F).
  { destruct m; cbn [coeff_len]; lia. } nia.
Qed.
Lemma inside_range m F N j k : 2 <= F -> inside F N j k -> 0 <= k < approx_len m F j N.
Proof.
  unfold inside. intros HF (H1 & H2). pose proof (approx_len_ge m F N j HF). pose proof (Z.pow_pos_nonneg 2 (Z.of_nat j) ltac:(lia) ltac:(lia)). nia.
Qed.

Lemma approx_inside x h m p : m <> PERIODIZATION -> 2 <= zlen h -> polynomial p x -> 1 <= zlen x ->
  forall j, exists f, poly p f /\ forall k, inside (zlen h) (zlen x) j k -> gz (approx m h j x) k = f k.
Proof.
  intros Hm HF (c & L & E) Hx. induction j as [|j (f & Pf & Ef)].
  - exists (peval c). split; [exists c; auto|]. intros k (H1 & H2). cbn [approx]. cbn [Z.of_nat] in *. rewrite Z.pow_0_r in *. apply E. lia.
  - exists (fun k => conv h f (2 * k + 1)). split; [apply poly_conv; exact Pf|]. intros k Hk. pose proof (inside_range m _ _ _ _ HF Hk) as B. cbn [approx_len] in B.
    cbn [approx]. unfold analysis. rewrite zlen_approx by lia. rewrite gz_tab by exact B.
    replace (first_pos m (zlen h)) with 1 by (destruct m; reflexivity || congruence). apply conv_agree. intros t Ht.
    pose proof (inside_step _ _ _ _ t HF Ht Hk) as Hi. rewrite ext_in by (rewrite zlen_approx by lia; apply (inside_range m); assumption). apply Ef. exact Hi.
Qed.

Lemma nth_details x w m n j : nth j (rev (map (fun i => analysis m (dec_hi w) (approx m (dec_lo w) i x)) (rev (seq 0 n)))) [] = 
  if (j <? n)%nat then analysis m (dec_hi w) (approx m (dec_lo w) j x) else [].
Proof.
  rewrite map_rev, rev_involutive. destruct (Nat.ltb_spec j n) as [H|H].
  - rewrite (nth_indep _ _ (analysis m (dec_hi w) (approx m (dec_lo w) 0 x))) by (rewrite map_length, seq_length; exact H).
    rewrite (map_nth (fun i => analysis m (dec_hi w) (approx m (dec_lo w) i x))). rewrite seq_nth by exact H. reflexivity.
  - apply nth_overflow. rewrite map_length, seq_length. exact H.
Qed.

Theorem wavedec_interior fuel x w m p level : m <> PERIODIZATION -> wf_bank w -> 1 <= zlen x -> 0 <= level ->
  levels_ok m (dec_len w) (Z.to_nat level) (zlen x) -> resources fuel (zlen x) (dec_len w) -> polynomial p x ->
  (forall r, (r < p)%nat -> moment (dec_hi w) r = r0) ->
  exists cA ds, wavedec fuel x w m (Some level) = Ok (cA :: rev ds) /\ length ds = Z.to_nat level /\
    (exists c, length c = p /\ forall k, inside (dec_len w) (zlen x) (Z.to_nat level) k -> gz cA k = peval c k) /\
    forall j k, (j < Z.to_nat level)%nat -> inside (dec_len w) (zlen x) (S j) k -> 0 <= k < zlen (nth j ds []) /\ gz (nth j ds []) k = r0.
Proof.
  intros Hm Hw Hx Hl Hlev Hr Hp Hmo. pose proof Hw as (H1 & H2 & H3 & H4 & H5). assert (HF : zlen (dec_hi w) = dec_len w) by lia.
  eexists _, (rev (map (fun i => analysis m (dec_hi w) (approx m (dec_lo w) i x)) (rev (seq 0 (Z.to_nat level))))).
  split; [rewrite rev_involutive; apply wavedec_spec; auto|]. split; [rewrite rev_length, map_length, rev_length, seq_length; reflexivity|]. split.
  - destruct (approx_inside x (dec_lo w) m p Hm ltac:(unfold dec_len in *; lia) Hp Hx (Z.to_nat level)) as (f & (c & L & Ec) & Ef).
    exists c. split; [exact L|]. intros k Hk. rewrite <- Ec. apply Ef. exact Hk.
  - intros j k Hj Hk. rewrite nth_details. replace (j <? Z.to_nat level)%nat with true by (symmetry; apply Nat.ltb_lt; exact Hj).
    assert (F2 : 2 <= dec_len w) by lia. pose proof (inside_range m _ _ _ _ F2 Hk) as B. cbn [approx_len] in B.
    assert (LA : zlen (approx m (dec_lo w) j x) = approx_len m (dec_len w) j (zlen x)) by (apply zlen_approx; unfold dec_len in *; lia).
    unfold analysis. rewrite HF, LA. rewrite zlen_tab by lia. split; [exact B|]. rewrite gz_tab by exact B.
    replace (first_pos m (dec_len w)) with 1 by (destruct m; reflexivity || congruence).
    destruct (approx_inside x (dec_lo w) m p Hm ltac:(unfold dec_len in *; lia) Hp Hx j) as (f & Pf & Ef).
    rewrite (conv_agree _ _ f); [apply (conv_peval _ p); assumption|]. intros t Ht. rewrite HF in Ht. pose proof (inside_step _ _ _ _ t F2 Ht Hk) as Hi.
    rewrite ext_in by (rewrite LA; apply inside_range; assumption). apply Ef. exact Hi.
Qed.

(** ** Up to the borders *)
Lemma ext_constant m x a : keeps_constants m -> min_len m <= zlen x -> (forall i, 0 <= i < zlen x -> gz x i = a) -> forall n, ext m x n = a.
Proof.
  intros (M1 & M2) HN H n. assert (P : 1 <= zlen x) by (destruct m; cbn in HN; lia).
  pose proof (Z.mod_pos_bound n (2 * zlen x) ltac:(lia)). pose proof (Z.mod_pos_bound n (zlen x) ltac:(lia)).
  destruct m; try congruence; cbn [ext min_len] in *; cbv zeta.
  - destruct (Z.ltb_spec (n mod (2 * zlen x)) (zlen x)); apply H; lia.
  - apply H; lia.
  - destruct (Z.ltb_spec (zlen x) 2); [apply H; lia|]. rewrite !(H 0), !(H 1), !(H (zlen x - 1)), !(H (zlen x - 2)) by lia.
    destruct (Z.ltb_spec n 0); [ring|]. destruct (Z.ltb_spec n (zlen x)); [apply H; lia|ring].
  - apply H; lia.
  - unfold pext. apply H. pose proof (Z.mod_pos_bound n (zlen x + zlen x mod 2) ltac:(lia)). lia.
  - pose proof (Z.mod_pos_bound n (2 * (zlen x - 1)) ltac:(lia)). destruct (Z.leb_spec (n mod (2 * (zlen x - 1))) (zlen x - 1)); apply H; lia.
  - pose proof (Z.mod_pos_bound n (2 * (zlen x - 1)) ltac:(lia)). rewrite !(H 0), !(H (zlen x - 1)) by lia.
    destruct (Z.leb_spec (n mod (2 * (zlen x - 1))) (zlen x - 1)); rewrite H by lia; ring.
Qed.
Lemma ext_line m x a s : keeps_lines m -> 2 <= zlen x -> (forall i, 0 <= i < zlen x -> gz x i = a [+] rz i [*] s) -> forall n, ext m x n = a [+] rz n [*] s.
Proof.
  intros Hm HN H n. destruct Hm as [-> | ->]; cbn [ext]; cbv zeta.
  - replace (zlen x <? 2) with false by lia. rewrite !(H 0), !(H 1), !(H (zlen x - 1)), !(H (zlen x - 2)) by lia.
    destruct (Z.ltb_spec n 0); [|destruct (Z.ltb_spec n (zlen x)); [apply H; lia|]].
    + rewrite rz_opp, rz_0, rz_1. ring.
    + rewrite !rz_sub, rz_1. change 2 with (1 + 1). rewrite rz_add, rz_1. ring.
  - set (L := zlen x - 1). assert (HL : 1 <= L) by (unfold L; lia). pose proof (Z.mod_pos_bound n (2 * L) ltac:(lia)) as B. pose proof (Z.div_mod n (2 * L) ltac:(lia)) as D.
    set (r := n mod (2 * L)) in *. set (q := n / (2 * L)) in *. clearbody r q. rewrite (H L), (H 0) by (unfold L; lia). rewrite D.
    replace (2 * L * q + r) with (2 * q * L + r) by ring. rewrite rz_add, (rz_mul C (2 * q) L), rz_0.
    destruct (Z.leb_spec r L); rewrite H by (unfold L in *; lia); [ring|]. rewrite rz_sub. replace (2 * L) with (L + L) by lia. rewrite rz_add. ring.
Qed.

Lemma conv_const h a i : conv h (fun _ => a) i = moment h 0 [*] a.
Proof. unfold conv, moment. rewrite <- sumZ_scal_r. apply sumZ_ext. intros. cbn [powr]. ring. Qed.

Theorem wavedec_constant fuel x w m level a : keeps_constants m -> wf_bank w -> 1 <= zlen x -> 0 <= level ->
  levels_ok m (dec_len w) (Z.to_nat level) (zlen x) -> resources fuel (zlen x) (dec_len w) ->
  (forall i, 0 <= i < zlen x -> gz x i = a) -> moment (dec_hi w) 0 = r0 ->
  exists cA ds, wavedec fuel x w m (Some level) = Ok (cA :: ds) /\ Forall (Forall (eq r0)) ds /\
    forall k, 0 <= k < zlen cA -> gz cA k = powr (moment (dec_lo w) 0) (Z.to_nat level) [*] a.
Proof.
  intros Hm Hw Hx Hl Hlev Hr Ha Hmo. pose proof Hw as (H1 & H2 & H3 & H4 & H5). assert (HF : zlen (dec_hi w) = dec_len w) by lia.
  assert (LA : forall j, zlen (approx m (dec_lo w) j x) = approx_len m (dec_len w) j (zlen x)) by (intros; apply zlen_approx; unfold dec_len in *; lia).
  assert (A : forall j, (j <= Z.to_nat level)%nat -> forall k, 0 <= k < zlen (approx m (dec_lo w) j x) -> gz (approx m (dec_lo w) j x) k = powr (moment (dec_lo w) 0) j [*] a).
  { induction j as [|j IH]; intros Hj k Hk.
    - cbn [approx powr] in *. rewrite Ha by exact Hk. ring.
    - rewrite LA in Hk. cbn [approx_len] in Hk. cbn [approx]. unfold analysis. rewrite LA. fold (dec_len w). rewrite gz_tab by exact Hk.
      rewrite (conv_agree _ _ (fun _ => powr (moment (dec_lo w) 0) j [*] a)); [rewrite conv_const; cbn [powr]; ring|].
      intros t _. apply ext_constant; [exact Hm|rewrite LA; apply Hlev; lia|]. intros i Hi. apply IH; [lia|exact Hi]. }
  eexists _, _. split; [apply wavedec_spec; auto|]. split; [|apply A; lia].
  apply Forall_forall. intros d Hd. apply in_map_iff in Hd as (j & <- & Hj). rewrite <- in_rev in Hj. apply in_seq in Hj.
  unfold analysis. rewrite HF, LA. apply Forall_forall. intros v Hv. unfold tab in Hv. apply in_map_iff in Hv as (k & <- & _). symmetry.
  rewrite (conv_agree _ _ (fun _ => powr (moment (dec_lo w) 0) j [*] a)); [rewrite conv_const, Hmo; ring|].
  intros t _. apply ext_constant; [exact Hm|rewrite LA; apply Hlev; lia|]. apply A. lia.
Qed.

Lemma line_conv h a s u v k : conv h (fun n => a [+] rz n [*] s) (u * k + v) =
  (moment h 0 [*] (a [+] rz v [*] s) [-] moment h 1 [*] s) [+] rz k [*] (rz u [*] moment h 0 [*] s).
Proof.
  unfold conv, moment. rewrite (sumZ_ext _ _ _ _ (fun j => (gz h j [*] powr (rz j) 0) [*] ((a [+] rz v [*] s) [+] rz k [*] rz u [*] s) [+] (gz h j [*] powr (rz j) 1) [*] ([--] s))).
  - rewrite sumZ_add, !sumZ_scal_r. ring.
  - intros j _. rewrite rz_sub, rz_add, rz_mul. cbn [powr]. ring.
Qed.
Theorem wavedec_line fuel x w m level a s : keeps_lines m -> wf_bank w -> 1 <= zlen x -> 0 <= level ->
  levels_ok m (dec_len w) (Z.to_nat level) (zlen x) -> resources fuel (zlen x) (dec_len w) ->
  (forall i, 0 <= i < zlen x -> gz x i = a [+] rz i [*] s) -> moment (dec_hi w) 0 = r0 -> moment (dec_hi w) 1 = r0 ->
  exists cA ds a' s', wavedec fuel x w m (Some level) = Ok (cA :: ds) /\ Forall (Forall (eq r0)) ds /\
    forall k, 0 <= k < zlen cA -> gz cA k = a' [+] rz k [*] s'.
Proof.
  intros Hm Hw Hx Hl Hlev Hr Ha Hmo Hm1. pose proof Hw as (H1 & H2 & H3 & H4 & H5). assert (HF : zlen (dec_hi w) = dec_len w) by lia.
  assert (LA : forall j, zlen (approx m (dec_lo w) j x) = approx_len m (dec_len w) j (zlen x)) by (intros; apply zlen_approx; unfold dec_len in *; lia).
  assert (FP : first_pos m (dec_len w) = 1) by (destruct Hm as [-> | ->]; reflexivity).
  assert (EX : forall y a s, min_len m <= zlen y -> (forall i, 0 <= i < zlen y -> gz y i = a [+] rz i [*] s) -> exists a' s', (forall n, ext m y n = a' [+] rz n [*] s')).
  { intros y b t Hy Hb. destruct (Z_lt_ge_dec (zlen y) 2) as [G|G].
    - exists (gz y 0), r0. intros n. destruct Hm as [-> | ->]; cbn [min_len] in Hy; [|lia]. cbn [ext]. cbv zeta. replace (zlen y <? 2) with true by lia. ring.
    - exists b, t. apply ext_line; auto. lia. }
  assert (A : forall j, (j <= Z.to_nat level)%nat -> exists a' s', forall k, 0 <= k < zlen (approx m (dec_lo w) j x) -> gz (approx m (dec_lo w) j x) k = a' [+] rz k [*] s').
  { induction j as [|j IH]; intros Hj; [exists a, s; exact Ha|]. destruct (IH ltac:(lia)) as (b & t & Hb).
    destruct (EX (approx m (dec_lo w) j x) b t ltac:(rewrite LA; apply Hlev; lia) Hb) as (b' & t' & Ee).
    eexists _, _. intros k Hk. rewrite LA in Hk. cbn [approx_len] in Hk. cbn [approx]. unfold analysis. rewrite LA. fold (dec_len w). rewrite gz_tab by exact Hk.
    rewrite (conv_agree _ _ (fun n => b' [+] rz n [*] t')) by (intros; apply Ee). rewrite line_conv. reflexivity. }
  destruct (A (Z.to_nat level) ltac:(lia)) as (a' & s' & EA). eexists _, _, a', s'. split; [apply wavedec_spec; auto|]. split; [|exact EA].
  apply Forall_forall. intros d Hd. apply in_map_iff in Hd as (j & <- & Hj). rewrite <- in_rev in Hj. apply in_seq in Hj.
  unfold analysis. rewrite HF, LA. apply Forall_forall. intros v Hv. unfold tab in Hv. apply in_map_iff in Hv as (k & <- & _). symmetry.
  destruct (A j ltac:(lia)) as (b & t & Hb). destruct (EX (approx m (dec_lo w) j x) b t ltac:(rewrite LA; apply Hlev; lia) Hb) as (b' & t' & Ee).
  rewrite (conv_agree _ _ (fun n => b' [+] rz n [*] t')) by (intros; apply Ee). rewrite line_conv, Hmo, Hm1. ring.
Qed.

(** ** The stationary transform *)
Theorem swt_constant fuel w x level st norm a : wf_bank w -> 1 <= zlen x -> 0 <= st -> 1 <= level ->
  (2 ^ (st + level) | zlen x) -> swt_resources fuel (zlen x) (dec_len w) (st + level) ->
  (forall i, 0 <= i < zlen x -> gz x i = a) -> moment (dec_hi w) 0 = r0 ->
  exists ca ds, swt fuel x w (Some level) st true norm = Ok (SArr ca :: map SArr ds) /\ Forall (Forall (eq r0)) ds /\
    forall k, 0 <= k < zlen x -> gz ca k = powr (norm_factor norm [*] moment (dec_lo w) 0) (Z.to_nat level) [*] a.
Proof.
  intros Hw Hx Hs Hl Hd Hr Ha Hm. destruct (swt_values C fuel w x level st norm Hw Hx Hs Hl Hd Hr) as (ap & de & _ & E & A0 & V).
  pose proof Hw as (H1 & H2 & H3 & H4 & H5).
  assert (A : forall j k, 0 <= k < zlen x -> gz (ap j) k = powr (norm_factor norm [*] moment (dec_lo w) 0) j [*] a).
  { induction j as [|j IH]; intros k Hk; [rewrite A0, Ha by exact Hk; cbn [powr]; ring|]. destruct (V j) as (_ & _ & Vj). destruct (Vj k Hk) as (-> & _).
    cbn [powr]. unfold moment. fold (dec_len w). set (P := powr _ j) in *.
    rewrite (sumZ_ext _ _ _ _ (fun m => (gz (dec_lo w) m [*] powr (rz m) 0) [*] (norm_factor norm [*] (P [*] a)))).
    - rewrite sumZ_scal_r. ring.
    - intros m _. rewrite IH by (apply Z.mod_pos_bound; lia). cbn [powr]. ring. }
  exists (ap (Z.to_nat level)), (map de (rev (seq 1 (Z.to_nat level)))). split; [rewrite map_map; exact E|]. split; [|intros; apply A; assumption].
  apply Forall_forall. intros d Hdd. apply in_map_iff in Hdd as (j & <- & Hj). rewrite <- in_rev in Hj. apply in_seq in Hj. destruct j as [|j]; [lia|].
  destruct (V j) as (_ & _ & Vj). destruct (V (S j)) as (_ & LD & _). apply Forall_forall. intros v Hv. apply In_nth with (d := r0) in Hv as (k & Hk & <-).
  assert (Kz : 0 <= Z.of_nat k < zlen x) by (unfold zlen in *; lia). destruct (Vj (Z.of_nat k) Kz) as (_ & G). unfold gz in G at 1. replace (0 <=? Z.of_nat k) with true in G by lia. rewrite Nat2Z.id in G. rewrite G. clear G.
  rewrite (sumZ_ext _ _ _ _ (fun m => (gz (dec_hi w) m [*] powr (rz m) 0) [*] (norm_factor norm [*] (powr (norm_factor norm [*] moment (dec_lo w) 0) j [*] a)))).
  - rewrite sumZ_scal_r. rewrite <- H1. fold (moment (dec_hi w) 0). rewrite Hm. ring.
  - intros m _. rewrite A by (apply Z.mod_pos_bound; lia). cbn [powr]. ring.
Qed.
End PolyData.
