(** Arrays of two successive levels, and the inner products for the banks built
    from a pair of low-pass filters. *)
From Coq Require Import QArith.
From Verif Require Import Base BaseLemmas CConv Spec Lengths Dwt DwtProofs Swt Multilevel.
From Verif Require Import FilterSpec Filters FiltersProofs FiltersFacts Wavefun WavefunSpec WavefunProofs WavefunFacts WavefunMain.
Open Scope Z_scope.

Section WMore.
Variable C : CRing.
Add Ring Cring_ring_wfo : (rth C).
Notation "a [+] b" := (radd a b). Notation "a [*] b" := (rmul a b).
Variable fuel : nat.
Variable s : C.

Lemma cascade_with_S (g h : list C) L i :
  cascade_with s g h (S L) i = s [*] sumZ 0 (zlen g) (fun k => gz g k [*] cascade s h L (i - 2 ^ Z.of_nat L * k)).
Proof. unfold cascade_with. replace (S L - 1)%nat with L by lia. reflexivity. Qed.

Theorem orth_two_scale (W : dwave C) level phi psi x phi' psi' x' :
  wf_bank (w_bank W) -> wf_res fuel (dec_len (w_bank W)) (level + 1) ->
  wavefun fuel s W level = Ok (WfOrth phi psi x) ->
  wavefun fuel s W (level + 1) = Ok (WfOrth phi' psi' x') ->
  let h := rec_lo (w_bank W) in let g := rec_hi (w_bank W) in
  forall i, gz phi' i = s [*] sumZ 0 (zlen h) (fun k => gz h k [*] gz phi (i - 2 ^ level * k)) /\
            gz psi' i = s [*] sumZ 0 (zlen g) (fun k => gz g k [*] gz phi (i - 2 ^ level * k)).
Proof.
  intros Hw Hr' E E' h g i.
  assert (HL : 1 <= level).
  { destruct (Z.ltb_spec level 1); [|lia]. rewrite wavefun_level in E by auto. discriminate. }
  assert (Hr : wf_res fuel (dec_len (w_bank W)) level).
  { destruct Hw as (_ & _ & _ & _ & H5). unfold wf_res in *. assert (2 ^ level <= 2 ^ (level + 1)) by (apply Z.pow_le_mono_r; lia). nia. }
  destruct (w_orthogonal W) eqn:Ho.
  2:{ destruct (wavefun_bior C fuel s W level Hw Ho HL Hr) as (? & ? & ? & ? & ? & E2 & _). rewrite E2 in E. discriminate. }
  destruct (wavefun_orth C fuel s W level Hw Ho HL Hr) as (p & q & y & E2 & _ & _ & _ & G1 & _). rewrite E2 in E. injection E as -> -> ->.
  destruct (wavefun_orth C fuel s W (level + 1) Hw Ho ltac:(lia) Hr') as (p' & q' & y' & E2' & _ & _ & _ & G1' & G2' & _). rewrite E2' in E'. injection E' as -> -> ->.
  fold h in G1, G1', G2'. fold g in G2'.
  replace (Z.to_nat (level + 1)) with (S (Z.to_nat level)) in G1', G2' by lia.
  split.
  - rewrite G1'. cbn [cascade]. f_equal. apply sumZ_ext. intros k Hk. rewrite G1, Z2Nat.id by lia. f_equal. f_equal. lia.
  - rewrite G2', cascade_with_S. f_equal. apply sumZ_ext. intros k Hk. rewrite G1, Z2Nat.id by lia. f_equal. f_equal. lia.
Qed.

Theorem bior_two_scale (W : dwave C) level phi_d psi_d phi_r psi_r x phi_d' psi_d' phi_r' psi_r' x' : let w := w_bank W in
  wf_bank w -> wf_res fuel (dec_len w) (level + 1) ->
  wavefun fuel s W level = Ok (WfBior phi_d psi_d phi_r psi_r x) ->
  wavefun fuel s W (level + 1) = Ok (WfBior phi_d' psi_d' phi_r' psi_r' x') ->
  let sign := if w_biorthogonal W && negb (w_psi W mod 4 =? 1) then ropp r1 else r1 in
  let step f p i := s [*] sumZ 0 (zlen f) (fun k => gz f k [*] gz p (i - 2 ^ level * k)) in
  forall i, gz phi_d' i = step (rev (dec_lo w)) phi_d i /\ gz psi_d' i = sign [*] step (rev (dec_hi w)) phi_d i /\
            gz phi_r' i = step (rec_lo w) phi_r i /\ gz psi_r' i = sign [*] step (rec_hi w) phi_r i.
Proof.
  intros w Hw Hr' E E' sign step i.
  assert (HL : 1 <= level).
  { destruct (Z.ltb_spec level 1); [|lia]. rewrite wavefun_level in E by auto. discriminate. }
  assert (Hr : wf_res fuel (dec_len w) level).
  { destruct Hw as (_ & _ & _ & _ & H5). unfold wf_res in *. assert (2 ^ level <= 2 ^ (level + 1)) by (apply Z.pow_le_mono_r; lia). nia. }
  destruct (w_orthogonal W) eqn:Ho.
  { destruct (wavefun_orth C fuel s W level Hw Ho HL Hr) as (? & ? & ? & E2 & _). rewrite E2 in E. discriminate. }
  destruct (wavefun_bior C fuel s W level Hw Ho HL Hr) as (a & b & c & d & y & E2 & _ & _ & _ & _ & _ & G1 & _ & G3 & _). rewrite E2 in E. injection E as -> -> -> -> ->.
  destruct (wavefun_bior C fuel s W (level + 1) Hw Ho ltac:(lia) Hr') as (a' & b' & c' & d' & y' & E2' & _ & _ & _ & _ & _ & G1' & G2' & G3' & G4' & _). rewrite E2' in E'. injection E' as -> -> -> -> ->.
  fold w in G1, G3, G1', G2', G3', G4'. fold sign in G2', G4'.
  replace (Z.to_nat (level + 1)) with (S (Z.to_nat level)) in G1', G2', G3', G4' by lia.
  unfold step. split; [|split; [|split]].
  - rewrite G1'. cbn [cascade]. f_equal. apply sumZ_ext. intros k Hk. rewrite G1, Z2Nat.id by lia. f_equal. f_equal. lia.
  - rewrite G2', cascade_with_S. f_equal. f_equal. apply sumZ_ext. intros k Hk. rewrite G1, Z2Nat.id by lia. f_equal. f_equal. lia.
  - rewrite G3'. cbn [cascade]. f_equal. apply sumZ_ext. intros k Hk. rewrite G3, Z2Nat.id by lia. f_equal. f_equal. lia.
  - rewrite G4', cascade_with_S. f_equal. f_equal. apply sumZ_ext. intros k Hk. rewrite G3, Z2Nat.id by lia. f_equal. f_equal. lia.
Qed.

(** * Correlations of alternating flips *)
Lemma corr_flip (a b : list C) k : zlen b = zlen a -> corr (alt_flip b) (alt_flip a) (2 * k) = corr a b (2 * k).
Proof.
  intros Hl. unfold corr. rewrite zlen_flip, Hl.
  set (F := zlen a).
  rewrite (sumZ_ext _ 0 F (fun n => gz (alt_flip b) n [*] gz (alt_flip a) (n + 2 * k)) (fun n => gz b (F - 1 - n) [*] gz a (F - 1 - n - 2 * k))).
  2:{ intros n Hn. rewrite !gz_flip, Hl. fold F. rewrite sgn_add, (sgn_even C (2 * k)) by lia.
      replace (F - 1 - (n + 2 * k)) with (F - 1 - n - 2 * k) by lia.
      transitivity ((sgn n [*] sgn n) [*] (gz b (F - 1 - n) [*] gz a (F - 1 - n - 2 * k))); [ring|]. rewrite sgn_sq. ring. }
  rewrite (sumZ_rev _ 0 F).
  rewrite (sumZ_ext _ 0 F _ (fun n => gz a (n - 2 * k) [*] gz b n)).
  2:{ intros n Hn. cbv beta. replace (F - 1 - (0 + F - 1 - n)) with n by lia. ring. }
  rewrite (sumZ_widen _ 0 F (- F - Z.abs (2 * k)) (F + Z.abs (2 * k))).
  2,3: pose proof (zlen_nonneg a); lia.
  2:{ intros t Ht Hn. destruct (Z_lt_ge_dec t 0); [rewrite (gz_neg b) by lia|rewrite (gz_big b) by lia]; ring. }
  rewrite (sumZ_shift _ _ _ (- (2 * k))).
  symmetry. rewrite (sumZ_widen _ 0 F (- F - Z.abs (2 * k) + - (2 * k)) (F + Z.abs (2 * k) + - (2 * k))).
  2,3: pose proof (zlen_nonneg a); lia.
  2:{ intros t Ht Hn. destruct (Z_lt_ge_dec t 0); [rewrite (gz_neg a) by lia|rewrite (gz_big a) by lia]; ring. }
  apply sumZ_ext. intros t Ht. cbv beta. f_equal; f_equal; lia.
Qed.

Lemma corr_self_flip (a : list C) k : zlen a mod 2 = 0 -> corr a (alt_flip a) (2 * k) = r0.
Proof.
  intros HF. unfold corr. set (F := zlen a) in *. set (c := F - 1 - 2 * k).
  set (m := F + Z.abs (2 * k)).
  rewrite (sumZ_widen _ 0 F (c - m) (m + 1)).
  2,3: pose proof (zlen_nonneg a); unfold c, m; lia.
  2:{ intros t Ht Hn. destruct (Z_lt_ge_dec t 0); [rewrite (gz_neg a) by lia|rewrite (gz_big a) by lia]; ring. }
  rewrite (sumZ_ext _ _ _ _ (fun n => (if n mod 2 =? 0 then gz a n [*] gz a (c - n) else r0) [-] (if n mod 2 =? 1 then gz a n [*] gz a (c - n) else r0))).
  2:{ intros n Hn. rewrite gz_flip. fold F. rewrite sgn_add, (sgn_even C (2 * k)) by lia.
      replace (F - 1 - (n + 2 * k)) with (c - n) by (unfold c; lia).
      destruct (Z.eqb_spec (n mod 2) 0) as [H0|H0].
      - rewrite (sgn_even C n) by lia. replace (n mod 2 =? 1) with false by lia. ring.
      - rewrite (sgn_odd C n) by lia. replace (n mod 2 =? 1) with true by lia. ring. }
  rewrite sumZ_sub.
  rewrite (sumZ_rev _ (c - m) (m + 1) (fun n => if n mod 2 =? 0 then _ else _)).
  rewrite (sumZ_ext _ _ _ (fun t => if (c - m + (m + 1) - 1 - t) mod 2 =? 0 then _ else _) (fun n => if n mod 2 =? 1 then gz a n [*] gz a (c - n) else r0)).
  2:{ intros n Hn. cbv beta. replace (c - m + (m + 1) - 1 - n) with (c - n) by lia. replace (c - (c - n)) with n by lia.
      replace ((c - n) mod 2 =? 0) with (n mod 2 =? 1) by (unfold c; lia). destruct (n mod 2 =? 1); ring. }
  ring.
Qed.

Lemma corr_flip_self (a : list C) k : zlen a mod 2 = 0 -> corr (alt_flip a) a (2 * k) = r0.
Proof.
  intros HF. rewrite <- (corr_self_flip a (- k) HF). unfold corr. rewrite zlen_flip. set (F := zlen a).
  rewrite (sumZ_widen _ 0 F (- F - Z.abs (2 * k)) (F + Z.abs (2 * k))).
  2,3: pose proof (zlen_nonneg a); lia.
  2:{ intros t Ht Hn. destruct (Z_lt_ge_dec t 0); [rewrite (gz_neg (alt_flip a)) by lia|rewrite (gz_big (alt_flip a)) by (rewrite zlen_flip; lia)]; ring. }
  rewrite (sumZ_shift _ _ _ (2 * k)).
  symmetry. rewrite (sumZ_widen _ 0 F (- F - Z.abs (2 * k) + (2 * k)) (F + Z.abs (2 * k) + (2 * k))).
  2,3: pose proof (zlen_nonneg a); lia.
  2:{ intros t Ht Hn. destruct (Z_lt_ge_dec t 0); [rewrite (gz_neg a) by lia|rewrite (gz_big a) by lia]; ring. }
  apply sumZ_ext. intros t Ht. cbv beta. replace (t - 2 * k + 2 * k) with t by lia. replace (t + 2 * - k) with (t - 2 * k) by lia. ring.
Qed.

Hypothesis Hs : s [*] s = r1 [+] r1.

(** An orthogonal wavelet: the sampled scaling function, the sampled wavelet and
    their integer translates are orthogonal, with square norm 2^level. *)
Theorem orth_orthonormal (W : dwave C) (h : list C) level phi psi x :
  w_bank W = bi_bank h h -> zlen h mod 2 = 0 -> 2 <= zlen h -> even_shift_dual h h ->
  wf_res fuel (zlen h) level -> wavefun fuel s W level = Ok (WfOrth phi psi x) ->
  forall k, inner_shift phi phi (2 ^ level * k) = (if k =? 0 then rz (2 ^ level) else r0) /\
    inner_shift psi psi (2 ^ level * k) = (if k =? 0 then rz (2 ^ level) else r0) /\
    inner_shift phi psi (2 ^ level * k) = r0.
Proof.
  intros EW He H2 Hd Hr E k.
  assert (Hw : wf_bank (w_bank W)) by (rewrite EW; apply bi_wf; auto).
  assert (Hl : dec_len (w_bank W) = zlen h) by (rewrite EW; unfold dec_len, bi_bank; cbn [dec_lo]; apply zlen_rev).
  rewrite <- Hl in Hr.
  assert (E1 : rec_lo (w_bank W) = h) by (rewrite EW; reflexivity).
  assert (E2 : rec_hi (w_bank W) = alt_flip h) by (rewrite EW; reflexivity).
  destruct (orth_inner C fuel s Hs W level phi psi x Hw Hr E) with (k := k) as (A1 & A2 & A3); [rewrite E1; exact Hd|].
  rewrite E2 in A2. rewrite E1, E2 in A3. split; [exact A1|]. split.
  - rewrite A2, corr_flip by reflexivity. rewrite (Hd (2 * k)) by lia.
    destruct (Z.eqb_spec k 0); destruct (Z.eqb_spec (2 * k) 0); try lia; ring.
  - rewrite A3, corr_self_flip by exact He. ring.
Qed.

Theorem bior_dual (W : dwave C) (a b : list C) level phi_d psi_d phi_r psi_r x :
  w_bank W = bi_bank a b -> zlen b = zlen a -> zlen a mod 2 = 0 -> 2 <= zlen a -> even_shift_dual a b ->
  wf_res fuel (zlen a) level -> wavefun fuel s W level = Ok (WfBior phi_d psi_d phi_r psi_r x) ->
  forall k, inner_shift phi_r phi_d (2 ^ level * k) = (if k =? 0 then rz (2 ^ level) else r0) /\
    inner_shift psi_r psi_d (2 ^ level * k) = (if k =? 0 then rz (2 ^ level) else r0) /\
    inner_shift phi_r psi_d (2 ^ level * k) = r0 /\
    inner_shift psi_r phi_d (2 ^ level * k) = r0.
Proof.
  intros EW Hab He H2 Hd Hr E k.
  assert (Hw : wf_bank (w_bank W)) by (rewrite EW; apply bi_wf; auto).
  assert (Hl : dec_len (w_bank W) = zlen a) by (rewrite EW; unfold dec_len, bi_bank; cbn [dec_lo]; rewrite zlen_rev; exact Hab).
  rewrite <- Hl in Hr.
  assert (E1 : rec_lo (w_bank W) = a) by (rewrite EW; reflexivity).
  assert (E2 : rec_hi (w_bank W) = alt_flip b) by (rewrite EW; reflexivity).
  assert (E3 : rev (dec_lo (w_bank W)) = b) by (rewrite EW; apply rev_involutive).
  assert (E4 : rev (dec_hi (w_bank W)) = alt_flip a) by (rewrite EW; apply rev_involutive).
  destruct (bior_inner C fuel s Hs W level _ _ _ _ _ Hw Hr E) as (q & _ & A); [rewrite E1, E3; exact Hd|].
  destruct (A k) as (A1 & A2 & A3 & A4). clear A. rewrite E2, E4 in A2. rewrite E1, E4 in A3. rewrite E2, E3 in A4.
  split; [exact A1|]. split; [|split].
  - rewrite A2, corr_flip by exact Hab. rewrite (Hd (2 * k)) by lia.
    destruct (Z.eqb_spec k 0); destruct (Z.eqb_spec (2 * k) 0); try lia; ring.
  - rewrite A3, corr_self_flip by exact He. ring.
  - rewrite A4, corr_flip_self by (rewrite Hab; exact He). ring.
Qed.

End WMore.
