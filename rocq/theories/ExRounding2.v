(** Concrete banks and data for the rounding theorems. *)
From Verif Require Import Base BaseLemmas CConv Spec ExtLemmas Instances Lengths Dwt DwtProofs Multilevel MultilevelProofs FilterSpec Filters FiltersProofs FiltersFacts PRError Tables TablesProofs TablesFacts.
From Verif Require Import CwtReal RawConv HomRing Rounding RoundingBuiltin ExRounding.
From Coq Require Import Reals Lra Qreals QArith.
Open Scope R_scope.

(** A perfect-reconstruction bank with taps 1/3 and 3/2 and its 8-bit version. *)
Definition rb3 : wavelet Rring := bi_bank (C := Rring) [3 / 2; 3 / 2] [1 / 3; 1 / 3].
Lemma rb3_pr : pr_wavelet rb3.
Proof.
  apply bi_bank_pr; [reflexivity|reflexivity|cbn; lia|]. intros u Hu. unfold corr. change (zlen _) with 2%Z.
  set (l := [1 / 3; 1 / 3] : list Rring). assert (G : forall i, (i < 0 \/ 2 <= i)%Z -> gz l i = r0).
  { intros i [H|H]; [exact (gz_neg (C := Rring) _ _ H)|exact (gz_big (C := Rring) l i H)]. }
  unfold sumZ. change (Z.to_nat (2 - 0)) with 2%nat. cbn [sumn].
  destruct (Z.eqb_spec u 0) as [->|H].
  - cbn. change (0 + 3 / 2 * (1 / 3) + 3 / 2 * (1 / 3) = 1). lra.
  - rewrite !G by lia. change (0 + 3 / 2 * 0 + 3 / 2 * 0 = 0). lra.
Qed.
Lemma flip2 (x y : R) : alt_flip (C := Rring) [x; y] = [y; - x].
Proof.
  assert (E : alt_flip (C := Rring) [x; y] = [1 * y; (- (1)) * x]) by reflexivity. rewrite E, Rmult_1_l. do 2 f_equal. lra.
Qed.
Lemma flip2' (x y : Rring) : alt_flip [x; y] = [y; ropp (c := Rring) x].
Proof. exact (flip2 x y). Qed.
Lemma rb3_form : rb3 = mkWavelet (C := Rring) [1 / 3; 1 / 3] [- (3 / 2); 3 / 2] [3 / 2; 3 / 2] [1 / 3; - (1 / 3)].
Proof. unfold rb3, bi_bank. rewrite !flip2. reflexivity. Qed.
Definition w8 : owavelet (fp_arith 8) := mkOwavelet (O := fp_ops 8) [(170, -9); (170, -9)]%Z [(-3, -1); (3, -1)]%Z [(3, -1); (3, -1)]%Z [(170, -9); (-170, -9)]%Z.
(** m / 2^k is z / d rounded to [p] bits. *)
Definition lit_ok (p : positive) (z d m k : Z) : bool :=
  (0 <? d)%Z && (0 <=? k)%Z && (2 ^ (Zpos p - 1) * Z.abs (m * d - z * 2 ^ k) <=? Z.abs z * 2 ^ k)%Z.
Lemma fp_lit p z d m k r : lit_ok p z d m k = true -> r = IZR z / IZR d -> rounded (fp_arith p) 1 (m, (- k)%Z) r.
Proof.
  unfold lit_ok. rewrite !andb_true_iff, Z.ltb_lt, !Z.leb_le. intros ((Hd & Hk) & H) ->. unfold rounded.
  change (fu (fp_arith p)) with (/ powerRZ 2 (Zpos p - 1)). change (val (f := fp_arith p) (m, (- k)%Z)) with (fp_val (m, (- k)%Z)).
  rewrite pow_1. replace (1 + / powerRZ 2 (Zpos p - 1) - 1) with (/ powerRZ 2 (Zpos p - 1)) by ring.
  unfold fp_val. cbn [fst snd]. rewrite powerRZ_neg'. rewrite <- !pow2_Z by lia.
  assert (K0 : 0 < IZR (2 ^ k)) by (apply IZR_lt, Z.pow_pos_nonneg; lia). assert (P0 : 0 < IZR (2 ^ (Zpos p - 1))) by (apply IZR_lt, Z.pow_pos_nonneg; lia).
  apply IZR_lt in Hd. apply IZR_le in H. rewrite !mult_IZR, !abs_IZR, minus_IZR, !mult_IZR in H.
  set (A := IZR (2 ^ k)) in *. set (Q := IZR (2 ^ (Zpos p - 1))) in *. set (D := IZR d) in *. set (z' := IZR z) in *. set (m' := IZR m) in *. clearbody A Q D z' m'.
  replace (m' * / A - z' / D) with ((m' * D - z' * A) / (A * D)) by (field; lra).
  unfold Rdiv. rewrite (Rabs_mult (m' * D - z' * A)), (Rabs_mult z'), !Rabs_inv, (Rabs_pos_eq (A * D)), (Rabs_pos_eq D) by nra.
  apply (Rmult_le_reg_r (A * D)); [nra|]. apply (Rmult_le_reg_l Q); [exact P0|].
  replace (Q * (Rabs (m' * D - z' * A) * / (A * D) * (A * D))) with (Q * Rabs (m' * D - z' * A)) by (field; lra).
  replace (Q * (/ Q * (Rabs z' * / D) * (A * D))) with (Rabs z' * A) by (field; lra). exact H.
Qed.
Lemma w8_rounded : rounded_bank (fp_arith 8) 1 w8 rb3.
Proof.
  rewrite rb3_form. assert (L1 : rounded (fp_arith 8) 1 (170, -9)%Z (1 / 3)) by (apply (fp_lit 8 1 3 170 9); [reflexivity|reflexivity]).
  assert (L2 : rounded (fp_arith 8) 1 (-170, -9)%Z (- (1 / 3))) by (apply (fp_lit 8 (-1) 3 (-170) 9); [reflexivity|lra]).
  assert (L3 : rounded (fp_arith 8) 1 (3, -1)%Z (3 / 2)) by (apply (fp_lit 8 3 2 3 1); [reflexivity|reflexivity]).
  assert (L4 : rounded (fp_arith 8) 1 (-3, -1)%Z (- (3 / 2))) by (apply (fp_lit 8 (-3) 2 (-3) 1); [reflexivity|lra]).
  unfold rounded_bank. cbn [w8 odec_lo odec_hi orec_lo orec_hi dec_lo dec_hi rec_lo rec_hi].
  repeat apply conj; (apply Forall2_cons; [assumption|apply Forall2_cons; [assumption|apply Forall2_nil]]).
Qed.
Lemma rb3_norm : norm1 (dec_lo rb3) <= 3 /\ norm1 (dec_hi rb3) <= 3 /\ forall q, taps q (rec_lo rb3) + taps q (rec_hi rb3) <= 3.
Proof.
  rewrite rb3_form. cbn [dec_lo dec_hi rec_lo rec_hi].
  assert (N : forall x y : R, norm1 [x; y] = Rabs x + Rabs y).
  { intros x y. rewrite !norm1_cons. change (norm1 []) with 0. ring. }
  assert (A1 : Rabs (1 / 3) = 1 / 3) by (apply Rabs_pos_eq; lra). assert (A2 : Rabs (3 / 2) = 3 / 2) by (apply Rabs_pos_eq; lra).
  rewrite !N, !Rabs_Ropp, A1, A2. split; [lra|]. split; [lra|]. intros q. unfold taps. change (zlen _) with 2%Z. change (zlen _) with 2%Z.
  unfold sumZ. change (Z.to_nat (2 - 0)) with 2%nat. cbn [sumn]. change (Z.of_nat 0) with 0%Z. change (Z.of_nat 1) with 1%Z.
  change ((0 + 0) mod 2)%Z with 0%Z. change ((0 + 1) mod 2)%Z with 1%Z.
  change (gz (C := Rring) [3 / 2; 3 / 2] (0 + 0)) with (3 / 2). change (gz (C := Rring) [3 / 2; 3 / 2] (0 + 1)) with (3 / 2).
  change (gz (C := Rring) [1 / 3; - (1 / 3)] (0 + 0)) with (1 / 3). change (gz (C := Rring) [1 / 3; - (1 / 3)] (0 + 1)) with (- (1 / 3)).
  rewrite Rabs_Ropp, A1, A2. change (radd (c := Rring)) with Rplus. change (@r0 Rring) with 0.
  destruct (Z.eqb_spec 0 q), (Z.eqb_spec 1 q); try lia; lra.
Qed.

(** Data with 8 bits. *)
Definition x8 : list (fp_arith 8) := [(5, 0); (-3, 0); (7, -1)]%Z.
Lemma x8_le v : In v x8 -> Rabs (val v) <= 5.
Proof.
  cbn [In x8]. intros [<-|[<-|[<-|[]]]]; change (val (f := fp_arith 8)) with fp_val; unfold fp_val; cbn [fst snd].
  - change (powerRZ 2 0) with 1. rewrite Rmult_1_r, Rabs_pos_eq; lra.
  - change (powerRZ 2 0) with 1. rewrite Rmult_1_r. replace (-3) with (- (3)) by lra. rewrite Rabs_Ropp, Rabs_pos_eq; lra.
  - change (powerRZ 2 (-1)) with (/ (2 * 1)). rewrite Rabs_pos_eq; lra.
Qed.

(** The Haar wavelet in 54 bits. *)
Definition w54 : owavelet (fp_arith 54) :=
  let c := (12738103345051545, -54)%Z in let c' := (-12738103345051545, -54)%Z in mkOwavelet (O := fp_ops 54) [c; c] [c'; c] [c; c] [c; c'].
Lemma haar_real d : discrete_wavelet 250 builtin HAAR 0 = Ok (Some d) ->
  real_bank (w_bank d) = (let c := q2r (dec 61 7071067811865475244008443621048490392848359376884740365883398) in
    mkWavelet (C := Rring) [c; c] [- c; c] [c; c] [c; - c]).
Proof.
  rewrite haar_structure, db_structure by (try apply builtin_ok; unfold uint_range; lia). change ((1 <=? 1)%Z && (1 <=? 38)%Z) with true.
  cbv beta iota zeta. intros E. injection E as <-. cbn [w_bank]. rewrite real_bi_bank.
  set (c := q2r (dec 61 7071067811865475244008443621048490392848359376884740365883398)). set (l := map q2r _).
  assert (El : l = [c; c]) by reflexivity. clearbody l c. subst l. unfold bi_bank. rewrite !flip2'. reflexivity.
Qed.
Lemma haar_rounded d : discrete_wavelet 250 builtin HAAR 0 = Ok (Some d) -> rounded_bank (fp_arith 54) 1 w54 (real_bank (w_bank d)).
Proof.
  intros H. rewrite (haar_real d H). cbv zeta. rewrite q2r_dec. change (Zpos 61) with 61%Z.
  assert (L1 : rounded (fp_arith 54) 1 (12738103345051545, -54)%Z (IZR 7071067811865475244008443621048490392848359376884740365883398 / IZR (10 ^ 61)))
    by (apply (fp_lit 54 7071067811865475244008443621048490392848359376884740365883398 (10 ^ 61) 12738103345051545 54); [vm_compute; reflexivity|reflexivity]).
  assert (L2 : rounded (fp_arith 54) 1 (-12738103345051545, -54)%Z (- (IZR 7071067811865475244008443621048490392848359376884740365883398 / IZR (10 ^ 61)))).
  { apply (fp_lit 54 (-7071067811865475244008443621048490392848359376884740365883398) (10 ^ 61) (-12738103345051545) 54); [vm_compute; reflexivity|].
    change (IZR (-7071067811865475244008443621048490392848359376884740365883398)) with (- IZR 7071067811865475244008443621048490392848359376884740365883398).
    unfold Rdiv. apply Ropp_mult_distr_l. }
  unfold rounded_bank. cbn [w54 odec_lo odec_hi orec_lo orec_hi dec_lo dec_hi rec_lo rec_hi].
  repeat apply conj; (apply Forall2_cons; [assumption|apply Forall2_cons; [assumption|apply Forall2_nil]]).
Qed.
Definition x54 : list (fp_arith 54) := [(5, 0); (-3, 0); (7, -1)]%Z.
Lemma x54_le v : In v x54 -> Rabs (val v) <= 5.
Proof. exact (x8_le v). Qed.
Lemma fu54 : fu (fp_arith 54) <= / 2 ^ 53.
Proof. change (/ powerRZ 2 53 <= / 2 ^ 53). change 53%Z with (Z.of_nat 53). rewrite <- pow_powerRZ. apply Rle_refl. Qed.
