(** The moments of the high-pass filters of the built-in tables. *)
From Verif Require Import Base BaseLemmas CConv Spec Instances Lengths Dwt FilterSpec Filters FiltersProofs FiltersFacts PRError Tables TablesProofs TablesFacts WavefunSpec MomentSpec.
From Coq Require Import QArith Qcanon Qcabs.
Open Scope Z_scope.

(** ** Weighted sums of a list of integers *)
Fixpoint wsum (f : nat -> Z) (l : list Z) : Z :=
  match l with [] => 0 | a :: t => f O * a + wsum (fun k => f (S k)) t end.
Lemma wsum_ext f g l : (forall k, (k < Datatypes.length l)%nat -> f k = g k) -> wsum f l = wsum g l.
Proof.
  revert f g. induction l as [|a l IH]; intros f g H; [reflexivity|]. cbn [wsum Datatypes.length] in *. rewrite (H O) by lia. rewrite (IH _ (fun k => g (S k))); [reflexivity|].
  intros k Hk. apply H. lia.
Qed.
Lemma wsum_add f g l : wsum (fun k => f k + g k) l = wsum f l + wsum g l.
Proof. revert f g. induction l as [|a l IH]; intros f g; cbn [wsum]; [reflexivity|]. rewrite (IH (fun k => f (S k))). lia. Qed.
Lemma wsum_scal c f l : wsum (fun k => c * f k) l = c * wsum f l.
Proof. revert f. induction l as [|a l IH]; intros f; cbn [wsum]; [lia|]. rewrite (IH (fun k => f (S k))). lia. Qed.
Lemma wsum_0 l : wsum (fun _ => 0) l = 0.
Proof. induction l as [|a l IH]; cbn [wsum]; [reflexivity|]. rewrite IH. lia. Qed.

Fixpoint suffix (l : list Z) : list Z :=
  match l with [] => [] | a :: t => match suffix t with [] => [a] | s :: u => a + s :: s :: u end end.
Lemma suffix_hd l : hd 0 (suffix l) = wsum (fun _ => 1) l.
Proof.
  induction l as [|a l IH]; [reflexivity|]. cbn [suffix wsum]. destruct (suffix l) as [|s u]; cbn [hd] in *; lia.
Qed.
Lemma suffix_cons a l : suffix (a :: l) = hd 0 (suffix (a :: l)) :: suffix l.
Proof. cbn [suffix]. destruct (suffix l); reflexivity. Qed.
Lemma suffix_tl a l : tl (suffix (a :: l)) = suffix l.
Proof. rewrite suffix_cons. reflexivity. Qed.

(** Sum of the first k values of [g]. *)
Fixpoint below (g : nat -> Z) (k : nat) : Z := match k with O => 0 | S k' => below g k' + g k' end.
Lemma below_first g k : below g (S k) = g O + below (fun t => g (S t)) k.
Proof. induction k as [|k IH]; [cbn; lia|]. change (below g (S (S k))) with (below g (S k) + g (S k)). rewrite IH. cbn [below]. lia. Qed.
Lemma wsum_suffix g l : wsum g (suffix l) = wsum (fun k => below g (S k)) l.
Proof.
  revert g. induction l as [|a l IH]; intros g; [reflexivity|]. rewrite suffix_cons. cbn [wsum]. rewrite IH.
  rewrite suffix_hd. cbn [wsum]. rewrite (wsum_ext (fun k => below g (S (S k))) (fun k => g O * 1 + below (fun t => g (S t)) (S k))).
  - rewrite wsum_add, wsum_scal. cbn [below]. lia.
  - intros k _. rewrite (below_first g). lia.
Qed.
Lemma wsum_tl g l : wsum g (tl (suffix l)) = wsum (below g) l.
Proof.
  destruct l as [|a l]; [reflexivity|]. rewrite suffix_tl, wsum_suffix. cbn [wsum]. rewrite Z.mul_0_l. reflexivity.
Qed.
Lemma choose_0 n : choose n 0 = 1.
Proof. destruct n; reflexivity. Qed.
Lemma choose_below r k : below (fun t => choose t r) k = choose k (S r).
Proof. induction k as [|k IH]; [reflexivity|]. cbn [below]. rewrite IH. cbn [choose]. lia. Qed.

(** ** The check *)
(** The first p binomial moments of [l] are at most those of [la]. *)
Fixpoint mcheck (p : nat) (l la : list Z) : bool :=
  match p with
  | O => true
  | S p' => let s := suffix l in let sa := suffix la in (Z.abs (hd 0 s) <=? hd 0 sa) && mcheck p' (tl s) (tl sa)
  end.
Fixpoint mlast (n d : Z) (p : nat) (l la : list Z) : bool :=
  let s := suffix l in let sa := suffix la in
  match p with O => n * hd 0 sa <? Z.abs (hd 0 s) * d | S p' => mlast n d p' (tl s) (tl sa) end.

Lemma mcheck_gen p l la : mcheck p l la = true -> forall r, (r < p)%nat ->
  Z.abs (wsum (fun k => choose k r) l) * 1 <= 1 * wsum (fun k => choose k r) la.
Proof.
  revert l la. induction p as [|p IH]; intros l la H r Hr; [lia|]. cbn [mcheck] in H. apply andb_true_iff in H as (H1 & H2).
  destruct r as [|r].
  - rewrite !suffix_hd in H1. rewrite !(wsum_ext (fun k => choose k 0) (fun _ => 1)) by (intros; apply choose_0). lia.
  - specialize (IH _ _ H2 r ltac:(lia)). rewrite !wsum_tl in IH.
    rewrite !(wsum_ext (fun k => choose k (S r)) (below (fun k => choose k r))) by (intros; rewrite choose_below; reflexivity). exact IH.
Qed.
Lemma mlast_gen n d p l la : mlast n d p l la = true ->
  n * wsum (fun k => choose k p) la < Z.abs (wsum (fun k => choose k p) l) * d.
Proof.
  revert l la. induction p as [|p IH]; intros l la H; cbn [mlast] in H.
  - rewrite !suffix_hd in H. rewrite !(wsum_ext (fun k => choose k 0) (fun _ => 1)) by (intros; apply choose_0). lia.
  - specialize (IH _ _ H). rewrite !wsum_tl in IH.
    rewrite !(wsum_ext (fun k => choose k (S p)) (below (fun k => choose k p))) by (intros; rewrite choose_below; reflexivity). exact IH.
Qed.

(** ** Powers are combinations of binomials with coefficients >= 0 *)
Fixpoint newton (c : list Z) (j : nat) (k : nat) : Z :=
  match c with [] => 0 | a :: t => a * choose k j + newton t (S j) k end.
Lemma choose_step k j : Z.of_nat k * choose k j = Z.of_nat j * choose k j + Z.of_nat (S j) * choose k (S j).
Proof.
  revert j. induction k as [|k IH]; intros [|j]; cbn [choose]; try lia.
  - rewrite choose_0. pose proof (IH 0%nat). rewrite choose_0 in H. lia.
  - pose proof (IH j). pose proof (IH (S j)). lia.
Qed.
Fixpoint times_k (c : list Z) (j : nat) (carry : Z) : list Z :=
  match c with [] => [carry] | a :: t => (Z.of_nat j * a + carry) :: times_k t (S j) (Z.of_nat (S j) * a) end.
Lemma newton_times c : forall j carry k, newton (times_k c j carry) j k = Z.of_nat k * newton c j k + carry * choose k j.
Proof.
  induction c as [|a c IH]; intros j carry k; cbn [times_k newton]; [lia|]. rewrite IH. rewrite Z.mul_add_distr_l, Z.mul_assoc, (Z.mul_comm (Z.of_nat k) a), <- (Z.mul_assoc a), choose_step. ring.
Qed.
Lemma times_nonneg c : forall j carry, 0 <= carry -> Forall (Z.le 0) c -> Forall (Z.le 0) (times_k c j carry).
Proof.
  induction c as [|a c IH]; intros j carry Hc H; cbn [times_k]; [constructor; [lia|constructor]|]. inversion H; subst. constructor; [nia|]. apply IH; [nia|assumption].
Qed.
Lemma times_length c : forall j carry, Datatypes.length (times_k c j carry) = S (Datatypes.length c).
Proof. induction c as [|a c IH]; intros j carry; cbn [times_k Datatypes.length]; [reflexivity|]. rewrite IH. reflexivity. Qed.
Lemma power_newton r : exists c, Datatypes.length c = S r /\ Forall (Z.le 0) c /\ forall k, Z.of_nat k ^ Z.of_nat r = newton c 0 k.
Proof.
  induction r as [|r (c & L & P & E)].
  - exists (1 :: nil). split; [reflexivity|]. split; [repeat constructor; lia|]. intros k. cbn [newton]. rewrite choose_0. reflexivity.
  - exists (times_k c 0 0). split; [rewrite times_length, L; reflexivity|]. split; [apply times_nonneg; [lia|exact P]|].
    intros k. rewrite newton_times. rewrite <- E. rewrite Nat2Z.inj_succ, Z.pow_succ_r by lia. lia.
Qed.
Lemma newton_bound n d l la : forall c j, Forall (Z.le 0) c ->
  (forall r, (j <= r < j + Datatypes.length c)%nat -> Z.abs (wsum (fun k => choose k r) l) * d <= n * wsum (fun k => choose k r) la) -> 0 < d ->
  Z.abs (wsum (newton c j) l) * d <= n * wsum (newton c j) la.
Proof.
  induction c as [|a c IH]; intros j P H Hd.
  - cbn [newton]. rewrite !wsum_0. lia.
  - inversion P; subst. change (wsum (newton (a :: c) j)) with (wsum (fun k => a * choose k j + newton c (S j) k)).
    rewrite !wsum_add, !wsum_scal. specialize (IH (S j) ltac:(assumption)). cbn [Datatypes.length] in H.
    assert (IH' : Z.abs (wsum (fun k => newton c (S j) k) l) * d <= n * wsum (fun k => newton c (S j) k) la) by (apply IH; [intros r Hr; apply H; lia|exact Hd]). pose proof (H j ltac:(lia)) as H0.
    set (u := wsum (fun k => choose k j) l) in *. set (v := wsum (fun k => newton c (S j) k) l) in *. set (ua := wsum (fun k => choose k j) la) in *. set (va := wsum (fun k => newton c (S j) k) la) in *. clearbody u v ua va.
    assert (A : Z.abs (a * u + v) <= a * Z.abs u + Z.abs v) by (pose proof (Z.abs_triangle (a * u) v) as T; rewrite Z.abs_mul, (Z.abs_eq a) in T by assumption; exact T).
    apply Z.le_trans with ((a * Z.abs u + Z.abs v) * d); [apply Z.mul_le_mono_nonneg_r; lia|].
    assert (B : a * (Z.abs u * d) <= a * (n * ua)) by (apply Z.mul_le_mono_nonneg_l; assumption).
    replace ((a * Z.abs u + Z.abs v) * d) with (a * (Z.abs u * d) + Z.abs v * d) by ring. replace (n * (a * ua + va)) with (a * (n * ua) + n * va) by ring.
lia.
Qed.
Lemma power_bound p l la : mcheck p l la = true -> forall r, (r < p)%nat ->
  Z.abs (wsum (fun k => Z.of_nat k ^ Z.of_nat r) l) * 1 <= 1 * wsum (fun k => Z.of_nat k ^ Z.of_nat r) la.
Proof.
  intros H r Hr. destruct (power_newton r) as (c & L & P & E).
  rewrite !(wsum_ext (fun k => Z.of_nat k ^ Z.of_nat r) (newton c 0)) by (intros; apply E).
  apply newton_bound; [exact P| |lia]. intros e He. apply (mcheck_gen p); auto. lia.
Qed.

(** The absolute values, divided by 2^q and rounded down. *)
Definition cut (q : Z) (l : list Z) : list Z := map (fun z => Z.shiftr (Z.abs z) q) l.
Lemma wsum_cut q l : 0 <= q -> forall f, (forall k, 0 <= f k) -> 2 ^ q * wsum f (cut q l) <= wsum f (map Z.abs l).
Proof.
  intros Hq. pose proof (Z.pow_pos_nonneg 2 q ltac:(lia) Hq) as P2. induction l as [|a l IH]; intros f Hf; cbn [cut map wsum]; [lia|].
  specialize (IH (fun k => f (S k)) (fun k => Hf (S k))). fold (cut q l). rewrite Z.shiftr_div_pow2 by exact Hq.
  pose proof (Z.mul_div_le (Z.abs a) (2 ^ q) P2) as D. assert (f O * (2 ^ q * (Z.abs a / 2 ^ q)) <= f O * Z.abs a) by (apply Z.mul_le_mono_nonneg_l; [apply Hf|exact D]).
  rewrite Z.mul_add_distr_l. replace (2 ^ q * (f O * (Z.abs a / 2 ^ q))) with (f O * (2 ^ q * (Z.abs a / 2 ^ q))) by ring. lia.
Qed.
Lemma cut_bound q n d p l r : mcheck p l (cut q l) = true -> (r < p)%nat -> 0 <= q -> 0 <= n -> 0 < d -> d <= n * 2 ^ q ->
  Z.abs (wsum (fun k => Z.of_nat k ^ Z.of_nat r) l) * d <= n * wsum (fun k => Z.of_nat k ^ Z.of_nat r) (map Z.abs l).
Proof.
  intros H Hr Hq Hn Hd0 Hd. pose proof (power_bound p l _ H r Hr) as B.
  pose proof (wsum_cut q l Hq (fun k => Z.of_nat k ^ Z.of_nat r) ltac:(intros; apply Z.pow_nonneg; lia)) as D.
  set (u := Z.abs (wsum (fun k => Z.of_nat k ^ Z.of_nat r) l)) in *. assert (U : 0 <= u) by (unfold u; lia).
  set (v := wsum _ (cut q l)) in *. set (w := wsum _ (map Z.abs l)) in *. clearbody u v w. rewrite Z.mul_1_l, Z.mul_1_r in B.
  pose proof (Z.pow_pos_nonneg 2 q ltac:(lia) Hq) as P2. assert (A : 2 ^ q * u <= w) by (apply Z.le_trans with (2 ^ q * v); [apply Z.mul_le_mono_nonneg_l; lia|exact D]).
  apply Z.le_trans with (u * (n * 2 ^ q)); [apply Z.mul_le_mono_nonneg_l; lia|]. replace (u * (n * 2 ^ q)) with (n * (2 ^ q * u)) by ring. apply Z.mul_le_mono_nonneg_l; lia.
Qed.
Lemma wsum_map_scal c f l : wsum f (map (fun z => z * c) l) = c * wsum f l.
Proof. revert f. induction l as [|a l IH]; intros f; cbn [wsum map]; [lia|]. rewrite IH. ring. Qed.

(** ** From integers to the decimals *)
Fixpoint zalt (s : Z) (l : list Z) : list Z := match l with [] => [] | a :: t => s * a :: zalt (- s) t end.
Lemma zalt_length s l : Datatypes.length (zalt s l) = Datatypes.length l.
Proof. revert s. induction l as [|a l IH]; intros s; cbn [zalt Datatypes.length]; [reflexivity|]. rewrite IH. reflexivity. Qed.
Lemma zalt_nth s l i : (i < Datatypes.length l)%nat -> nth i (zalt s l) 0 = (if Nat.even i then s else - s) * nth i l 0.
Proof.
  revert s i. induction l as [|a l IH]; intros s i H; cbn [Datatypes.length] in H; [lia|]. destruct i as [|i]; [reflexivity|]. cbn [zalt nth].
  rewrite IH by lia. rewrite Nat.even_succ, <- Nat.negb_even. destruct (Nat.even i); cbn [negb]; lia.
Qed.
Lemma zalt_abs l : forall s, Z.abs s = 1 -> map Z.abs (zalt s l) = map Z.abs l.
Proof. induction l as [|a l IH]; intros s H; [reflexivity|]. cbn [zalt map]. rewrite IH by lia. rewrite Z.abs_mul, H. f_equal. lia. Qed.

Lemma wsum_sumZ (f : nat -> Z) (l : list Zring) : wsum f l = @sumZ Zring 0 (zlen l) (fun k => f (Z.to_nat k) * gz l k).
Proof.
  revert f. induction l as [|a l IH]; intros f; [reflexivity|]. cbn [wsum]. rewrite IH.
  replace (zlen (a :: l)) with (zlen l + 1) by (unfold zlen; cbn [Datatypes.length]; lia). 
  rewrite (sumZ_first Zring 0 (zlen l + 1)) by (unfold zlen; lia). rewrite (sumZ_shift Zring (0 + 1) (zlen l + 1) (-1)).
  replace (0 + 1 + -1) with 0 by lia. replace (zlen l + 1 + -1) with (zlen l) by lia. cbn [radd Zring]. f_equal.
  apply sumZ_ext. intros t Ht. replace (Z.to_nat (t - -1)) with (S (Z.to_nat t)) by lia. f_equal. unfold gz.
  replace (0 <=? t) with true by lia. replace (0 <=? t - -1) with true by lia. replace (Z.to_nat (t - -1)) with (S (Z.to_nat t)) by lia. reflexivity.
Qed.
Lemma rz_wsum E (f : nat -> Z) (l : list Z) :
  sumZ 0 (zlen (map (dec E) l)) (fun k => rz (f (Z.to_nat k)) [*] gz (map (dec E) l) k) = (kE E [*] rz (wsum f l) : R).
Proof.
  rewrite zlen_map, wsum_sumZ, rz_sumZ. rewrite <- (sumZ_scal Qcring). apply sumZ_ext. intros t Ht. rewrite (gz_dec E l). cbn [rmul Zring]. rewrite rz_mul. ring.
Qed.
Lemma powr_rz k m : 0 <= k -> (powr (rz k) m : R) = rz (Z.of_nat (Z.to_nat k) ^ Z.of_nat m).
Proof.
  intros Hk. rewrite Z2Nat.id by exact Hk. induction m as [|m IH]; [rewrite Z.pow_0_r, rz_1; reflexivity|]. cbn [powr]. rewrite IH, Nat2Z.inj_succ, Z.pow_succ_r, rz_mul by lia. reflexivity.
Qed.
Lemma moment_dec E l r : moment (map (dec E) l) r = (kE E [*] rz (wsum (fun k => Z.of_nat k ^ Z.of_nat r) l) : R).
Proof.
  rewrite <- rz_wsum. unfold moment. apply sumZ_ext. intros k Hk. rewrite powr_rz by lia. ring.
Qed.
Lemma bmoment_dec E l r : binomial_moment (map (dec E) l) r = (kE E [*] rz (wsum (fun k => choose k r) l) : R).
Proof. rewrite <- rz_wsum. reflexivity. Qed.
Lemma qabs_dec E (l : list Z) : map qabs (map (dec E) l : list R) = map (dec E) (map Z.abs l).
Proof.
  rewrite !map_map. apply map_ext. intros z. rewrite !dec_rz. unfold qabs. cbn [rmul Qcring]. rewrite Qcabs_Qcmult. fold (qabs (rz z)). rewrite rz_abs.
  fold (qabs (kE E)). rewrite qabs_pos by apply kE_nonneg. reflexivity.
Qed.

(** A relation between two integers, scaled. *)
Lemma scaled_le E (a b n : Z) (d : positive) : Z.abs a * Zpos d <= n * b ->
  qabs (kE E [*] rz a) [<=] ratio n d [*] (kE E [*] rz b).
Proof.
  intros H. unfold qabs. cbn [rmul Qcring]. rewrite Qcabs_Qcmult. fold (qabs (rz a)). fold (qabs (kE E)). rewrite rz_abs, qabs_pos by apply kE_nonneg.
  replace (Qcmult (ratio n d) (Qcmult (kE E) (rz b : R))) with (Qcmult (Qcmult (ratio n d) (rz b : R)) (kE E)) by ring.
  rewrite (Qcmult_comm (kE E)). apply (qmul_mono (rz (Z.abs a)) (ratio n d [*] rz b) (kE E)); [|apply kE_nonneg].
  rewrite !rz_Qc. unfold rle, ratio, Qcle. cbn [rmul Qcring]. unfold Qcmult. cbn [this Q2Qc]. rewrite !Qred_correct. unfold Qle, Qmult, inject_Z. cbn [Qnum Qden]. lia.
Qed.
Lemma kE_pos E : ~ (kE E [<=] r0).
Proof.
  unfold rle, kE, dec, Qcle. cbn [r0 Qcring this Q2Qc]. rewrite !Qred_correct. unfold Qle. cbn [Qnum Qden]. lia.
Qed.
Lemma scaled_lt E (a b n : Z) (d : positive) : n * b < Z.abs a * Zpos d ->
  ~ (qabs (kE E [*] rz a) [<=] ratio n d [*] (kE E [*] rz b)).
Proof.
  intros H. unfold qabs. cbn [rmul Qcring]. rewrite Qcabs_Qcmult. fold (qabs (rz a)). fold (qabs (kE E)). rewrite rz_abs, qabs_pos by apply kE_nonneg.
  replace (Qcmult (ratio n d) (Qcmult (kE E) (rz b : R))) with (Qcmult (Qcmult (ratio n d) (rz b : R)) (kE E)) by ring.
  rewrite (Qcmult_comm (kE E)). intros G. unfold rle in G. apply Qcmult_lt_0_le_reg_r in G.
  - revert G. rewrite !rz_Qc. unfold ratio, Qcle. unfold Qcmult. cbn [this Q2Qc]. rewrite !Qred_correct. unfold Qle, Qmult, inject_Z. cbn [Qnum Qden]. lia.
  - destruct (Qclt_le_dec 0 (kE E)) as [L|L]; [exact L|]. destruct (kE_pos E L).
Qed.

Lemma sg1 (x y : R) : r1 [*] (x [*] y) = x [*] y.
Proof. ring. Qed.
Lemma sg2 (x y : R) : ([--] r1) [*] (x [*] y) = x [*] (([--] r1) [*] y).
Proof. ring. Qed.
Lemma dec_hi_table t (b : list R) : zlen (snd t) mod 2 = 0 -> dec_hi (bi_bank (dtab t) b) = map (dec (fst t)) (zalt (-1) (snd t)).
Proof.
  intros He. cbn [dec_hi bi_bank]. 
  assert (L : zlen (alt_flip (dtab t)) = zlen (snd t)) by (unfold alt_flip; rewrite zlen_tab, zlen_dtab by (rewrite zlen_dtab; apply zlen_nonneg); reflexivity).
  apply list_ext.
  - rewrite zlen_rev, zlen_map, L. unfold zlen. rewrite zalt_length. reflexivity.
  - rewrite zlen_rev, L. intros i Hi. rewrite gz_rev by (rewrite L; exact Hi). rewrite L. unfold alt_flip. rewrite gz_tab by (rewrite zlen_dtab; lia).
    rewrite zlen_dtab. replace (zlen (snd t) - 1 - (zlen (snd t) - 1 - i)) with i by lia. unfold dtab. rewrite (gz_dec _ (snd t)), (gz_dec _ (zalt (-1) (snd t))).
    unfold gz. replace (0 <=? i) with true by lia. cbn [r0 Zring]. rewrite zalt_nth by (unfold zlen in Hi; lia).
    unfold sgn. assert (Ev : (zlen (snd t) - 1 - i) mod 2 = 0 <-> Nat.even (Z.to_nat i) = false).
    { rewrite <- not_true_iff_false, Nat.even_spec. split.
      - intros G (q & Q). assert (i = 2 * Z.of_nat q) by lia. subst i. lia.
      - intros G. destruct (Nat.Even_or_Odd (Z.to_nat i)) as [Q|(q & Q)]; [contradiction|]. assert (i = 2 * Z.of_nat q + 1) by lia. subst i. lia. }
    destruct (Z.eqb_spec ((zlen (snd t) - 1 - i) mod 2) 0) as [G|G], (Nat.even (Z.to_nat i)) eqn:V; [exfalso; destruct Ev as (Ev & _); specialize (Ev G); discriminate| | |].
    + rewrite Z.mul_1_l. apply sg1.
    + rewrite rz_mul. change (-1) with (- (1)). rewrite rz_opp, rz_1. apply sg2.
    + exfalso. apply G. apply Ev. reflexivity.
Qed.

Definition hi_check (q : Z) (p : nat) (t : positive * list Z) : bool := let l := zalt (-1) (snd t) in mcheck p l (cut q l).
Definition last_check (n d : Z) (p : nat) (t : positive * list Z) : bool := mlast n d p (zalt (-1) (snd t)) (map Z.abs (snd t)).
Lemma hi_check_ok q n d p t (b : list R) : zlen (snd t) mod 2 = 0 -> hi_check q p t = true -> 0 <= q -> 0 <= n -> Zpos d <= n * 2 ^ q -> forall r, (r < p)%nat ->
  let h := dec_hi (bi_bank (dtab t) b) in qabs (moment h r) [<=] ratio n d [*] moment (map qabs h) r.
Proof.
  intros He H Hq Hn Hd r Hr h. unfold h. rewrite dec_hi_table by exact He. rewrite qabs_dec, !moment_dec by reflexivity.
  apply scaled_le. apply (cut_bound q n (Zpos d) p); auto. lia.
Qed.
Lemma last_check_ok n d p t (b : list R) : zlen (snd t) mod 2 = 0 -> last_check n (Zpos d) p t = true ->
  let h := dec_hi (bi_bank (dtab t) b) in ~ (qabs (binomial_moment h p) [<=] ratio n d [*] binomial_moment (map qabs h) p).
Proof.
  intros He H h. unfold h. rewrite dec_hi_table by exact He. rewrite qabs_dec, !bmoment_dec, zalt_abs by reflexivity.
  apply scaled_lt. apply mlast_gen. exact H.
Qed.

(** A common factor changes nothing. *)
Lemma zalt_scal c l : forall s, zalt s (map (fun z => z * c) l) = map (fun z => z * c) (zalt s l).
Proof. induction l as [|a l IH]; intros s; [reflexivity|]. cbn [zalt map]. rewrite IH, Z.mul_assoc. reflexivity. Qed.
Lemma abs_scal c l : map Z.abs (map (fun z => z * c) l) = map (fun z => z * Z.abs c) (map Z.abs l).
Proof. rewrite !map_map. apply map_ext. intros a. apply Z.abs_mul. Qed.
Lemma hi_check_scal q n d p t s (b : list R) : zlen (snd t) mod 2 = 0 -> hi_check q p t = true -> 0 <= q -> 0 <= n -> Zpos d <= n * 2 ^ q -> forall r, (r < p)%nat ->
  let h := dec_hi (bi_bank (dtab (tscale t s)) b) in qabs (moment h r) [<=] ratio n d [*] moment (map qabs h) r.
Proof.
  intros He H Hq Hn Hd r Hr h. unfold h. rewrite dec_hi_table by (unfold tscale; cbn [snd]; rewrite zlen_map; exact He). rewrite qabs_dec, !moment_dec by reflexivity.
  apply scaled_le. cbn [tscale snd fst]. rewrite zalt_scal, abs_scal, !wsum_map_scal, Z.abs_mul.
  pose proof (cut_bound q n (Zpos d) p _ r H Hr Hq Hn ltac:(lia) Hd) as B. set (u := Z.abs (wsum _ (zalt _ _))) in *. set (w := wsum _ (map Z.abs _)) in *. clearbody u w.
  replace (Z.abs (snd s) * u * Zpos d) with (Z.abs (snd s) * (u * Zpos d)) by ring. replace (n * (Z.abs (snd s) * w)) with (Z.abs (snd s) * (n * w)) by ring.
  apply Z.mul_le_mono_nonneg_l; lia.
Qed.
Lemma last_check_scal n d p t s (b : list R) : zlen (snd t) mod 2 = 0 -> last_check n (Zpos d) p t = true -> snd s <> 0 ->
  let h := dec_hi (bi_bank (dtab (tscale t s)) b) in ~ (qabs (binomial_moment h p) [<=] ratio n d [*] binomial_moment (map qabs h) p).
Proof.
  intros He H Hs h. unfold h. rewrite dec_hi_table by (unfold tscale; cbn [snd]; rewrite zlen_map; exact He). rewrite qabs_dec, !bmoment_dec, zalt_abs by reflexivity.
  apply scaled_lt. cbn [tscale snd fst]. rewrite zalt_scal, abs_scal, !wsum_map_scal, Z.abs_mul.
  pose proof (mlast_gen _ _ _ _ _ H) as B. set (u := Z.abs (wsum _ (zalt _ _))) in *. set (w := wsum _ (map Z.abs _)) in *. clearbody u w.
  replace (Z.abs (snd s) * u * Zpos d) with (Z.abs (snd s) * (u * Zpos d)) by ring. replace (n * (Z.abs (snd s) * w)) with (Z.abs (snd s) * (n * w)) by ring.
  apply Z.mul_lt_mono_pos_l; lia.
Qed.

(** ** The tables *)
Definition numbered {A} (from : nat) (l : list A) : list (nat * A) := combine (seq from (Datatypes.length l)) l.
Lemma db_moments : forallb (fun '(p, t) => hi_check 200 p t && last_check 1 (10 ^ 10) p t) (numbered 1 db_list) = true.
Proof. vm_compute. reflexivity. Qed.
Lemma sym_moments : forallb (fun '(p, t) => hi_check 35 p t && last_check 1 (10 ^ 7) p t) (numbered 2 sym_list) = true.
Proof. vm_compute. reflexivity. Qed.
Lemma coif_moments : forallb (fun '(p, t) => hi_check 200 (2 * p) t && last_check 1 (10 ^ 16) (2 * p) t) (numbered 1 coif_list) = true.
Proof. vm_compute. reflexivity. Qed.
Lemma bior_moments : forallb (fun '(n, q) => hi_check 35 (Z.to_nat (n / 10)) (fst (bior_z q)) && ((n =? 55) || last_check 1 (10 ^ 3) (Z.to_nat (n / 10)) (fst (bior_z q)))) bior_list = true.
Proof. vm_compute. reflexivity. Qed.
