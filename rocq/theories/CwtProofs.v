(** Proofs about the continuous wavelet transform. *)
From Coq Require Import QArith Qround Lqa.
From Verif Require Import Base BaseLemmas Dwt Nd Swt Multidim SwtNd Linear Cwt CwtSpec.
Open Scope Z_scope.

(** ** Indices *)
Lemma floor_lt q n : Qfloor q < n <-> (q < inject_Z n)%Q.
Proof.
  split; intros H.
  - pose proof (Qlt_floor q) as A. eapply Qlt_le_trans; [exact A|]. rewrite <- Zle_Qle. lia.
  - rewrite Zlt_Qlt. eapply Qle_lt_trans; [apply Qfloor_le|exact H].
Qed.
Lemma lt_ceil q i : i < Qceiling q <-> (inject_Z i < q)%Q.
Proof.
  split; intros H.
  - pose proof (Qceiling_lt q) as A. eapply Qle_lt_trans; [|exact A]. rewrite <- Zle_Qle. lia.
  - rewrite Zlt_Qlt. eapply Qlt_le_trans; [exact H|apply Qle_ceiling].
Qed.
Lemma div_lt i n u : (0 < u)%Q -> Qfloor (inject_Z i / u) < n <-> i < Qceiling (inject_Z n * u).
Proof.
  intros Hu. rewrite floor_lt, lt_ceil. split; intros H.
  - setoid_replace (inject_Z i) with (inject_Z i / u * u)%Q by (field; lra). apply Qmult_lt_compat_r; auto.
  - apply Qlt_shift_div_r; auto.
Qed.
Lemma div_nonneg i u : 0 <= i -> (0 < u)%Q -> (0 <= inject_Z i / u)%Q.
Proof.
  intros Hi Hu. apply Qle_shift_div_l; auto. setoid_replace (0 * u)%Q with 0%Q by ring. change 0%Q with (inject_Z 0). rewrite <- Zle_Qle. auto.
Qed.
Lemma filter_tab (f : Z -> Z) m n K : 0 <= K -> (forall i, 0 <= i < m -> f i < n <-> i < K) -> filter (fun i => i <? n) (tab m f) = tab (Z.min m K) f.
Proof.
  intros HK H. destruct (Z.le_gt_cases m 0) as [Hm|Hm].
  { unfold tab. replace (Z.to_nat m) with O by lia. replace (Z.to_nat (Z.min m K)) with O by lia. reflexivity. }
  revert H. replace m with (Z.of_nat (Z.to_nat m)) by lia. generalize (Z.to_nat m). clear Hm m. intros m. induction m as [|m IH]; intros H.
  - unfold tab. replace (Z.to_nat (Z.min (Z.of_nat 0) K)) with O by lia. reflexivity.
  - assert (Es : forall g : Z -> Z, forall q : nat, tab (Z.of_nat (S q)) g = tab (Z.of_nat q) g ++ [g (Z.of_nat q)]).
    { intros g q. unfold tab. rewrite !Nat2Z.id. rewrite seq_S, map_app. reflexivity. }
    rewrite Es, filter_app, IH by (intros i Hi; apply H; lia). cbn [filter].
    destruct (Z.ltb_spec (f (Z.of_nat m)) n) as [E|E].
    + assert (Z.of_nat m < K) by (apply H; [lia|auto]). rewrite !Z.min_l by lia. rewrite Es. reflexivity.
    + assert (K <= Z.of_nat m). { destruct (Z.lt_ge_cases (Z.of_nat m) K); auto. exfalso. assert (f (Z.of_nat m) < n) by (apply H; lia). lia. }
      rewrite !Z.min_r by lia. apply app_nil_r.
Qed.
Lemma rev_tab {A} (f : Z -> A) m : 1 <= m -> exists t, rev (tab m f) = f (m - 1) :: t.
Proof.
  intros Hm. unfold tab. replace (Z.to_nat m) with (S (Z.to_nat (m - 1))) by lia. rewrite seq_S, map_app, rev_app_distr. cbn [map rev app].
  eexists. f_equal. f_equal. lia.
Qed.

Definition grid_ok (x : list Q) : Prop := 2 <= zlen x /\ (0 < grid_step x)%Q /\ (0 < grid_width x)%Q.

Lemma scale_index_spec x s n : grid_ok x -> (0 < s)%Q -> 1 <= n ->
  scale_index x s n = Ok (tab (stretched_len n (grid_step x) (grid_width x) s) (fun i => Qfloor (inject_Z i / (s * grid_step x)))).
Proof.
  intros (_ & Hst & Hwd) Hs Hn. unfold scale_index, stretched_len. cbv zeta. set (u := (s * grid_step x)%Q).
  assert (Hu : (0 < u)%Q) by (unfold u; setoid_replace 0%Q with (0 * grid_step x)%Q by ring; apply Qmult_lt_compat_r; auto).
  set (m := Qceiling (s * grid_width x + 1)). set (K := Qceiling (inject_Z n * u)).
  assert (Hm : 1 < m). { apply lt_ceil. change (inject_Z 1) with 1%Q. assert (0 < s * grid_width x)%Q by (setoid_replace 0%Q with (0 * grid_width x)%Q by ring; apply Qmult_lt_compat_r; auto). lra. }
  assert (HK : 0 < K). { apply lt_ceil. change (inject_Z 0) with 0%Q. setoid_replace 0%Q with (0 * u)%Q by ring. apply Qmult_lt_compat_r; auto. change 0%Q with (inject_Z 0). rewrite <- Zlt_Qlt. lia. }
  rewrite (tab_ext m (fun i => trunc (inject_Z i / u)) (fun i => Qfloor (inject_Z i / u))).
  2: { intros i Hi. unfold trunc. replace (Qle_bool 0 (inject_Z i / u)) with true; auto. symmetry. apply Qle_bool_iff. apply div_nonneg; auto. lia. }
  destruct (rev_tab (fun i => Qfloor (inject_Z i / u)) m) as (t & ->); [lia|]. f_equal.
  destruct (Z.leb_spec n (Qfloor (inject_Z (m - 1) / u))) as [E|E].
  - apply filter_tab; [lia|]. intros i _. apply div_lt. auto.
  - apply div_lt in E; auto. fold K in E. rewrite Z.min_l by lia. reflexivity.
Qed.

Lemma stretched_len_pos n step width s : (0 < s)%Q -> (0 < step)%Q -> (0 < width)%Q -> 1 <= n -> 1 <= stretched_len n step width s.
Proof.
  intros Hs Hst Hwd Hn. unfold stretched_len. assert (0 < s * width)%Q by (setoid_replace 0%Q with (0 * width)%Q by ring; apply Qmult_lt_compat_r; auto).
  assert (0 < s * step)%Q by (setoid_replace 0%Q with (0 * step)%Q by ring; apply Qmult_lt_compat_r; auto).
  assert (1 < Qceiling (s * width + 1)) by (apply lt_ceil; change (inject_Z 1) with 1%Q; lra).
  assert (0 < Qceiling (inject_Z n * (s * step))).
  { apply lt_ceil. change (inject_Z 0) with 0%Q. setoid_replace 0%Q with (0 * (s * step))%Q by ring. apply Qmult_lt_compat_r; auto. change 0%Q with (inject_Z 0). rewrite <- Zlt_Qlt. lia. }
  lia.
Qed.
(** Long enough for a difference: 1 < n s step. *)
Lemma stretched_len_2 n step width s : (0 < s)%Q -> (0 < width)%Q -> (2 <= stretched_len n step width s <-> (1 < inject_Z n * (s * step))%Q).
Proof.
  intros Hs Hwd. unfold stretched_len. assert (0 < s * width)%Q by (setoid_replace 0%Q with (0 * width)%Q by ring; apply Qmult_lt_compat_r; auto).
  assert (1 < Qceiling (s * width + 1)) by (apply lt_ceil; change (inject_Z 1) with 1%Q; lra).
  rewrite <- (lt_ceil (inject_Z n * (s * step)) 1). lia.
Qed.

Lemma mapM_all {A B} (f : A -> res B) (g : A -> B) l : (forall x, In x l -> f x = Ok (g x)) -> mapM f l = Ok (map g l).
Proof.
  induction l as [|x l IH]; intros H; cbn [mapM map]; [reflexivity|]. rewrite H by (left; auto). cbn [bind].
  rewrite IH by (intros y Hy; apply H; right; auto). reflexivity.
Qed.
Lemma map_tab {A B} (g : A -> B) n f : map g (tab n f) = tab n (fun i => g (f i)).
Proof. unfold tab. rewrite map_map. reflexivity. Qed.
Lemma in_tab {A} n (f : Z -> A) y : In y (tab n f) -> exists i, 0 <= i < n /\ y = f i.
Proof. unfold tab. intros H. apply in_map_iff in H as (i & <- & Hi). apply in_seq in Hi. exists (Z.of_nat i). split; auto. lia. Qed.

Section CP.
Context {C : CRing}.
Add Ring Cring_ring_cwt : (rth C).

(** ** Integration *)
Lemma cumsum_spec (l : list C) : forall acc, zlen (cumsum acc l) = zlen l /\ forall i, 0 <= i < zlen l -> gz (cumsum acc l) i = acc [+] sumZ 0 (i + 1) (gz l).
Proof.
  induction l as [|a l IH]; intros acc; cbn [cumsum].
  - split; auto. intros i Hi. cbn in Hi. lia.
  - destruct (IH (acc [+] a)) as (L & G). split; [rewrite !zlen_cons, L; auto|]. intros i Hi. rewrite zlen_cons in Hi.
    rewrite gz_cons. destruct (Z.eqb_spec i 0) as [->|Hne].
    + rewrite (sumZ_first C 0 (0 + 1)) by lia. rewrite sumZ_empty by lia. rewrite gz_cons. cbn. ring.
    + rewrite G by lia. rewrite (sumZ_first C 0 (i + 1)) by lia. rewrite gz_cons. cbn [Z.eqb].
      rewrite (sumZ_shift C (0) (i - 1 + 1) 1). replace (0 + 1) with 1 by lia. replace (i - 1 + 1 + 1) with (i + 1) by lia.
      rewrite (sumZ_ext C 1 (i + 1) (fun t => gz l (t - 1)) (gz (a :: l))).
      * ring.
      * intros t Ht. rewrite gz_cons. replace (t =? 0) with false by lia. reflexivity.
Qed.
Lemma zlen_integrate (psi : list C) step : zlen (integrate psi step) = zlen psi.
Proof. unfold integrate. rewrite zlen_map. apply cumsum_spec. Qed.
Lemma gz_integrate (psi : list C) step i : 0 <= i < zlen psi -> gz (integrate psi step) i = integral psi step i.
Proof.
  intros Hi. unfold integrate, integral. destruct (cumsum_spec psi r0) as (L & G).
  rewrite (gz_map (fun a => a [*] step)) by ring. rewrite G by auto. ring.
Qed.

(** ** The scaled wavelet *)
Definition P_of (p : list C) (x : list Q) (s : Q) : Z -> C := stretched (gz p) (zlen p) (grid_step x) (grid_width x) s.
Definition L_of (p : list C) (x : list Q) (s : Q) : Z := stretched_len (zlen p) (grid_step x) (grid_width x) s.

Lemma scaled_psi_spec p x s : grid_ok x -> (0 < s)%Q -> 1 <= zlen p -> exists g, scaled_psi p x s = Ok g /\ zlen g = L_of p x s /\
  forall q, gz g q = P_of p x s (L_of p x s - 1 - q).
Proof.
  intros Hx Hs Hp. pose proof Hx as (_ & Hst & Hwd). unfold scaled_psi. rewrite scale_index_spec by auto. cbn [bind]. fold (L_of p x s).
  set (u := (s * grid_step x)%Q).
  assert (Hu : (0 < u)%Q) by (unfold u; setoid_replace 0%Q with (0 * grid_step x)%Q by ring; apply Qmult_lt_compat_r; auto).
  unfold take. rewrite (mapM_all _ (gz p)).
  2: { intros j Hj. apply in_tab in Hj as (i & Hi & ->). 
       assert (0 <= Qfloor (inject_Z i / u)). { change 0 with (Qfloor 0). apply Qfloor_resp_le. apply div_nonneg; auto. lia. }
       assert (Qfloor (inject_Z i / u) < zlen p). { apply div_lt; auto. unfold L_of, stretched_len in Hi. fold u in Hi. lia. }
       replace ((Qfloor (inject_Z i / u) <? - zlen p) || (zlen p <=? Qfloor (inject_Z i / u))) with false by lia.
       replace (Qfloor (inject_Z i / u) <? 0) with false by lia. reflexivity. }
  cbn [bind]. rewrite map_tab. eexists. split; [reflexivity|]. pose proof (stretched_len_pos (zlen p) (grid_step x) (grid_width x) s Hs Hst Hwd Hp) as HL. fold (L_of p x s) in HL.
  assert (Lg : zlen (rev (tab (L_of p x s) (fun i => gz p (Qfloor (inject_Z i / u))))) = L_of p x s) by (rewrite zlen_rev, zlen_tab; lia).
  split; auto. intros q. unfold P_of, stretched. fold (L_of p x s). fold u.
  destruct ((0 <=? L_of p x s - 1 - q) && (L_of p x s - 1 - q <? L_of p x s)) eqn:E.
  - rewrite gz_rev by (rewrite zlen_tab; lia). rewrite zlen_tab by lia. rewrite gz_tab by lia. reflexivity.
  - destruct (Z.lt_ge_cases q 0); [apply gz_neg; auto|]. apply gz_big. rewrite Lg. lia.
Qed.

(** ** Convolution *)
Definition conv_at (a g : list C) (k : Z) : C := sumZ 0 (zlen a) (fun i => gz a i [*] gz g (k - i)).
Definition conv_list (a g : list C) : list C := tab (zlen a + zlen g - 1) (conv_at a g).
Lemma convolve_ok (a g : list C) : 1 <= zlen a -> 1 <= zlen g -> convolve a g = Ok (conv_list a g).
Proof. intros Ha Hg. unfold convolve. replace ((zlen a =? 0) || (zlen g =? 0)) with false by lia. reflexivity. Qed.

(** ** The discrete Fourier transform *)
Lemma power_pw (a : C) n : pw a n = power a n.
Proof. induction n; cbn; congruence. Qed.
Lemma power_add (a : C) m n : power a (m + n) = power a m [*] power a n.
Proof. induction m as [|m IH]; cbn [Nat.add power]; [ring|]. rewrite IH. ring. Qed.
Lemma power_inv (a b : C) n : a [*] b = r1 -> power a n [*] power b n = r1.
Proof. intros H. induction n as [|n IH]; cbn [power]; [ring|]. transitivity ((a [*] b) [*] (power a n [*] power b n)); [ring|]. rewrite H, IH. ring. Qed.
Lemma power_1 n : power (r1 : C) n = r1.
Proof. induction n as [|n IH]; cbn [power]; [ring|]. rewrite IH. ring. Qed.
Lemma sum_ones n : 0 <= n -> sumZ 0 n (fun _ => r1 : C) = rz n.
Proof.
  intros Hn. revert n Hn. apply natlike_ind.
  - cbv beta. rewrite sumZ_empty by lia. symmetry. apply rz_0.
  - cbv beta. intros z Hz IH. unfold Z.succ. rewrite sumZ_last by lia. rewrite IH, rz_succ. reflexivity.
Qed.
(** Orthogonality. *)
Lemma ortho n a b (W V U : C) : unity n W V U -> 0 <= a < n -> 0 <= b < n ->
  sumZ 0 n (fun j => power W (Z.to_nat (j * a)) [*] power V (Z.to_nat (j * b))) [*] U = if a =? b then r1 else r0.
Proof.
  intros (H1 & H2 & H3) Ha Hb. destruct (Z.eqb_spec a b) as [->|Hne].
  - rewrite (sumZ_ext C 0 n _ (fun _ => r1)) by (intros j Hj; apply power_inv; auto). rewrite sum_ones by lia. rewrite <- H2. ring.
  - destruct (Z.lt_ge_cases a b).
    + rewrite (sumZ_ext C 0 n _ (fun j => power V (Z.to_nat (j * (b - a))))).
      * destruct (H3 (b - a)) as (_ & ->); [lia|]. ring.
      * intros j Hj. replace (Z.to_nat (j * b)) with (Z.to_nat (j * a) + Z.to_nat (j * (b - a)))%nat by nia. rewrite power_add.
        transitivity ((power W (Z.to_nat (j * a)) [*] power V (Z.to_nat (j * a))) [*] power V (Z.to_nat (j * (b - a)))); [ring|]. rewrite power_inv by auto. ring.
    + rewrite (sumZ_ext C 0 n _ (fun j => power W (Z.to_nat (j * (a - b))))).
      * destruct (H3 (a - b)) as (-> & _); [lia|]. ring.
      * intros j Hj. replace (Z.to_nat (j * a)) with (Z.to_nat (j * b) + Z.to_nat (j * (a - b)))%nat by nia. rewrite power_add.
        transitivity ((power W (Z.to_nat (j * b)) [*] power V (Z.to_nat (j * b))) [*] power W (Z.to_nat (j * (a - b)))); [ring|]. rewrite power_inv by auto. ring.
Qed.

Section Fft.
Variables w v ninv : Z -> C.
Lemma fft_conv (a g : list C) n : 1 <= zlen a -> 1 <= zlen g -> zlen a + zlen g - 1 <= n -> unity n (w n) (v n) (ninv n) ->
  firstn (Z.to_nat (zlen a + zlen g - 1)) (ifft v ninv (mul_l (fft w g n) (fft w a n))) = conv_list a g.
Proof.
  intros Ha Hg Hn Hu.
  assert (L1 : forall l, zlen (fft w l n) = n) by (intros l; unfold fft; rewrite zlen_tab; lia).
  assert (L2 : forall l l', zlen (mul_l (fft w l n) (fft w l' n)) = n) by (intros l l'; unfold mul_l; rewrite L1, zlen_tab; lia).
  unfold ifft, conv_list. cbv zeta. rewrite L2. unfold mul_l, fft. rewrite (zlen_tab n) by lia. rewrite firstn_tab by lia. apply tab_ext. intros k Hk.
  set (W := w n) in *. set (V := v n) in *. set (U := ninv n) in *.
  (* expand the products *)
  rewrite (sumZ_ext C 0 n _ (fun j => sumZ 0 n (fun p => sumZ 0 n (fun q => (gz g p [*] gz a q) [*] (power W (Z.to_nat (j * (p + q))) [*] power V (Z.to_nat (j * k))))))).
  2: { intros j Hj. rewrite gz_tab by lia. rewrite !gz_tab by lia. rewrite <- sumZ_scal_r. rewrite <- sumZ_scal_r. apply sumZ_ext. intros p Hp.
       transitivity (sumZ 0 n (fun q => gz a q [*] pw W (Z.to_nat (q * j))) [*] (gz g p [*] pw W (Z.to_nat (p * j)) [*] pw V (Z.to_nat (j * k)))); [ring|].
       rewrite <- sumZ_scal_r. apply sumZ_ext. intros q Hq. rewrite (power_pw W (Z.to_nat (q * j))), (power_pw W (Z.to_nat (p * j))), (power_pw V).
       replace (Z.to_nat (j * (p + q))) with (Z.to_nat (p * j) + Z.to_nat (q * j))%nat by nia. rewrite power_add. ring. }
  rewrite sumZ_swap.
  rewrite (sumZ_ext C 0 n _ (fun p => sumZ 0 n (fun q => (gz g p [*] gz a q) [*] sumZ 0 n (fun j => power W (Z.to_nat (j * (p + q))) [*] power V (Z.to_nat (j * k)))))).
  2: { intros p Hp. rewrite sumZ_swap. apply sumZ_ext. intros q Hq. rewrite sumZ_scal. reflexivity. }
  rewrite <- sumZ_scal_r.
  rewrite (sumZ_ext C 0 n _ (fun p => gz g p [*] gz a (k - p))).
  - (* to the convolution *)
    unfold conv_at.
    assert (E : forall (f : Z -> C), (forall i, ~ (0 <= i < n) -> f i = r0) -> sumZ 0 n f = sumZ (k - n + 1) (k + 1) (fun i => f (k - i)) -> True) by auto. clear E.
    transitivity (sumZ (k - n + 1) (k + 1) (fun i => gz g (k - i) [*] gz a i)).
    + rewrite sumZ_rev. rewrite (sumZ_shift C 0 n (k - n + 1)). replace (0 + (k - n + 1)) with (k - n + 1) by lia. replace (n + (k - n + 1)) with (k + 1) by lia.
      apply sumZ_ext. intros i Hi. replace (0 + n - 1 - (i - (k - n + 1))) with (k - i) by lia. replace (k - (k - i)) with i by lia. reflexivity.
    + transitivity (sumZ (Z.min 0 (k - n + 1)) (Z.max (zlen a) (k + 1)) (fun i => gz a i [*] gz g (k - i))).
      * symmetry. rewrite <- (sumZ_widen C (k - n + 1) (k + 1) (Z.min 0 (k - n + 1)) (Z.max (zlen a) (k + 1))); try lia.
        -- apply sumZ_ext. intros i _. ring.
        -- intros i Hi Hout. destruct (Z.lt_ge_cases i 0); [rewrite (gz_neg a) by auto; ring|].
           destruct (Z.le_gt_cases (zlen a) i); [rewrite (gz_big a) by auto; ring|]. rewrite (gz_neg g) by lia. ring.
      * rewrite <- (sumZ_widen C 0 (zlen a) (Z.min 0 (k - n + 1)) (Z.max (zlen a) (k + 1))); try lia; auto.
        intros i Hi Hout. destruct (Z.lt_ge_cases i 0); [rewrite (gz_neg a) by auto; ring|]. rewrite (gz_big a) by lia. ring.
  - intros p Hp.
    rewrite (sumZ_ext C 0 n _ (fun q => (if p + q =? k then gz g p [*] gz a q else r0) [*] rz n)).
    2: { intros q Hq. destruct Hu as (U1 & U2 & U3) eqn:EU. 
         destruct (Z.le_gt_cases (zlen a) q); [rewrite (gz_big a) by auto; destruct (p + q =? k); ring|].
         destruct (Z.le_gt_cases (zlen g) p); [rewrite (gz_big g) by auto; destruct (p + q =? k); ring|].
         assert (Ho : sumZ 0 n (fun j => power W (Z.to_nat (j * (p + q))) [*] power V (Z.to_nat (j * k))) [*] U = if p + q =? k then r1 else r0) by (apply ortho; auto; lia).
         transitivity ((gz g p [*] gz a q) [*] (sumZ 0 n (fun j => power W (Z.to_nat (j * (p + q))) [*] power V (Z.to_nat (j * k))) [*] (U [*] rz n))).
         - rewrite U2. ring.
         - transitivity ((gz g p [*] gz a q) [*] (sumZ 0 n (fun j => power W (Z.to_nat (j * (p + q))) [*] power V (Z.to_nat (j * k))) [*] U) [*] rz n); [ring|].
           rewrite Ho. destruct (p + q =? k); ring. }
    rewrite sumZ_scal_r. destruct Hu as (_ & U2 & _).
    transitivity (sumZ 0 n (fun q => if p + q =? k then gz g p [*] gz a q else r0) [*] (U [*] rz n)); [ring|]. rewrite U2.
    destruct (Z.le_gt_cases 0 (k - p)).
    + rewrite (sumZ_single C 0 n (k - p)) by (lia || (intros q Hq Hne; replace (p + q =? k) with false by lia; reflexivity)).
      replace (p + (k - p) =? k) with true by lia. ring.
    + rewrite sumZ_zero by (intros q Hq; replace (p + q =? k) with false by lia; reflexivity). rewrite (gz_neg a) by lia. ring.
Qed.
End Fft.

Lemma next_fast_len_ge n : 1 <= n -> n <= next_fast_len n /\ 1 <= next_fast_len n.
Proof.
  intros Hn. unfold next_fast_len. destruct (Z.eq_dec n 1) as [->|]; [vm_compute; intuition congruence|].
  pose proof (Z.log2_up_spec n ltac:(lia)). lia.
Qed.

(** ** One scale *)
Section Row.
Variable root : Q -> C.
Variable re : C -> C.
Definition post (cplx : bool) (z : C) : C := if cplx then z else re z.
Definition row (cplx : bool) (p : list C) (x : list Q) (s : Q) (l : list C) : list C :=
  tab (zlen l) (fun t => post cplx (cwt_at (gz p) (zlen p) (grid_step x) (grid_width x) s (root s) l t)).

Lemma row_of_conv cplx p x s g l : 1 <= zlen l -> zlen g = L_of p x s -> 2 <= L_of p x s -> (forall q, gz g q = P_of p x s (L_of p x s - 1 - q)) ->
  let coef := map (fun d => post cplx (([--] (root s)) [*] d)) (diff (conv_list l g)) in
  let e := L_of p x s - 2 in
  (if 0 <? e then centre e coef else coef) = row cplx p x s l.
Proof.
  intros Hl Lg HL Hg coef e. set (L := L_of p x s) in *. set (N := zlen l) in *.
  assert (Ld : zlen (diff (conv_list l g)) = N + L - 2).
  { unfold diff, conv_list. fold N. rewrite Lg. rewrite !zlen_tab; rewrite ?zlen_tab; lia. }
  assert (Lc : zlen coef = N + L - 2) by (unfold coef; rewrite zlen_map; auto).
  assert (Gc : forall k, 0 <= k < N + L - 2 -> gz coef k = post cplx (([--] (root s)) [*] (conv_at l g (k + 1) [-] conv_at l g k))).
  { intros k Hk. unfold coef, diff. rewrite map_tab. unfold conv_list at 1. rewrite zlen_tab by (fold N; lia). fold N. rewrite Lg. rewrite gz_tab by lia.
    unfold conv_list. fold N. rewrite Lg. rewrite !gz_tab by lia. reflexivity. }
  assert (Gr : forall t, 0 <= t < N -> gz coef (t + e / 2) = post cplx (cwt_at (gz p) (zlen p) (grid_step x) (grid_width x) s (root s) l t)).
  { intros t Ht. pose proof (Z.div_mod e 2 ltac:(lia)) as D. pose proof (Z.mod_pos_bound e 2 ltac:(lia)). rewrite Gc by lia. f_equal. unfold cwt_at, conv_at. cbv zeta.
    fold (P_of p x s) (L_of p x s). fold L. fold N. rewrite <- sumZ_sub.
    transitivity (root s [*] (sumZ 0 N (fun i => [--] (gz l i [*] gz g (t + e / 2 + 1 - i) [-] gz l i [*] gz g (t + e / 2 - i))))); [rewrite sumZ_opp; ring|].
    f_equal. apply sumZ_ext. intros i Hi. rewrite !Hg.
    assert (Ec : (L + 1) / 2 = L - 1 - e / 2). { symmetry. apply Z.div_unique with (r := L + 1 - 2 * (L - 1 - e / 2)); unfold e in *; lia. }
    rewrite Ec. replace (L - 1 - (t + e / 2 + 1 - i)) with (i - t + (L - 1 - e / 2) - 1) by lia. replace (L - 1 - (t + e / 2 - i)) with (i - t + (L - 1 - e / 2)) by lia. ring. }
  destruct (Z.ltb_spec 0 e) as [He|He].
  - assert (Dc : e / 2 + - (- e / 2) = e). { pose proof (Z.div_mod e 2 ltac:(lia)). pose proof (Z.mod_pos_bound e 2 ltac:(lia)). pose proof (Z.div_mod (-e) 2 ltac:(lia)). pose proof (Z.mod_pos_bound (-e) 2 ltac:(lia)). lia. }
    assert (0 <= e / 2) by (apply Z.div_pos; lia). assert (e / 2 <= e) by (apply Z.div_le_upper_bound; lia).
    unfold centre, row. fold N. rewrite Lc. 
    assert (LL : zlen (skipn (Z.to_nat (e / 2)) (firstn (Z.to_nat (N + L - 2 - - (- e / 2))) coef)) = N).
    { unfold zlen. rewrite skipn_length, firstn_length. unfold zlen in Lc. unfold e in *. lia. }
    apply list_ext; [rewrite LL, zlen_tab; lia|]. intros i Hi. rewrite LL in Hi.
    rewrite gz_skipn, gz_firstn by (unfold e in *; lia). rewrite Z2Nat.id by lia. rewrite Gr by auto. rewrite gz_tab by auto. reflexivity.
  - unfold row. fold N. assert (e = 0) by (unfold e in *; lia). assert (e / 2 = 0) by (rewrite H; reflexivity).
    apply list_ext; [rewrite Lc, zlen_tab; unfold e in *; lia|]. intros i Hi. rewrite Lc in Hi. rewrite gz_tab by (unfold e in *; lia). rewrite <- Gr by (unfold e in *; lia). f_equal. lia.
Qed.
End Row.

Section Scales.
Variables w v ninv : Z -> C.
Definition cache_ok (lines : list (list C)) (st : Z * list (list C)) : Prop := fst st = -1 \/ snd st = map (fun l => fft w l (fst st)) lines.
Definition meth_ok (meth : cwt_method) (p : list C) (x : list Q) (N : Z) (s : Q) : Prop :=
  match meth with MConv => True | MFft => let n := next_fast_len (N + L_of p x s - 1) in unity n (w n) (v n) (ninv n) | MOther => False end.

Lemma conv_lines_spec meth p x s N lines g st : 1 <= N -> Forall (fun l => zlen l = N) lines -> 1 <= zlen g -> zlen g = L_of p x s -> meth_ok meth p x N s -> cache_ok lines st ->
  exists st', conv_lines w v ninv meth N lines g st = Ok (map (fun l => conv_list l g) lines, st') /\ cache_ok lines st'.
Proof.
  intros HN Hl Hg Lg Hm Hst. destruct meth; [| |destruct Hm].
  - exists st. split; auto. unfold conv_lines. rewrite (mapM_all _ (fun l => conv_list l g)).
    + reflexivity.
    + intros l Hi. rewrite Forall_forall in Hl. apply convolve_ok; auto. rewrite (Hl l Hi). auto.
  - unfold conv_lines. replace (N + zlen g - 1 <=? 0) with false by lia. cbv zeta.
    cbn [meth_ok] in Hm. cbv zeta in Hm. rewrite <- Lg in Hm. set (n := next_fast_len (N + zlen g - 1)) in *.
    assert (Hn : N + zlen g - 1 <= n /\ 1 <= n) by (apply next_fast_len_ge; lia).
    assert (Ed : (if negb (n =? fst st) then map (fun l => fft w l n) lines else snd st) = map (fun l => fft w l n) lines).
    { destruct (Z.eqb_spec n (fst st)) as [E|E]; cbn [negb]; auto. destruct Hst as [Hst|Hst]; [lia|]. rewrite Hst, <- E. reflexivity. }
    rewrite Ed. eexists. split.
    + f_equal. f_equal. rewrite map_map. apply map_ext_in. intros l Hi. rewrite Forall_forall in Hl. rewrite <- (Hl l Hi). apply fft_conv; auto; rewrite (Hl l Hi); tauto.
    + right. reflexivity.
Qed.

Section Post.
Variable root : Q -> C.
Variable re : C -> C.
Notation row := (row root re).
Notation post := (post re).
Lemma one_scale_spec meth cplx p x N lines s st : grid_ok x -> 1 <= zlen p -> 1 <= N -> Forall (fun l => zlen l = N) lines -> (0 < s)%Q -> meth_ok meth p x N s -> cache_ok lines st ->
  (2 <= L_of p x s -> exists st', one_scale root re w v ninv meth cplx p x N lines s st = Ok (map (row cplx p x s) lines, st') /\ cache_ok lines st') /\
  (L_of p x s < 2 -> one_scale root re w v ninv meth cplx p x N lines s st = Err ValueError).
Proof.
  intros Hx Hp HN Hl Hs Hm Hst. pose proof Hx as (_ & X1 & X2). unfold one_scale.
  destruct (scaled_psi_spec p x s Hx Hs Hp) as (g & -> & Lg & Gg). cbn [bind].
  pose proof (stretched_len_pos (zlen p) (grid_step x) (grid_width x) s Hs X1 X2 Hp) as HL. fold (L_of p x s) in HL.
  destruct (conv_lines_spec meth p x s N lines g st) as (st' & -> & Hst'); auto; [lia|]. cbn [bind]. cbv zeta. rewrite Lg. split; intros H2.
  - exists st'. replace (Z.max 0 (N + L_of p x s - 1 - 1) - N) with (L_of p x s - 2) by lia.
    assert (E : forall l, In l lines -> (if 0 <? L_of p x s - 2 then centre (L_of p x s - 2) (map (fun d => post cplx (([--] (root s)) [*] d)) (diff (conv_list l g))) else map (fun d => post cplx (([--] (root s)) [*] d)) (diff (conv_list l g))) = row cplx p x s l).
    { intros l Hi. rewrite Forall_forall in Hl. apply row_of_conv; auto. rewrite (Hl l Hi). auto. }
    rewrite map_map.
    destruct (Z.ltb_spec 0 (L_of p x s - 2)) as [He|He].
    + split; auto. f_equal. f_equal. rewrite !map_map. apply map_ext_in. exact E.
    + replace (L_of p x s - 2 <? 0) with false by lia. split; auto. f_equal. f_equal. rewrite map_map. apply map_ext_in. exact E.
  - replace (0 <? Z.max 0 (N + L_of p x s - 1 - 1) - N) with false by lia. replace (Z.max 0 (N + L_of p x s - 1 - 1) - N <? 0) with true by lia. reflexivity.
Qed.

Lemma all_scales_spec meth cplx p x N lines scales : grid_ok x -> 1 <= zlen p -> 1 <= N -> Forall (fun l => zlen l = N) lines ->
  (forall s, In s scales -> (0 < s)%Q /\ 2 <= L_of p x s /\ meth_ok meth p x N s) -> forall st, cache_ok lines st ->
  all_scales root re w v ninv meth cplx p x N lines scales st = Ok (map (fun s => map (row cplx p x s) lines) scales).
Proof.
  intros Hx Hp HN Hl. induction scales as [|s t IH]; intros H st Hst; [reflexivity|]. cbn [all_scales map].
  destruct (H s (or_introl eq_refl)) as (H1 & H2 & H3).
  destruct (one_scale_spec meth cplx p x N lines s st) as (A & _); auto. destruct (A H2) as (st' & -> & Hst'). cbn [bind].
  rewrite (IH (fun q Hq => H q (or_intror Hq)) st' Hst'). reflexivity.
Qed.
Lemma all_scales_small meth cplx p x N lines scales : grid_ok x -> 1 <= zlen p -> 1 <= N -> Forall (fun l => zlen l = N) lines ->
  (forall s, In s scales -> (0 < s)%Q /\ meth_ok meth p x N s) -> (exists s, In s scales /\ L_of p x s < 2) -> forall st, cache_ok lines st ->
  all_scales root re w v ninv meth cplx p x N lines scales st = Err ValueError.
Proof.
  intros Hx Hp HN Hl. induction scales as [|s t IH]; intros H Hex st Hst; [destruct Hex as (? & [] & _)|]. cbn [all_scales].
  destruct (H s (or_introl eq_refl)) as (H1 & H3).
  destruct (one_scale_spec meth cplx p x N lines s st) as (A & B); auto.
  destruct (Z.lt_ge_cases (L_of p x s) 2) as [E|E]; [rewrite (B E); reflexivity|]. destruct (A ltac:(lia)) as (st' & -> & Hst'). cbn [bind].
  rewrite IH; auto.
  - intros q Hq. apply H. right. auto.
  - destruct Hex as (q & [->|Hq] & HL); [lia|]. exists q. auto.
Qed.
End Post.
End Scales.
End CP.
