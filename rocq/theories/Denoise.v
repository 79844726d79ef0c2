(** Distances of data and of their coefficients (orthonormal bank,
    periodization mode). *)
From Verif Require Import Base BaseLemmas CConv Spec ExtLemmas Lengths LengthsProofs Dwt DwtProofs PR Linear Multilevel MultilevelProofs Facts1 Cyclic CyclicMain CyclicNd ParsevalNd DenoiseSpec.
Open Scope list_scope.
Open Scope Z_scope.

Section D.
Variable C : CRing.
Add Ring Cring_ring_dn : (rth C).
Variable fuel : nat.

Definition same_shape (X Y : list (list C)) : Prop := Forall2 (fun u v => zlen u = zlen v) X Y.

Lemma same_length X Y : same_shape X Y -> length X = length Y.
Proof. intros H. induction H; cbn; auto. Qed.
Lemma dist2_inner (u v : list C) : zlen u = zlen v ->
  dist2 u v = linner C u u [-] (r1 [+] r1) [*] linner C u v [+] linner C v v.
Proof.
  intros H. unfold dist2, linner. rewrite <- H, <- sumZ_scal, <- sumZ_sub, <- sumZ_add. apply sumZ_ext. intros i _. ring.
Qed.
Lemma dist2s_inner X Y : same_shape X Y ->
  let ip A B := lsum C (map (fun '(u, v) => linner C u v) (combine A B)) in
  dist2s X Y = ip X X [-] (r1 [+] r1) [*] ip X Y [+] ip Y Y.
Proof.
  intros H. induction H as [|u v X Y H HF IH]; [cbn; ring|]. cbn zeta in *. cbn [dist2s combine map]. rewrite IH, dist2_inner by auto.
  repeat match goal with |- context [lsum C (?a :: ?l)] => change (lsum C (a :: l)) with (a [+] lsum C l) end. ring.
Qed.

Lemma doubling_same ds : forall ds' n, doubling C n ds -> same_shape ds ds' -> doubling C n ds'.
Proof.
  induction ds as [|d ds IH]; intros ds' n Hd HS; inversion HS; subst; cbn [doubling] in *; auto.
  destruct Hd. split; [lia|]. eapply IH; eauto.
Qed.
Lemma doubling_shape ds : forall ds' n, doubling C n ds -> doubling C n ds' -> length ds = length ds' -> same_shape ds ds'.
Proof.
  induction ds as [|d ds IH]; intros [|d' ds'] n Hd Hd' HL; cbn in HL; try discriminate; [constructor|].
  destruct Hd, Hd'. constructor; [lia|]. eapply IH; eauto.
Qed.

(** The lengths of the coefficients. *)
Lemma details_doubling w (x : list C) : wf_bank w -> 1 <= zlen x -> forall n, (2 ^ Z.of_nat n | zlen x) ->
  doubling C (approx_len PERIODIZATION (dec_len w) n (zlen x)) (map (fun j => analysis PERIODIZATION (dec_hi w) (approx PERIODIZATION (dec_lo w) j x)) (rev (seq 0 n))).
Proof.
  intros Hw Hx. pose proof Hw as (W1 & W2 & W3 & W4 & W5). induction n as [|n IH]; intros Hp; [exact I|].
  assert (Hp' : (2 ^ Z.of_nat n | zlen x)) by (destruct Hp as (q & Hq); rewrite Nat2Z.inj_succ, Z.pow_succ_r in Hq by lia; exists (2 * q); rewrite Hq; ring).
  pose proof (half_len (dec_len w) (zlen x) n Hp') as E0. pose proof (half_len (dec_len w) (zlen x) (S n) Hp) as E1.
  rewrite Nat2Z.inj_succ, Z.pow_succ_r in E1 by lia. assert (0 < 2 ^ Z.of_nat n) by (apply Z.pow_pos_nonneg; lia).
  rewrite seq_S, rev_app_distr. cbn [rev app map]. rewrite Nat.add_0_l. cbn [doubling].
  assert (La : zlen (approx PERIODIZATION (dec_lo w) n x) = approx_len PERIODIZATION (dec_len w) n (zlen x)) by (apply zlen_approx; unfold dec_len in *; lia).
  pose proof (approx_len_pos PERIODIZATION (dec_len w) n (zlen x) Hx ltac:(unfold dec_len in *; lia)) as Hq.
  split.
  - rewrite zlen_analysis by (unfold dec_len in *; lia). rewrite La. reflexivity.
  - set (u := approx_len PERIODIZATION (dec_len w) n (zlen x)) in *. set (v := approx_len PERIODIZATION (dec_len w) (S n) (zlen x)) in *. clearbody v.
    replace (2 * v) with u by nia. apply IH. auto.
Qed.
Lemma wavedec_shape (x : list C) w N : pr_wavelet w -> 1 <= zlen x -> (2 ^ Z.of_nat N | zlen x) -> resources fuel (zlen x) (dec_len w) ->
  exists a ds, wavedec fuel x w PERIODIZATION (Some (Z.of_nat N)) = Ok (a :: ds) /\ length ds = N /\ 1 <= zlen a /\ 2 ^ Z.of_nat N * zlen a = zlen x /\ doubling C (zlen a) ds.
Proof.
  intros Hpr Hx Hdiv Hr. pose proof (pr_wf w Hpr) as Hw. pose proof Hw as (W1 & W2 & W3 & W4 & W5).
  assert (Hlev : levels_ok PERIODIZATION (dec_len w) N (zlen x)) by (apply levels_ok_intro; auto).
  eexists _, _. split; [apply wavedec_spec; auto; rewrite ?Nat2Z.id; auto; lia|]. rewrite Nat2Z.id.
  assert (La : zlen (approx PERIODIZATION (dec_lo w) N x) = approx_len PERIODIZATION (dec_len w) N (zlen x)) by (apply zlen_approx; unfold dec_len in *; lia).
  rewrite map_length, rev_length, seq_length, La. split; auto. split; [apply approx_len_pos; unfold dec_len in *; lia|].
  split; [symmetry; apply half_len; auto|]. apply details_doubling; auto.
Qed.

(** Decomposition keeps distances. *)
Theorem wavedec_dist (x y : list C) w N : orthonormal w -> 1 <= zlen x -> (2 ^ Z.of_nat N | zlen x) -> zlen y = zlen x -> resources fuel (zlen x) (dec_len w) ->
  exists X Y, wavedec fuel x w PERIODIZATION (Some (Z.of_nat N)) = Ok X /\ wavedec fuel y w PERIODIZATION (Some (Z.of_nat N)) = Ok Y /\
    same_shape X Y /\ dist2s X Y = dist2 x y.
Proof.
  intros Ho Hx Hd Hy Hr. pose proof (proj1 Ho) as Hpr. pose proof (orthonormal_dual C w Ho) as HD.
  destruct (wavedec_shape x w N Hpr Hx Hd Hr) as (a & ds & EX & L1 & A1 & A2 & D1).
  destruct (wavedec_shape y w N Hpr) as (b & es & EY & L2 & B1 & B2 & D2); rewrite ?Hy; auto.
  assert (Hab : zlen a = zlen b) by (assert (0 < 2 ^ Z.of_nat N) by (apply Z.pow_pos_nonneg; lia); rewrite Hy in B2; nia).
  assert (HS : same_shape (a :: ds) (b :: es)) by (constructor; auto; eapply doubling_shape; [exact D1|rewrite Hab; exact D2|lia]).
  exists (a :: ds), (b :: es). split; [exact EX|]. split; [exact EY|]. split; [exact HS|].
  rewrite dist2s_inner, dist2_inner by auto. cbn zeta.
  destruct (wavedec_inner C fuel x y w w N HD Hx Hd Hy Hr) as (X & Y & E1 & E2 & _ & _ & <-).
  destruct (wavedec_inner C fuel x x w w N HD Hx Hd eq_refl Hr) as (X1 & Y1 & E3 & E4 & _ & _ & <-).
  destruct (wavedec_inner C fuel y y w w N HD) as (X2 & Y2 & E5 & E6 & _ & _ & <-); rewrite ?Hy; auto.
  rewrite EX in E1, E3, E4. rewrite EY in E2, E5, E6. injection E1 as <-. injection E2 as <-. injection E3 as <-. injection E4 as <-. injection E5 as <-. injection E6 as <-. reflexivity.
Qed.

(** Data reconstructed from changed coefficients: the coefficients of the
    result are the changed ones, and the distance to the original data is the
    distance of the coefficients. *)
Theorem waverec_changed (x : list C) w N X Y : orthonormal w -> 1 <= zlen x -> (2 ^ Z.of_nat N | zlen x) -> resources fuel (zlen x) (dec_len w) ->
  wavedec fuel x w PERIODIZATION (Some (Z.of_nat N)) = Ok X -> same_shape X Y ->
  exists y, waverec fuel (map Some Y) w PERIODIZATION = Ok (Some y) /\ zlen y = zlen x /\
    wavedec fuel y w PERIODIZATION (Some (Z.of_nat N)) = Ok Y /\ dist2 x y = dist2s X Y.
Proof.
  intros Ho Hx Hd Hr EX HS. pose proof (proj1 Ho) as Hpr.
  destruct (wavedec_shape x w N Hpr Hx Hd Hr) as (a & ds & EX' & L1 & A1 & A2 & D1). rewrite EX in EX'. injection EX' as ->.
  inversion HS as [|? b ? es Hab HS']; subst. pose proof (same_length ds es HS') as HL.
  assert (Hz : zlen es = Z.of_nat (length ds)) by (unfold zlen; lia).
  pose proof (doubling_same ds es (zlen a) D1 HS') as D2.
  destruct (waverec_doubling C fuel w es b Hpr) as (y & E & Ly & M); try lia.
  { rewrite <- Hab. exact D2. }
  { rewrite Hz, <- Hab, A2. exact Hr. }
  assert (Lxy : zlen y = zlen x) by (rewrite Ly, Hz, <- Hab; exact A2).
  destruct (wavedec_dist x y w (length ds) Ho Hx Hd Lxy Hr) as (X & Y & E1 & E2 & _ & E3). rewrite EX in E1. injection E1 as <-.
  assert (EY : wavedec fuel y w PERIODIZATION (Some (Z.of_nat (length ds))) = Ok (b :: es)).
  { pose proof (pr_wf w Hpr) as Hw. rewrite wavedec_spec; auto; try lia.
    - rewrite Nat2Z.id, HL, M. reflexivity.
    - rewrite Nat2Z.id. apply levels_ok_intro; auto; try apply Hw; cbn [min_len]; lia.
    - rewrite Lxy. exact Hr. }
  exists y. split; [cbn [map]; rewrite waverec_as_loop; exact E|]. split; [exact Lxy|]. split; [exact EY|].
  rewrite EY in E2. injection E2 as <-. symmetry. exact E3.
Qed.

(** Reconstruction keeps distances. *)
Theorem waverec_dist (a a' : list C) ds ds' w : orthonormal w -> 1 <= zlen a -> doubling C (zlen a) ds -> same_shape (a :: ds) (a' :: ds') ->
  resources fuel (2 ^ zlen ds * zlen a) (dec_len w) ->
  exists x x', waverec fuel (map Some (a :: ds)) w PERIODIZATION = Ok (Some x) /\ waverec fuel (map Some (a' :: ds')) w PERIODIZATION = Ok (Some x') /\
    zlen x = zlen x' /\ dist2 x x' = dist2s (a :: ds) (a' :: ds').
Proof.
  intros Ho Ha Hd HS Hr. pose proof (proj1 Ho) as Hpr.
  destruct (waverec_doubling C fuel w ds a Hpr Ha Hd Hr) as (x & E & Lx & M).
  assert (P : 0 < 2 ^ zlen ds) by (apply Z.pow_pos_nonneg; unfold zlen; lia).
  assert (Hx : 1 <= zlen x) by nia. assert (Hdv : (2 ^ Z.of_nat (length ds) | zlen x)) by (exists (zlen a); rewrite Lx; unfold zlen; ring).
  destruct (waverec_changed x w (length ds) (a :: ds) (a' :: ds') Ho Hx Hdv) as (y & E1 & E2 & _ & E3); auto.
  - rewrite Lx. exact Hr.
  - pose proof (pr_wf w Hpr) as Hw. rewrite wavedec_spec; auto; try lia.
    + rewrite Nat2Z.id, M. reflexivity.
    + rewrite Nat2Z.id. apply levels_ok_intro; auto; try apply Hw; cbn [min_len]; lia.
    + rewrite Lx. exact Hr.
  - exists x, y. split; [cbn [map]; rewrite waverec_as_loop; exact E|]. auto.
Qed.
End D.
