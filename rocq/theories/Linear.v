(** Linearity, circular shifts, and energy of the analysis/synthesis maps. *)
From Verif Require Import Base BaseLemmas CConv Spec ExtLemmas DwtProofs PR.

Section Lin.
Variable C : CRing.
Add Ring Cring_ring_lin : (rth C).

Lemma gz_vscal s (x : list C) i : gz (vscal s x) i = s [*] gz x i.
Proof. unfold vscal. apply (gz_map (C := C) (D := C) (fun x => s [*] x)). ring. Qed.
Lemma zlen_vscal s (x : list C) : zlen (vscal s x) = zlen x.
Proof. apply zlen_map. Qed.

Definition vlin a (x : list C) b y := vadd (vscal a x) (vscal b y).

Lemma zlen_vlin a x b y : zlen x = zlen y -> zlen (vlin a x b y) = zlen x.
Proof. intros H. unfold vlin. rewrite zlen_vadd; rewrite !zlen_vscal; auto. Qed.
Lemma gz_vlin a x b y i : zlen x = zlen y -> gz (vlin a x b y) i = a [*] gz x i [+] b [*] gz y i.
Proof. intros H. unfold vlin. rewrite gz_vadd by (rewrite !zlen_vscal; auto). rewrite !gz_vscal. reflexivity. Qed.

Lemma vlin_tab a b n (f g : Z -> C) : vlin a (tab n f) b (tab n g) = tab n (fun i => a [*] f i [+] b [*] g i).
Proof. unfold vlin. replace (vscal a (tab n f)) with (tab n (fun i => a [*] f i)) by (unfold vscal, tab; rewrite map_map; reflexivity).
  replace (vscal b (tab n g)) with (tab n (fun i => b [*] g i)) by (unfold vscal, tab; rewrite map_map; reflexivity).
  apply vadd_tab. Qed.

Lemma ext_linear m a x b y n : zlen x = zlen y ->
  ext m (vlin a x b y) n = a [*] ext m x n [+] b [*] ext m y n.
Proof.
  intros H. destruct m; unfold ext, pext; rewrite zlen_vlin by auto; rewrite <- H; cbv zeta;
    repeat match goal with |- context [if ?c then _ else _] => destruct c end;
    rewrite ?gz_vlin by auto; ring.
Qed.

Lemma conv_linear (h : list C) a (e : Z -> C) b e' e'' i :
  (forall n, e'' n = a [*] e n [+] b [*] e' n) ->
  conv h e'' i = a [*] conv h e i [+] b [*] conv h e' i.
Proof.
  intros H. unfold conv. rewrite <- !sumZ_scal, <- sumZ_add. apply sumZ_ext. intros. rewrite H. ring.
Qed.

Theorem analysis_linear m h a x b y : zlen x = zlen y ->
  analysis m h (vlin a x b y) = vlin a (analysis m h x) b (analysis m h y).
Proof.
  intros H. unfold analysis. rewrite zlen_vlin by auto. rewrite <- H. rewrite vlin_tab. apply tab_ext.
  intros k Hk. apply conv_linear. intros n. apply ext_linear. auto.
Qed.

Lemma up_conv_linear (g : list C) a (c : Z -> C) b c' c'' i :
  (forall n, c'' n = a [*] c n [+] b [*] c' n) ->
  up_conv g c'' i = a [*] up_conv g c i [+] b [*] up_conv g c' i.
Proof.
  intros H. unfold up_conv. rewrite <- !sumZ_scal, <- sumZ_add. apply sumZ_ext. intros t _.
  destruct (_ =? 0); rewrite ?H; ring.
Qed.

Theorem synthesis_linear m g a x b y : zlen x = zlen y ->
  synthesis m g (vlin a x b y) = vlin a (synthesis m g x) b (synthesis m g y).
Proof.
  intros H. destruct m; cbn [synthesis]; rewrite zlen_vlin by auto; rewrite <- H, vlin_tab; apply tab_ext;
    intros n Hn; apply up_conv_linear; intros k; rewrite gz_vlin by auto; reflexivity.
Qed.

Lemma up_conv_zero (g : list C) c i : (forall n, c n = r0) -> up_conv g c i = r0.
Proof. intros H. unfold up_conv. apply sumZ_zero. intros. destruct (_ =? 0); rewrite ?H; ring. Qed.

Theorem synthesis_zero m g n : 0 <= rec_len m (Z.of_nat n) (zlen g) ->
  synthesis m g (repeat (r0 : C) n) = repeat r0 (Z.to_nat (rec_len m (Z.of_nat n) (zlen g))).
Proof.
  intros H. apply list_ext.
  - rewrite zlen_synthesis; rewrite ?zlen_repeat; lia.
  - intros i Hi. rewrite zlen_synthesis in Hi by (rewrite zlen_repeat; auto). rewrite zlen_repeat in Hi.
    rewrite gz_repeat0.
    destruct m; cbn [synthesis rec_len] in *; rewrite gz_tab by (rewrite zlen_repeat; lia); apply up_conv_zero; intros; apply gz_repeat0.
Qed.

Lemma vadd_zero_r (x : list C) : vadd x (repeat r0 (length x)) = x.
Proof.
  apply list_ext; [rewrite zlen_vadd; auto; rewrite zlen_repeat; reflexivity|].
  intros i Hi. rewrite gz_vadd by (rewrite zlen_repeat; reflexivity). rewrite gz_repeat0. ring.
Qed.
Lemma vadd_comm (x y : list C) : zlen x = zlen y -> vadd x y = vadd y x.
Proof.
  intros H. apply list_ext; [rewrite !zlen_vadd by auto; auto|].
  intros i Hi. rewrite !gz_vadd by auto. ring.
Qed.
Lemma vadd_zero_l (x : list C) : vadd (repeat r0 (length x)) x = x.
Proof. rewrite vadd_comm; [apply vadd_zero_r|]. rewrite zlen_repeat. reflexivity. Qed.

(** ** Circular shifts *)

(** numpy.roll: the element at n moves to n+s (mod N). *)
Definition roll (s : Z) (x : list C) : list C := tab (zlen x) (fun n => gz x ((n - s) mod zlen x)).

Lemma zlen_roll s x : zlen (roll s x) = zlen x.
Proof. unfold roll. apply zlen_tab. apply zlen_nonneg. Qed.

Lemma gz_roll_mod s x n : 1 <= zlen x -> gz (roll s x) (n mod zlen x) = gz x ((n - s) mod zlen x).
Proof.
  intros H. unfold roll. rewrite gz_tab by (apply Z.mod_pos_bound; lia).
  rewrite Zminus_mod_idemp_l. reflexivity.
Qed.

Lemma ext_per_even (x : list C) n : 1 <= zlen x -> zlen x mod 2 = 0 ->
  ext PERIODIZATION x n = gz x (n mod zlen x).
Proof.
  intros H H2. cbn [ext]. unfold pext. rewrite H2, Z.add_0_r. f_equal.
  pose proof (Z.mod_pos_bound n (zlen x)). lia.
Qed.

Theorem analysis_roll h x s : 1 <= zlen x -> zlen x mod 2 = 0 ->
  analysis PERIODIZATION h (roll (2 * s) x) = roll s (analysis PERIODIZATION h x).
Proof.
  intros H H2. unfold roll at 2. set (a := analysis PERIODIZATION h x).
  assert (Ha : zlen a = (zlen x + 1) / 2) by (unfold a, analysis; cbn [coeff_len]; apply zlen_tab; lia).
  unfold analysis at 1. rewrite zlen_roll. cbn [coeff_len first_pos]. rewrite Ha.
  apply tab_ext. intros k Hk. rewrite <- Ha. unfold a. rewrite gz_analysis_per by auto.
  unfold conv. apply sumZ_ext. intros t Ht. f_equal.
  rewrite !ext_per_even by (rewrite ?zlen_roll; auto). rewrite zlen_roll, gz_roll_mod by auto.
  f_equal. f_equal. lia.
Qed.

(** Shift invariance of a sum over a full period. *)
Lemma sumZ_period_1 (f : Z -> C) N : 0 <= N -> (forall n, f (n + N) = f n) ->
  sumZ 0 N (fun n => f (n + 1)) = sumZ 0 N f.
Proof.
  intros HN Hp. destruct (Z.eq_dec N 0) as [->|]; [rewrite !sumZ_empty by lia; reflexivity|].
  rewrite (sumZ_last' _ 0 N) by lia. rewrite (sumZ_first _ 0 N f) by lia.
  replace (N - 1 + 1) with (0 + N) by lia. rewrite Hp.
  rewrite (sumZ_shift _ 0 (N - 1) 1). rewrite (sumZ_ext _ (0 + 1) (N - 1 + 1) _ f).
  - replace (N - 1 + 1) with N by lia. ring.
  - intros t Ht. f_equal. lia.
Qed.

Lemma sumZ_period (f : Z -> C) N s : 0 <= N -> (forall n, f (n + N) = f n) ->
  sumZ 0 N (fun n => f (n + s)) = sumZ 0 N f.
Proof.
  intros HN Hp. revert s. apply Z.bi_induction.
  - intros ? ? ->; tauto.
  - apply sumZ_ext. intros. f_equal. lia.
  - intros s. assert (E : sumZ 0 N (fun n => f (n + Z.succ s)) = sumZ 0 N (fun n => f (n + s))).
    { rewrite <- (sumZ_period_1 (fun n => f (n + s))) by (auto; intros; rewrite <- (Hp (n + s)); f_equal; lia).
      apply sumZ_ext. intros. f_equal. lia. }
    rewrite E. tauto.
Qed.

Definition inner (x y : list C) : C := sumZ 0 (zlen x) (fun i => gz x i [*] gz y i).
Definition energy (x : list C) : C := inner x x.

(** In periodization mode synthesis with the reversed filter is the adjoint of
    analysis. *)
Theorem analysis_adjoint h x c : 2 <= zlen x -> zlen x mod 2 = 0 -> 2 <= zlen h -> zlen h mod 2 = 0 ->
  zlen c = zlen x / 2 ->
  inner c (analysis PERIODIZATION h x) = inner x (synthesis PERIODIZATION (rev h) c).
Proof.
  intros HN HN2 HF HF2 Hc. unfold inner.
  set (N := zlen x) in *. set (F := zlen h) in *. set (n := zlen c) in *.
  assert (En : N = 2 * n) by lia.
  transitivity (sumZ 0 F (fun j => gz h j [*] sumZ 0 n (fun k => gz c k [*] gz x ((2 * k + F / 2 - j) mod N)))).
  - rewrite (sumZ_ext _ 0 n _ (fun k => sumZ 0 F (fun j => gz h j [*] (gz c k [*] gz x ((2 * k + F / 2 - j) mod N))))).
    + rewrite sumZ_swap. apply sumZ_ext. intros. apply sumZ_scal.
    + intros k Hk. unfold analysis. cbn [coeff_len first_pos]. fold N. rewrite gz_tab by lia.
      unfold conv. fold F. rewrite <- sumZ_scal. apply sumZ_ext. intros t Ht.
      rewrite ext_per_even by (fold N; lia). fold N. ring.
  - transitivity (sumZ 0 F (fun j => gz h j [*] sumZ 0 N (fun i => gz x (i mod N) [*]
       (if (i - F / 2 + j) mod 2 =? 0 then gz c (((i - F / 2 + j) / 2) mod n) else r0)))).
    + apply sumZ_ext. intros j Hj. f_equal.
      set (f := fun i => gz x (i mod N) [*]
       (if (i - F / 2 + j) mod 2 =? 0 then gz c (((i - F / 2 + j) / 2) mod n) else r0)).
      rewrite <- (sumZ_period f N (F / 2 - j)); try lia.
      * rewrite En. rewrite sumZ_even_odd by lia.
        match goal with |- ?A = ?B [+] ?D => assert (ED : D = r0); [|assert (EB : B = A)] end.
        -- apply sumZ_zero. intros t Ht. unfold f.
           replace ((2 * t + 1 + (F / 2 - j) - F / 2 + j) mod 2 =? 0) with false by lia. ring.
        -- apply sumZ_ext. intros t Ht. unfold f.
           replace (2 * t + (F / 2 - j) - F / 2 + j) with (2 * t) by lia.
           replace ((2 * t) mod 2 =? 0) with true by lia.
           replace (2 * t / 2) with t by lia. rewrite (Z.mod_small t n) by lia. rewrite <- En.
           replace (2 * t + (F / 2 - j)) with (2 * t + F / 2 - j) by lia. ring.
        -- rewrite ED, EB. ring.
      * intros i. unfold f. f_equal.
        -- f_equal. replace (i + N) with (i + 1 * N) by lia. apply Z_mod_plus_full.
        -- replace ((i + N - F / 2 + j) mod 2) with ((i - F / 2 + j) mod 2) by lia.
           destruct (_ =? 0); [|reflexivity]. f_equal.
           replace ((i + N - F / 2 + j) / 2) with ((i - F / 2 + j) / 2 + 1 * n) by lia. apply Z_mod_plus_full.
    + rewrite (sumZ_ext _ 0 F _ (fun j => sumZ 0 N (fun i => gz x i [*] (gz h j [*] 
         (if (i - F / 2 + j) mod 2 =? 0 then gz c (((i - F / 2 + j) / 2) mod n) else r0))))).
      * rewrite sumZ_swap. apply sumZ_ext. intros i Hi. rewrite sumZ_scal. f_equal.
        cbn [synthesis]. fold n. rewrite gz_tab by lia. unfold up_conv. rewrite zlen_rev. fold F.
        rewrite sumZ_rev. apply sumZ_ext. intros t Ht.
        replace (0 + F - 1 - t) with (F - 1 - t) by lia.
        replace (i - F / 2 + (F - 1 - t)) with (i + F / 2 - 1 - t) by lia.
        destruct (_ =? 0); [|ring]. rewrite gz_rev by (fold F; lia). reflexivity.
      * intros j Hj. rewrite <- sumZ_scal. apply sumZ_ext. intros i Hi. rewrite Z.mod_small by lia. ring.
Qed.

Lemma inner_vadd x y z : zlen x = zlen y -> zlen y = zlen z -> inner x (vadd y z) = inner x y [+] inner x z.
Proof.
  intros H1 H2. unfold inner. rewrite <- sumZ_add. apply sumZ_ext. intros. rewrite gz_vadd by auto. ring.
Qed.

(** Energy conservation: orthonormal bank = perfect reconstruction with the
    time-reversed analysis filters. *)
Theorem analysis_energy h0 h1 x :
  pr_bank h0 h1 (rev h0) (rev h1) -> 2 <= zlen x -> zlen x mod 2 = 0 ->
  energy (analysis PERIODIZATION h0 x) [+] energy (analysis PERIODIZATION h1 x) = energy x.
Proof.
  intros Hpr HN HN2. pose proof Hpr as (Hh1 & _ & _ & HF2 & HF & _).
  assert (Ha0 : zlen (analysis PERIODIZATION h0 x) = zlen x / 2) by (rewrite zlen_analysis by lia; cbn [coeff_len]; lia).
  assert (Ha1 : zlen (analysis PERIODIZATION h1 x) = zlen x / 2) by (rewrite zlen_analysis by lia; cbn [coeff_len]; lia).
  unfold energy at 1 2.
  rewrite (analysis_adjoint h0), (analysis_adjoint h1) by lia.
  assert (Hs0 : zlen (synthesis PERIODIZATION (rev h0) (analysis PERIODIZATION h0 x)) = zlen x)
    by (rewrite zlen_synthesis; cbn [rec_len]; lia).
  assert (Hs1 : zlen (synthesis PERIODIZATION (rev h1) (analysis PERIODIZATION h1 x)) = zlen x)
    by (rewrite zlen_synthesis; cbn [rec_len]; lia).
  rewrite <- inner_vadd by lia. rewrite analysis_synthesis by (auto; cbn; lia).
  unfold energy, inner. apply sumZ_ext. intros i Hi. rewrite gz_tab by lia. rewrite ext_in by auto. reflexivity.
Qed.

End Lin.
Arguments roll {C}. Arguments vlin {C}. Arguments inner {C}. Arguments energy {C}.
