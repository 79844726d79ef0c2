(** The statements about demo_signal. *)
From Coq Require Import Ascii String QArith Qround ZArith Znumtheory List Reals Lia Lra.
Import ListNotations.
From Verif Require Import Base BaseLemmas CConv Dwt Swt Names CwtReal Demo DemoSpec DemoProofs.
Open Scope list_scope. Open Scope Z_scope.

Section D.
Variables tcount hcount : Z -> Z.
Let ds := demo_signal tcount hcount.
Lemma lower_char_idem c : lower_char (lower_char c) = lower_char c.
Proof. destruct c as [[] [] [] [] [] [] [] []]; reflexivity. Qed.
Lemma lower_idem s : lower (lower s) = lower s.
Proof. induction s as [|c s IH]; cbn; auto. rewrite lower_char_idem, IH. auto. Qed.

(** Case does not matter. *)
Lemma demo_case s s' n : lower s = lower s' -> ds s n = ds s' n.
Proof. unfold ds, demo_signal. intros ->. reflexivity. Qed.

Definition lnames : list string := ["blocks"; "bumps"; "heavisine"; "doppler"; "ramp"; "hisine"; "losine"; "linchirp"; "twochirp"; "quadchirp"; "mishmash"; "wernersorrows"; "hypchirps"; "linchirps";
   "chirps"; "gabor"; "sineoneoverx"; "piece-regular"; "piece-polynomial"; "riemann"]%string.
Lemma known_lower s : known s <-> In (lower s) lnames.
Proof.
  split.
  - intros (t & Ht & ->). cbn in Ht. repeat (destruct Ht as [<-|Ht]; [cbn; tauto|]). destruct Ht.
  - intros H. cbn in H. unfold known.
    assert (K : forall t, In t available -> lower t = lower s -> exists t, In t available /\ lower s = lower t) by (intros t Ht E; exists t; auto).
    destruct H as [H|[H|[H|[H|[H|[H|[H|[H|[H|[H|[H|[H|[H|[H|[H|[H|[H|[H|[H|[H|[]]]]]]]]]]]]]]]]]]]]];
    [apply (K "Blocks"%string)|apply (K "Bumps"%string)|apply (K "HeaviSine"%string)|apply (K "Doppler"%string)|apply (K "Ramp"%string)|apply (K "HiSine"%string)|apply (K "LoSine"%string)
    |apply (K "LinChirp"%string)|apply (K "TwoChirp"%string)|apply (K "QuadChirp"%string)|apply (K "MishMash"%string)|apply (K "WernerSorrows"%string)|apply (K "HypChirps"%string)|apply (K "LinChirps"%string)
    |apply (K "Chirps"%string)|apply (K "Gabor"%string)|apply (K "sineoneoverx"%string)|apply (K "Piece-Regular"%string)|apply (K "Piece-Polynomial"%string)|apply (K "Riemann"%string)];
    first [rewrite <- H; reflexivity|cbn; tauto].
Qed.

(** Errors for bad requests. *)
Lemma demo_list s n : lower s = "list"%string -> ds s n = Ok (DNames available).
Proof. unfold ds, demo_signal. intros ->. reflexivity. Qed.
Lemma demo_small s n : lower s <> "list"%string -> n < 1 -> ds s (Some n) = Err ValueError.
Proof. intros Hs Hn. unfold ds, demo_signal. cbv zeta. apply String.eqb_neq in Hs. rewrite Hs. replace (n <? 1) with true by lia. auto. Qed.
Lemma demo_unknown s n : ~ known s -> lower s <> "list"%string -> ds s n = Err ValueError.
Proof.
  intros Hk Hs. rewrite known_lower in Hk. unfold ds, demo_signal. cbv zeta. apply String.eqb_neq in Hs. rewrite Hs. destruct (match n with Some n => n <? 1 | None => false end); auto.
  cbn in Hk. set (l := lower s) in *.
  assert (K : forall t, t = l \/ False -> True) by auto.
  repeat match goal with |- context [String.eqb l ?t] => replace (String.eqb l t) with false; [|symmetry; apply String.eqb_neq; intros ->; tauto] end.
  destruct n; reflexivity.
Qed.
Lemma demo_needs_n s : ~ fixed_length s -> lower s <> "list"%string -> ds s None = Err ValueError.
Proof.
  intros Hf Hs. unfold ds, demo_signal. cbv zeta. apply String.eqb_neq in Hs. rewrite Hs. unfold fixed_length in Hf.
  replace (String.eqb (lower s) "gabor") with false by (symmetry; apply String.eqb_neq; tauto). replace (String.eqb (lower s) "sineoneoverx") with false by (symmetry; apply String.eqb_neq; tauto). auto.
Qed.
Lemma demo_no_n s n : fixed_length s -> ds s (Some n) = Err ValueError.
Proof. intros [H|H]; unfold ds, demo_signal; rewrite H; cbv zeta; cbn -[Z.ltb]; destruct (n <? 1); reflexivity. Qed.
Lemma demo_gabor s : lower s = "gabor"%string -> exists f, ds s None = Ok (DComplex f) /\ zlen f = 512.
Proof.
  intros H. unfold ds, demo_signal. rewrite H. cbv zeta. exists gabor. split; [reflexivity|]. unfold gabor. cbv zeta.
  change (2 * 512 / 4) with 256. change (512 / 16) with 32. change (512 / 4) with 128.
  repeat first [rewrite zl_map|rewrite zl_combine|rewrite zl_cut|rewrite zl_tab]; lia.
Qed.
Lemma demo_sine s : lower s = "sineoneoverx"%string -> exists f, ds s None = Ok (DReal (map Some f)) /\ zlen f = 1024.
Proof.
  intros H. unfold ds, demo_signal. rewrite H. cbv zeta. exists sineoneoverx. split; [reflexivity|]. unfold sineoneoverx. cbv zeta.
  rewrite zl_cut; rewrite ?zl_tab; lia.
Qed.

(** The lengths. *)
Theorem demo_length s n : known s -> ~ fixed_length s -> 1 <= n -> n <= tcount n -> hcount n = n -> length_ok s n (tcount n) ->
  exists f, ds s (Some n) = Ok (DReal f) /\ (off_grid s -> zlen f = n) /\ (~ off_grid s -> zlen f = tcount n).
Proof.
  intros Hk Hf Hn Ht Hh (L1 & L2 & L3). rewrite known_lower in Hk. unfold fixed_length in Hf. unfold ds, demo_signal, off_grid. cbv zeta. set (l := lower s) in *. clearbody l.
  replace (n <? 1) with false by lia. cbn in Hk.
  destruct Hk as [<-|[<-|[<-|[<-|[<-|[<-|[<-|[<-|[<-|[<-|[<-|[<-|[<-|[<-|[<-|[<-|[<-|[<-|[<-|[<-|[]]]]]]]]]]]]]]]]]]]]]; cbn -[Z.mul Z.add hypchirps linchirps chirps piece_regular piece_polynomial riemann];
  try (eexists; split; [reflexivity|]; split; [intros; exfalso; intuition discriminate|]; intros _; unfold tgrid; rewrite zl_map, zl_tab; lia).
  - destruct (hypchirps_ok hcount n Hn Hh) as (f & -> & Lf). exists f. split; auto. split; auto. tauto.
  - eexists; split; [reflexivity|]. split; [|tauto]. intros _. unfold linchirps. cbv zeta. rewrite zl_tab; lia.
  - destruct (chirps_ok n Hn) as (f & -> & Lf). { destruct (L1 eq_refl) as [D|D]; auto. left. apply Z.mod_divide; auto. lia. } exists f. split; auto. split; auto. tauto.
  - tauto.
  - tauto.
  - destruct (piece_regular_ok tcount n Hn) as (f & -> & Lf & _); auto. { intros E. apply L3; auto. apply Z.mod_divide; auto. lia. }
    eexists. split; [reflexivity|]. rewrite zl_map. split; auto. tauto.
  - destruct (piece_polynomial_ok n Hn) as (f & -> & Lf & _); auto. { intros E. apply L3; auto. apply Z.mod_divide; auto. lia. }
    eexists. split; [reflexivity|]. rewrite zl_map. split; auto. tauto.
  - destruct (riemann_ok tcount n Hn) as (f & -> & Lf). { destruct (L2 eq_refl) as (r & Hr & B & S). apply (round_sqrt_spec n r Hn Hr) in B. subst r. auto. }
    eexists. split; [reflexivity|]. rewrite zl_map. split; auto. intros [E|[E|[E|[E|[E|[]]]]]]; discriminate.
Qed.
(** ... and the lengths that are errors. *)
Theorem demo_length_bad s n : 1 <= n -> n <= tcount n -> ~ length_ok s n (tcount n) -> exists e, ds s (Some n) = Err e.
Proof.
  intros Hn Ht L.
  assert (D : (lower s = "chirps"%string /\ n mod 8 <> 0 /\ ~ 8 <= n < 16) \/ (lower s = "riemann"%string /\ tcount n < round_sqrt n * round_sqrt n) \/
              ((lower s = "piece-regular"%string \/ lower s = "piece-polynomial"%string) /\ n mod 5 = 0)).
  { unfold length_ok in L. destruct (string_dec (lower s) "chirps") as [E|E1].
    - left. split; auto. split; intros X; apply L; rewrite E; (split; [intros _|split; [discriminate|intros [?|?]; discriminate]]); [left; apply Z.mod_divide; auto; lia|right; auto].
    - destruct (string_dec (lower s) "riemann") as [E|E2].
      + right; left. split; auto. destruct (Z.lt_ge_cases (tcount n) (round_sqrt n * round_sqrt n)) as [X|X]; auto. exfalso. apply L. rewrite E. split; [discriminate|]. split; [|intros [?|?]; discriminate].
        intros _. exists (round_sqrt n). pose proof (round_sqrt_pos n Hn). split; [lia|]. split; [apply round_sqrt_spec; auto; lia|lia].
      + right; right. destruct (string_dec (lower s) "piece-regular") as [E|E3]; [|destruct (string_dec (lower s) "piece-polynomial") as [E|E4]]; [| |exfalso; tauto];
        (split; [tauto|]; destruct (Z.eq_dec (n mod 5) 0) as [X|X]; auto; exfalso; apply L; split; [tauto|]; split; [tauto|]; intros _ Y; apply X; apply Z.mod_divide; auto; lia). }
  unfold ds, demo_signal. cbv zeta. replace (n <? 1) with false by lia.
  destruct D as [(-> & A & B)|[(-> & A)|([->| ->] & A)]]; cbn -[chirps riemann piece_regular piece_polynomial].
  - rewrite chirps_bad by auto. cbn. eauto.
  - rewrite riemann_bad by auto. cbn. eauto.
  - rewrite piece_regular_bad by auto. cbn. eauto.
  - rewrite piece_polynomial_bad by auto. cbn. eauto.
Qed.
Theorem demo_hypchirps_bad s n : lower s = "hypchirps"%string -> 2 <= n -> 2 <= hcount n -> hcount n <> n -> ds s (Some n) = Err ValueError.
Proof.
  intros H Hn H2 Hh. unfold ds, demo_signal. rewrite H. replace (n <? 1) with false by lia. cbn -[hypchirps]. rewrite hypchirps_bad by auto. reflexivity.
Qed.

(** ** Values *)
Theorem demo_zero_mean s n f : lower s = "piece-regular"%string \/ lower s = "piece-polynomial"%string -> n <= tcount n -> ds s (Some n) = Ok (DReal f) ->
  exists g, f = map Some g /\ DemoSpec.sum g = 0%R.
Proof.
  intros Hs Ht E. unfold ds, demo_signal in E. destruct (Z.ltb_spec n 1) as [X|X]; [destruct Hs as [Hs|Hs]; rewrite Hs in E; discriminate|].
  destruct (Z.eq_dec (n mod 5) 0) as [M|M].
  - destruct Hs as [Hs|Hs]; rewrite Hs in E; cbn -[piece_regular piece_polynomial] in E; [rewrite piece_regular_bad in E by auto|rewrite piece_polynomial_bad in E by auto]; discriminate.
  - destruct Hs as [Hs|Hs]; rewrite Hs in E; cbn -[piece_regular piece_polynomial] in E.
    + destruct (piece_regular_ok tcount n X M Ht) as (g & Eg & _ & S). rewrite Eg in E. injection E as <-. eauto.
    + destruct (piece_polynomial_ok n X M) as (g & Eg & _ & S). rewrite Eg in E. injection E as <-. eauto.
Qed.

Lemma nth_tgrid n k : 0 <= k < tcount n -> nth (Z.to_nat k) (tgrid tcount n) 0%R = ((IZR k + 1) / IZR n)%R.
Proof.
  intros H. unfold tgrid, tab. set (g := fun k : nat => ((IZR (Z.of_nat k) + 1) / IZR n)%R). rewrite (nth_indep _ _ (g O)) by (rewrite map_length, seq_length; lia).
  rewrite (map_nth g), seq_nth by lia. unfold g. cbn [plus]. rewrite Z2Nat.id by lia. auto.
Qed.
Lemma sampled_grid (f : R -> R) n : 0 <= tcount n -> sampled (map (fun t => Some (f t)) (tgrid tcount n)) n (tcount n) f.
Proof.
  intros H. assert (L : zlen (tgrid tcount n) = tcount n) by (unfold tgrid; apply zl_tab; auto). split; [rewrite zl_map; auto|].
  intros k Hk. rewrite (nth_indep _ _ ((fun t => Some (f t)) 0%R)) by (rewrite map_length; unfold zlen in L; lia). rewrite (map_nth (fun t => Some (f t))), nth_tgrid by auto. auto.
Qed.
Open Scope R_scope.
Lemma sgn_step t p h : h * (1 + sgn (t - p)) / 2 = step t p h.
Proof.
  unfold sgn, step. destruct (total_order_T t p) as [[X|X]|X].
  - destruct (Rlt_dec (t - p) 0); [field|lra].
  - subst. destruct (Rlt_dec (p - p) 0); [lra|]. destruct (Rlt_dec 0 (p - p)); [lra|field].
  - destruct (Rlt_dec (t - p) 0); [lra|]. destruct (Rlt_dec 0 (t - p)); [field|lra].
Qed.
Lemma blocks_steps t : blocks t = DemoSpec.sum (map (fun '(p, h) => step t p h) steps).
Proof. unfold blocks, positions, steps. cbn [combine map DemoSpec.sum rsum fold_right]. rewrite !sgn_step. reflexivity. Qed.

Ltac of_grid Hs Hn := unfold ds, demo_signal; rewrite Hs; cbv zeta; replace (_ <? 1)%Z with false by lia; cbn -[IZR]; eexists; split; [reflexivity|].
Ltac of_grid2 Hs Hn g := unfold ds, demo_signal; rewrite Hs; cbv zeta; replace (_ <? 1)%Z with false by lia; cbn -[IZR]; eexists; exists g; split; [reflexivity|].
Theorem demo_blocks s n : lower s = "blocks"%string -> (1 <= n)%Z -> (0 <= tcount n)%Z ->
  exists f, ds s (Some n) = Ok (DReal f) /\ sampled f n (tcount n) (fun t => DemoSpec.sum (map (fun '(p, h) => step t p h) steps)).
Proof.
  intros Hs Hn Ht. of_grid Hs Hn. destruct (sampled_grid blocks n Ht) as (A & B). split; auto. intros k Hk. rewrite B by auto. rewrite blocks_steps. auto.
Qed.
Theorem demo_ramp s n : lower s = "ramp"%string -> (1 <= n)%Z -> (0 <= tcount n)%Z ->
  exists f g, ds s (Some n) = Ok (DReal f) /\ sampled f n (tcount n) g /\ forall t, (t < 0.37 -> g t = t) /\ (0.37 <= t -> g t = t - 1).
Proof.
  intros Hs Hn Ht. of_grid2 Hs Hn ramp. split; [apply (sampled_grid ramp); auto|].
  intros t. unfold ramp, ind, rlt. destruct (Rlt_dec t 0.37); cbn [negb]; split; intros; lra.
Qed.
Theorem demo_heavisine s n : lower s = "heavisine"%string -> (1 <= n)%Z -> (0 <= tcount n)%Z ->
  exists f g, ds s (Some n) = Ok (DReal f) /\ sampled f n (tcount n) g /\
    forall t, (t < 0.3 \/ 0.72 < t -> g t = 4 * sin (4 * PI * t)) /\ (0.3 < t < 0.72 -> g t = 4 * sin (4 * PI * t) - 2).
Proof.
  intros Hs Hn Ht. of_grid2 Hs Hn heavisine. split; [apply (sampled_grid heavisine); auto|].
  intros t. unfold heavisine, sgn. destruct (Rlt_dec (t - 0.3) 0), (Rlt_dec 0 (t - 0.3)), (Rlt_dec (0.72 - t) 0), (Rlt_dec 0 (0.72 - t)); split; intros; lra.
Qed.
(** The sines stay in [-1, 1]. *)
Theorem demo_sines s n : In (lower s) ["hisine"; "losine"; "linchirp"; "quadchirp"]%string -> (1 <= n)%Z -> (0 <= tcount n)%Z ->
  exists f g, ds s (Some n) = Ok (DReal f) /\ sampled f n (tcount n) g /\ forall t, -1 <= g t <= 1.
Proof.
  intros Hs Hn Ht. cbn in Hs. destruct Hs as [Hs|[Hs|[Hs|[Hs|[]]]]]; symmetry in Hs.
  - of_grid2 Hs Hn (hisine (IZR n)). split; [apply (sampled_grid (hisine (IZR n))); auto|]. intros t. apply SIN_bound.
  - of_grid2 Hs Hn (losine (IZR n)). split; [apply (sampled_grid (losine (IZR n))); auto|]. intros t. apply SIN_bound.
  - of_grid2 Hs Hn (linchirp (IZR n)). split; [apply (sampled_grid (linchirp (IZR n))); auto|]. intros t. apply SIN_bound.
  - of_grid2 Hs Hn (quadchirp (IZR n)). split; [apply (sampled_grid (quadchirp (IZR n))); auto|]. intros t. apply SIN_bound.
Qed.
End D.
