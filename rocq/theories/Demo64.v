(** demo_signal with the lengths of double precision, and the samples that are
    not numbers. *)
From Coq Require Import String QArith ZArith List Reals Lia Lra.
Import ListNotations.
From Verif Require Import Base BaseLemmas CConv Dwt Names Demo DemoSpec DemoProofs DemoMain DemoFloat.
Open Scope list_scope. Open Scope Z_scope.

Definition ds64 := demo_signal tcount64 hcount64.
(** One sample more at most. *)
Theorem ds64_length s n : known s -> ~ fixed_length s -> 1 <= n <= 2 ^ 49 -> (lower s = "hypchirps"%string -> hcount64 n = n) -> length_ok s n n ->
  exists f, ds64 s (Some n) = Ok (DReal f) /\ n <= zlen f <= n + 1 /\ (off_grid s -> zlen f = n).
Proof.
  intros Hk Hf Hn Hh Hl. pose proof (tcount64_bounds n Hn) as T.
  assert (Hl' : length_ok s n (tcount64 n)).
  { destruct Hl as (A & B & C). split; auto. split; auto. intros E. destruct (B E) as (r & R0 & R1 & R2). exists r. split; auto. split; auto. lia. }
  destruct (string_dec (lower s) "hypchirps") as [E|E].
  - destruct (demo_length tcount64 hcount64 s n Hk Hf) as (f & F & L1 & L2); auto; try lia. exists f. split; auto. assert (off_grid s) by (unfold off_grid; rewrite E; cbn; auto). rewrite L1 by auto. split; auto. lia.
  - destruct (demo_length tcount64 (fun n => n) s n Hk Hf) as (f & F & L1 & L2); auto; try lia. exists f. split.
    + rewrite <- F. unfold ds64, demo_signal. cbv zeta. apply String.eqb_neq in E. rewrite E. reflexivity.
    + split; auto. assert (D : off_grid s \/ ~ off_grid s) by (destruct (in_dec string_dec (lower s) ["hypchirps"; "linchirps"; "chirps"; "piece-regular"; "piece-polynomial"]%string); auto).
      destruct D as [D|D]; [rewrite L1 by auto|rewrite L2 by auto]; lia.
Qed.
Theorem ds64_pow2 s k : known s -> ~ fixed_length s -> ~ off_grid s -> lower s <> "riemann"%string -> 0 <= k <= 45 -> exists f, ds64 s (Some (2 ^ k)) = Ok (DReal f) /\ zlen f = 2 ^ k.
Proof.
  intros Hk Hf Ho Hr H. pose proof (counts_pow2 k H) as T. assert (P : 1 <= 2 ^ k) by (pose proof (Z.pow_pos_nonneg 2 k); lia).
  assert (Hl : length_ok s (2 ^ k) (tcount64 (2 ^ k))).
  { unfold off_grid in Ho. cbn in Ho. split; [intros E; symmetry in E; exfalso; tauto|]. split; [intros E; exfalso; tauto|intros [E|E]; symmetry in E; exfalso; tauto]. }
  destruct (demo_length tcount64 (fun n => n) s (2 ^ k) Hk Hf) as (f & F & L1 & L2); auto; try lia.
  exists f. split; [|rewrite L2 by auto; auto]. rewrite <- F. unfold ds64, demo_signal. cbv zeta. unfold off_grid in Ho. cbn in Ho.
  assert (E : String.eqb (lower s) "hypchirps" = false) by (apply String.eqb_neq; intros E; apply Ho; auto). rewrite E. reflexivity.
Qed.
Lemma T49 : tcount64 49 = 50.
Proof. vm_compute. reflexivity. Qed.
Lemma H7 : hcount64 7 = 8.
Proof. vm_compute. reflexivity. Qed.
Theorem ds64_extra : exists n f, ds64 "Blocks" (Some n) = Ok (DReal f) /\ zlen f = n + 1.
Proof.
  exists 49, (map (fun t => Some (blocks t)) (tgrid tcount64 49)). split; [reflexivity|]. unfold tgrid. rewrite T49, zl_map, zl_tab; lia.
Qed.
Theorem ds64_hypchirps : exists n, 1 <= n /\ ds64 "HypChirps" (Some n) = Err ValueError.
Proof. exists 7. split; [lia|]. apply demo_hypchirps_bad; rewrite ?H7; [reflexivity|lia|lia|lia]. Qed.
Theorem ds64_nan : exists n f, ds64 "Doppler" (Some n) = Ok (DReal f) /\ In None f.
Proof.
  exists 49, (map doppler (tgrid tcount64 49)). split; [reflexivity|]. unfold tgrid. rewrite T49. replace None with (doppler (50 / 49)%R).
  - apply in_map. apply in_tab. exists 49. split; [lia|f_equal; lra].
  - unfold doppler, nsqrt. destruct (Rlt_dec (50 / 49 * (1 - 50 / 49)) 0) as [H|H]; auto. exfalso. apply H. lra.
Qed.

Section D.
Variables tcount hcount : Z -> Z.
Let ds := demo_signal tcount hcount.
(** Doppler and LinChirps are numbers between -1/2 and 1/2, and between -1 and
    1, if the grid ends at 1. *)
Open Scope R_scope.
Lemma nsqrt_half a b : 0 <= a -> 0 <= b -> a + b <= 1 -> exists s, nsqrt (a * b) = Some s /\ 0 <= s <= 1 / 2.
Proof.
  intros Ha Hb Hs. unfold nsqrt. assert (0 <= a * b) by (apply Rmult_le_pos; auto). destruct (Rlt_dec (a * b) 0); [lra|]. eexists. split; [reflexivity|]. split; [apply sqrt_pos|].
  rewrite <- (sqrt_square (1 / 2)) by lra. apply sqrt_le_1_alt. pose proof (Rle_0_sqr (a - b)) as Q. unfold Rsqr in Q. assert ((a + b) * (a + b) <= 1) by nra. lra.
Qed.
Lemma grid_range n k : (1 <= n)%Z -> (0 <= k < n)%Z -> 1 / IZR n <= (IZR k + 1) / IZR n <= 1.
Proof.
  intros Hn (K0 & K1). assert (N : 1 <= IZR n) by (apply IZR_le; auto). apply IZR_le in K0. assert (K2 : IZR k + 1 <= IZR n) by (rewrite <- plus_IZR; apply IZR_le; lia).
  assert (I : 0 < / IZR n) by (apply Rinv_0_lt_compat; lra). assert (J : IZR n * / IZR n = 1) by (apply Rinv_r; lra). unfold Rdiv. split; nra.
Qed.
Theorem demo_doppler s n f : lower s = "doppler"%string -> (1 <= n)%Z -> (tcount n <= n)%Z -> ds s (Some n) = Ok (DReal f) ->
  forall x, In x f -> exists v, x = Some v /\ - (1 / 2) <= v <= 1 / 2.
Proof.
  intros Hs Hn Ht E. unfold ds, demo_signal in E. rewrite Hs in E. replace (n <? 1)%Z with false in E by lia. cbn in E. injection E as <-.
  intros x Hx. apply in_map_iff in Hx. destruct Hx as (t & <- & Hx). unfold tgrid in Hx. apply in_tab in Hx. destruct Hx as (k & Hk & ->).
  pose proof (grid_range n k Hn ltac:(lia)) as (G1 & G2). set (t := (IZR k + 1) / IZR n) in *. assert (0 < 1 / IZR n) by (apply Rdiv_lt_0_compat; [lra|apply IZR_lt; lia]).
  unfold doppler. destruct (nsqrt_half t (1 - t)) as (r & -> & R); try lra. eexists. split; [reflexivity|]. pose proof (SIN_bound (2 * PI * 1.05 / (t + 0.05))). nra.
Qed.
Theorem demo_linchirps s n f : lower s = "linchirps"%string -> (1 <= n)%Z -> ds s (Some n) = Ok (DReal f) ->
  forall x, In x f -> exists v, x = Some v /\ -1 <= v <= 1.
Proof.
  intros Hs Hn E. unfold ds, demo_signal in E. rewrite Hs in E. replace (n <? 1)%Z with false in E by lia. cbn -[linchirps] in E. injection E as <-.
  intros x Hx. unfold linchirps in Hx. cbv zeta in Hx. apply in_tab in Hx. destruct Hx as (k & Hk & ->).
  pose proof (grid_range n k Hn ltac:(lia)) as (G1 & G2). set (t := (IZR k + 1) / IZR n) in *. assert (0 < 1 / IZR n) by (apply Rdiv_lt_0_compat; [lra|apply IZR_lt; lia]).
  destruct (nsqrt_half (t - 1 / IZR n) (1 - t)) as (r & -> & R); try lra. eexists. split; [reflexivity|].
  match goal with |- context [cos ?a + cos ?b] => pose proof (COS_bound a); pose proof (COS_bound b); set (x := cos a) in *; set (y := cos b) in * end. nra.
Qed.
End D.
(** The first sample of the chirps of length 8. *)
Theorem chirps8_nan tcount hcount : exists f, demo_signal tcount hcount "Chirps" (Some 8%Z) = Ok (DReal f) /\ In None f.
Proof.
  destruct (chirps_ok 8 ltac:(lia) ltac:(auto)) as (f & E & L). exists f. split.
  - unfold demo_signal. change (f <- chirps 8 ;; Ok (DReal f) = Ok (DReal f)). rewrite E. reflexivity.
  - lazy -[IZR Rplus Rmult Rminus Rdiv Ropp Rinv cos sin exp PI pow] in E. injection E as <-. left. reflexivity.
Qed.
Theorem lengths_bad : exists n, demo_signal (fun n => n) (fun n => n) "Chirps" (Some n) = Err ValueError /\
  demo_signal (fun n => n) (fun n => n) "Piece-Regular" (Some n) = Err ValueError /\ demo_signal (fun n => n) (fun n => n) "Piece-Polynomial" (Some n) = Err ValueError.
Proof.
  exists 20%Z. split; [|split].
  - change (f <- chirps 20 ;; Ok (DReal f) = Err ValueError). rewrite chirps_bad; [reflexivity|lia|discriminate|lia].
  - change (f <- (f <- piece_regular (fun n => n) 20 ;; Ok (DReal (map Some f))) ;; Ok f = Err ValueError). rewrite piece_regular_bad; [reflexivity|lia|reflexivity|lia].
  - change (f <- (f <- piece_polynomial 20 ;; Ok (DReal (map Some f))) ;; Ok f = Err ValueError). rewrite piece_polynomial_bad; [reflexivity|lia|reflexivity].
Qed.
Theorem riemann_bad_ex : exists n, (1 <= n)%Z /\ demo_signal (fun n => n) (fun n => n) "Riemann" (Some n) = Err IndexError.
Proof.
  exists 512%Z. split; [lia|]. change (f <- riemann (fun n => n) 512 ;; Ok (DReal (map Some f)) = Err IndexError).
  rewrite riemann_bad; [reflexivity|lia|reflexivity].
Qed.
Theorem demo_fixed (tcount hcount : Z -> Z) s :
  (lower s = "gabor"%string -> exists f, demo_signal tcount hcount s None = Ok (DComplex f) /\ zlen f = 512%Z) /\
  (lower s = "sineoneoverx"%string -> exists f, demo_signal tcount hcount s None = Ok (DReal (map Some f)) /\ zlen f = 1024%Z).
Proof. split; [apply demo_gabor|apply demo_sine]. Qed.
Theorem demo_requests (tcount hcount : Z -> Z) s n : lower s <> "list"%string ->
  (~ known s -> demo_signal tcount hcount s n = Err ValueError) /\
  (fixed_length s <-> demo_signal tcount hcount s None <> Err ValueError) /\
  (fixed_length s -> n <> None -> demo_signal tcount hcount s n = Err ValueError) /\
  (forall m, n = Some m -> (m < 1)%Z -> demo_signal tcount hcount s n = Err ValueError).
Proof.
  intros H. split; [intros K; apply demo_unknown; auto|]. split; [split|split].
  - intros [F|F]; [destruct (demo_gabor tcount hcount s F) as (f & E & _)|destruct (demo_sine tcount hcount s F) as (f & E & _)]; rewrite E; discriminate.
  - intros E. destruct (string_dec (lower s) "gabor") as [A|A]; [left; auto|]. destruct (string_dec (lower s) "sineoneoverx") as [B|B]; [right; auto|]. exfalso. apply E. apply demo_needs_n; auto. intros [X|X]; auto.
  - intros F N. destruct n as [n|]; [|congruence]. apply demo_no_n. auto.
  - intros m -> Hm. apply demo_small; auto.
Qed.
