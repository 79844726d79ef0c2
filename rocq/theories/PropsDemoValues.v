(** Property theorems for the values of the demo signals. *)
From Coq Require Import String ZArith List Lia.
Import ListNotations.
From Verif Require Import Base BaseLemmas Dwt Names Demo DemoSpec DemoProofs DemoValuesSpec DemoValues DemoValues2 DemoValues3 DemoValues4.
From Coq Require Import Reals Lra.
Open Scope Z_scope.

(** C107. The m-th sample as a function of m. *)
Theorem C107_grid_values : forall (tcount hcount : Z -> Z) s n,
  In (lower s) ["bumps"; "hisine"; "losine"; "linchirp"; "twochirp"; "quadchirp"; "mishmash"; "wernersorrows"]%string -> 1 <= n -> 0 <= tcount n ->
  exists f g, demo_signal tcount hcount s (Some n) = Ok (DReal f) /\ samples f (tcount n) g /\ forall m, value (lower s) (IZR n) m = Some (g m).
Proof. exact grid_values. Qed.
Print Assumptions C107_grid_values.
Example C107_grid_values_ex : In (lower "QuadChirp") ["bumps"; "hisine"; "losine"; "linchirp"; "twochirp"; "quadchirp"; "mishmash"; "wernersorrows"]%string /\ value "quadchirp" 3 3 = Some 0%R /\
  exists f, demo_signal (fun n => n) (fun n => n) "QuadChirp" (Some 3) = Ok (DReal f) /\ nth 2 f None = Some 0%R.
Proof.
  assert (I : In (lower "QuadChirp") ["bumps"; "hisine"; "losine"; "linchirp"; "twochirp"; "quadchirp"; "mishmash"; "wernersorrows"]%string) by (vm_compute; tauto).
  assert (V : value "quadchirp" 3 3 = Some 0%R).
  { unfold value. cbn -[sweep3]. f_equal. unfold sweep3. replace (PI * (1 / 3) * 3 ^ 3 / 3 ^ 2)%R with PI by field. apply sin_PI. }
  split; [exact I|]. split; [exact V|]. destruct (C107_grid_values (fun n => n) (fun n => n) "QuadChirp" 3 I ltac:(lia) ltac:(lia)) as (f & g & E & (_ & S) & G).
  exists f. split; auto. etransitivity; [exact (S 3 ltac:(lia))|]. rewrite <- V. symmetry. apply (G 3).
Qed.

Theorem C107_doppler_values : forall (tcount hcount : Z -> Z) s n, lower s = "doppler"%string -> 1 <= n -> tcount n = n ->
  exists f, demo_signal tcount hcount s (Some n) = Ok (DReal f) /\ samples f n (fun m => sqrt (IZR (m * (n - m))) / IZR n * sin (42 * PI * IZR n / IZR (20 * m + n)))%R.
Proof. exact doppler_values. Qed.
Print Assumptions C107_doppler_values.
Example C107_doppler_values_ex : lower "Doppler" = "doppler"%string /\ exists f, demo_signal (fun n => n) (fun n => n) "Doppler" (Some 2) = Ok (DReal f) /\ nth 1 f None = Some 0%R.
Proof.
  split; [reflexivity|]. destruct (C107_doppler_values (fun n => n) (fun n => n) "Doppler" 2 eq_refl ltac:(lia) eq_refl) as (f & E & _ & S). exists f. split; auto.
  etransitivity; [exact (S 2 ltac:(lia))|]. f_equal. change (2 * (2 - 2)) with 0. rewrite sqrt_0. field.
Qed.

(** The envelope of HypChirps has L samples, from the c-th sample on. *)
Theorem C107_hypchirps_values : forall (tcount hcount : Z -> Z) s n, lower s = "hypchirps"%string -> 12 <= n -> hcount n = n ->
  exists L c f, 20 * L - 10 <= 13 * n <= 20 * L + 10 /\ n <= 10 * c < n + 10 /\ demo_signal tcount hcount s (Some n) = Ok (DReal f) /\
  samples f n (fun m => hyperbolas (IZR n) ((IZR m + 1 / 1000) / IZR n) * (if (m <? c) || (L + c <=? m) then 0 else envelope L (L / 4) (m - c)))%R.
Proof. exact hypchirps_values. Qed.
Print Assumptions C107_hypchirps_values.
Example C107_hypchirps_values_ex : lower "HypChirps" = "hypchirps"%string /\ exists f, demo_signal (fun n => n) (fun n => n) "HypChirps" (Some 12) = Ok (DReal f) /\ nth 0 f None = Some 0%R.
Proof.
  split; [reflexivity|]. destruct (C107_hypchirps_values (fun n => n) (fun n => n) "HypChirps" 12 eq_refl ltac:(lia) eq_refl) as (L & c & f & HL & Hc & E & _ & S). exists f. split; auto.
  etransitivity; [exact (S 1 ltac:(lia))|]. f_equal. replace (1 <? c) with true by lia. cbn [orb]. ring.
Qed.

Theorem C107_linchirps_values : forall (tcount hcount : Z -> Z) s n, lower s = "linchirps"%string -> 1 <= n -> exists f, demo_signal tcount hcount s (Some n) = Ok (DReal f) /\ samples f n (lin_chirps n).
Proof. exact linchirps_values. Qed.
Print Assumptions C107_linchirps_values.
Example C107_linchirps_values_ex : lower "LinChirps" = "linchirps"%string /\ lin_chirps 4 4 = 0%R.
Proof. split; [reflexivity|]. unfold lin_chirps. replace ((4 - 1) * (4 - 4))%R with 0%R by lra. rewrite sqrt_0. field. Qed.

Theorem C107_chirps_values : forall (tcount hcount : Z -> Z) s n, lower s = "chirps"%string -> 16 <= n -> (8 | n) ->
  exists f, demo_signal tcount hcount s (Some n) = Ok (DReal f) /\ samples f n (fun m => four_chirps n m * envelope n (n / 8) (m - 1))%R.
Proof. exact chirps_values. Qed.
Print Assumptions C107_chirps_values.
Example C107_chirps_values_ex : lower "Chirps" = "chirps"%string /\ (8 | 16) /\ exists f, demo_signal (fun n => n) (fun n => n) "Chirps" (Some 16) = Ok (DReal f) /\ nth 0 f None = Some 0%R /\ nth 4 f None = Some (four_chirps 16 5).
Proof.
  assert (D : (8 | 16)) by (exists 2; reflexivity).
  split; [reflexivity|]. split; [exact D|]. destruct (C107_chirps_values (fun n => n) (fun n => n) "Chirps" 16 eq_refl ltac:(lia) D) as (f & E & _ & S). exists f. split; auto.
  split; [etransitivity; [exact (S 1 ltac:(lia))|]|etransitivity; [exact (S 5 ltac:(lia))|]]; f_equal; unfold envelope; cbn [Z.ltb Z.leb Z.compare Z.div]; unfold fade.
  - change (IZR (1 - 1)) with 0%R. replace (PI * 0 / (2 * IZR (16 / 8 - 1)))%R with 0%R by (unfold Rdiv; ring). rewrite sin_0. cbn. ring.
  - cbn -[four_chirps]. ring.
Qed.

Theorem C107_gabor_values : forall (tcount hcount : Z -> Z) s, lower s = "gabor"%string ->
  exists f, demo_signal tcount hcount s None = Ok (DComplex f) /\ zlen f = 512 /\ forall m, 1 <= m <= 512 -> nth (Z.to_nat (m - 1)) f (0, 0)%R = gabors m.
Proof. exact gabor_values. Qed.
Print Assumptions C107_gabor_values.
Example C107_gabor_values_ex : lower "Gabor" = "gabor"%string /\ snd (gabors 16) = 0%R.
Proof.
  split; [reflexivity|]. unfold gabors. cbn [snd]. replace (PI * 16 / 16)%R with PI by field. replace (PI * 16 / 4)%R with (2 * PI + 2 * PI)%R by field.
  rewrite sin_plus, sin_2PI, sin_PI. ring.
Qed.

Theorem C107_sineoneoverx_values : forall (tcount hcount : Z -> Z) s, lower s = "sineoneoverx"%string -> exists f, demo_signal tcount hcount s None = Ok (DReal f) /\ samples f 1024 one_over.
Proof. exact sine_values. Qed.
Print Assumptions C107_sineoneoverx_values.
Example C107_sineoneoverx_values_ex : lower "sineoneoverx" = "sineoneoverx"%string /\ one_over 512 = sin 153450 /\ one_over 513 = sin (3069 / 2).
Proof. split; [reflexivity|]. split; [reflexivity|]. unfold one_over. cbn [Z.eqb Pos.eqb]. f_equal. field. Qed.

(** The pieces, without their mean. *)
Theorem C107_polynomial_values : forall (tcount hcount : Z -> Z) s n, lower s = "piece-polynomial"%string -> 5 <= n -> ~ (5 | n) ->
  exists f, demo_signal tcount hcount s (Some n) = Ok (DReal f) /\ samples f n (fun m => poly_pieces n (m - 1) - mean n (poly_pieces n))%R.
Proof. exact polynomial_values. Qed.
Print Assumptions C107_polynomial_values.
Example C107_polynomial_values_ex : lower "Piece-Polynomial" = "piece-polynomial"%string /\ ~ (5 | 6) /\ map (poly_pieces 6) [0; 1; 2; 3; 4; 5] = [120; 55; 220; 40; 100; 120]%R.
Proof. split; [reflexivity|]. split; [intros (k & Hk); lia|]. cbn -[pow]. repeat (apply f_equal2; [field|]). reflexivity. Qed.

Theorem C107_regular_values : forall (tcount hcount : Z -> Z) s n, lower s = "piece-regular"%string -> 1 <= n -> ~ (5 | n) -> n <= tcount n ->
  exists f, demo_signal tcount hcount s (Some n) = Ok (DReal f) /\ samples f n (fun m => regular_pieces n (m - 1) - mean n (regular_pieces n))%R.
Proof. exact regular_values. Qed.
Print Assumptions C107_regular_values.
Example C107_regular_values_ex : lower "Piece-Regular" = "piece-regular"%string /\ ~ (5 | 12) /\ regular_pieces 12 6 = exp 4 /\ regular_pieces 12 8 = (exp 4 - exp 4)%R.
Proof. split; [reflexivity|]. split; [intros (k & Hk); lia|]. unfold regular_pieces, regular_base. cbn. split; [f_equal; field|f_equal; f_equal; field]. Qed.

Theorem C107_riemann_values : forall (tcount hcount : Z -> Z) s n, lower s = "riemann"%string -> 1 <= n -> length_ok s n (tcount n) ->
  exists r f, (0 <= r /\ (2 * r - 1) * (2 * r - 1) <= 4 * n <= (2 * r + 1) * (2 * r + 1)) /\ demo_signal tcount hcount s (Some n) = Ok (DReal f) /\ samples f (tcount n) (fun m => riemann_sum r (tcount n) (m - 1)).
Proof. exact riemann_values. Qed.
Print Assumptions C107_riemann_values.
Example C107_riemann_values_ex : lower "Riemann" = "riemann"%string /\ length_ok "Riemann" 4 4 /\ riemann_sum 2 4 0 = (3 / 8)%R.
Proof.
  split; [reflexivity|]. split; [split; [discriminate|]; split; [intros _; exists 2; lia|intros [X|X]; discriminate]|].
  unfold riemann_sum. change (Z.to_nat 2) with 2%nat. cbn [seq map DemoSpec.sum fold_right].
  assert (Z0 : forall j, (2 * PI * IZR ((Z.of_nat j ^ 2 - 1) * 0) / 4)%R = 0%R) by (intros j; rewrite Z.mul_0_r; field). rewrite !Z0, cos_0. cbn [INR]. field.
Qed.
