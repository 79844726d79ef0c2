(** C107: the test signals of demo_signal. [tcount n] is the number of samples of
    np.arange(1/n, 1 + 1/n, 1/n), [hcount n] that of np.arange(1.001, n + .001 + 1). *)
From Coq Require Import String QArith ZArith List Reals Lia Lra.
Import ListNotations.
From Verif Require Import Base CConv Dwt Names Demo DemoSpec DemoProofs DemoMain DemoFloat Demo64.
Open Scope list_scope. Open Scope Z_scope.

Theorem C107_length_partial : forall (tcount hcount : Z -> Z) s n, known s -> ~ fixed_length s -> 1 <= n -> n <= tcount n -> hcount n = n -> length_ok s n (tcount n) ->
  exists f, demo_signal tcount hcount s (Some n) = Ok (DReal f) /\ (off_grid s -> zlen f = n) /\ (~ off_grid s -> zlen f = tcount n).
Proof. exact demo_length. Qed.
Print Assumptions C107_length_partial.
Example C107_length_partial_ex : known "mishMASH" /\ ~ fixed_length "Piece-Regular" /\ off_grid "Piece-Regular" /\ length_ok "Piece-Regular" 12 12 /\ length_ok "Riemann" 5 5 /\ length_ok "Chirps" 11 11.
Proof.
  split; [exists "MishMash"%string; cbn; tauto|]. split; [intros [E|E]; discriminate|]. split; [cbn; tauto|].
  split; [split; [discriminate|split; [discriminate|intros _ (q & E); lia]]|].
  split; [split; [discriminate|split; [intros _; exists 2; lia|intros [E|E]; discriminate]]|].
  split; [intros _; right; lia|split; [discriminate|intros [E|E]; discriminate]].
Qed.
(** The lengths left out are errors. *)
Theorem C107_length_bad : forall (tcount hcount : Z -> Z) s n, 1 <= n -> n <= tcount n -> ~ length_ok s n (tcount n) -> exists e, demo_signal tcount hcount s (Some n) = Err e.
Proof. exact demo_length_bad. Qed.
Print Assumptions C107_length_bad.
Example C107_length_bad_ex : 1 <= 10 /\ ~ length_ok "Piece-Regular" 10 10.
Proof. split; [lia|]. intros (_ & _ & H). apply H; [left; reflexivity|exists 2; reflexivity]. Qed.
Theorem C107_lengths_refuted : exists n, demo_signal (fun n => n) (fun n => n) "Chirps" (Some n) = Err ValueError /\
  demo_signal (fun n => n) (fun n => n) "Piece-Regular" (Some n) = Err ValueError /\ demo_signal (fun n => n) (fun n => n) "Piece-Polynomial" (Some n) = Err ValueError.
Proof. exact lengths_bad. Qed.
Print Assumptions C107_lengths_refuted.
Theorem C107_riemann_refuted : exists n, 1 <= n /\ demo_signal (fun n => n) (fun n => n) "Riemann" (Some n) = Err IndexError.
Proof. exact riemann_bad_ex. Qed.
Print Assumptions C107_riemann_refuted.

Theorem C107_list : forall (tcount hcount : Z -> Z) s n, lower s = "list"%string -> demo_signal tcount hcount s n = Ok (DNames available).
Proof. exact demo_list. Qed.
Print Assumptions C107_list.
Example C107_list_ex : lower "List" = "list"%string /\ In "Blocks"%string available.
Proof. split; [reflexivity|cbn; tauto]. Qed.
(** Requests that cannot be met. *)
Theorem C107_requests : forall (tcount hcount : Z -> Z) s n, lower s <> "list"%string ->
  (~ known s -> demo_signal tcount hcount s n = Err ValueError) /\
  (fixed_length s <-> demo_signal tcount hcount s None <> Err ValueError) /\
  (fixed_length s -> n <> None -> demo_signal tcount hcount s n = Err ValueError) /\
  (forall m, n = Some m -> m < 1 -> demo_signal tcount hcount s n = Err ValueError).
Proof. exact demo_requests. Qed.
Print Assumptions C107_requests.
Example C107_requests_ex : ~ known "Wiggles" /\ fixed_length "gaBOR" /\ lower "LIST" = "list"%string.
Proof. split; [rewrite known_lower; cbn; intuition discriminate|]. split; [left|]; reflexivity. Qed.
Theorem C107_fixed_lengths : forall (tcount hcount : Z -> Z) s,
  (lower s = "gabor"%string -> exists f, demo_signal tcount hcount s None = Ok (DComplex f) /\ zlen f = 512) /\
  (lower s = "sineoneoverx"%string -> exists f, demo_signal tcount hcount s None = Ok (DReal (map Some f)) /\ zlen f = 1024).
Proof. exact demo_fixed. Qed.
Print Assumptions C107_fixed_lengths.
Theorem C107_case_insensitive : forall (tcount hcount : Z -> Z) s s' n, lower s = lower s' -> demo_signal tcount hcount s n = demo_signal tcount hcount s' n.
Proof. exact demo_case. Qed.
Print Assumptions C107_case_insensitive.
Example C107_case_insensitive_ex : lower "PIECE-regular" = lower "Piece-Regular" /\ lower "Gabor" = "gabor"%string /\ forall n, demo_signal tcount64 hcount64 "LiSt" n = Ok (DNames available).
Proof. repeat split. Qed.

(** In double precision. *)
Theorem C107_length64_partial : forall s n, known s -> ~ fixed_length s -> 1 <= n <= 2 ^ 49 -> (lower s = "hypchirps"%string -> hcount64 n = n) -> length_ok s n n ->
  exists f, demo_signal tcount64 hcount64 s (Some n) = Ok (DReal f) /\ n <= zlen f <= n + 1 /\ (off_grid s -> zlen f = n).
Proof. exact ds64_length. Qed.
Print Assumptions C107_length64_partial.
Theorem C107_powers_of_two : forall s k, known s -> ~ fixed_length s -> ~ off_grid s -> lower s <> "riemann"%string -> 0 <= k <= 45 ->
  exists f, demo_signal tcount64 hcount64 s (Some (2 ^ k)) = Ok (DReal f) /\ zlen f = 2 ^ k.
Proof. exact ds64_pow2. Qed.
Print Assumptions C107_powers_of_two.
Theorem C107_hypchirps64 : forall n, 1 <= n <= 2 ^ 49 -> n <= hcount64 n <= n + 1.
Proof. exact hcount64_bounds. Qed.
Print Assumptions C107_hypchirps64.
Example C107_length64_ex : hcount64 512 = 512 /\ hcount64 2047 = 2048 /\ tcount64 48 = 48 /\ tcount64 103 = 104 /\ ~ off_grid "WernerSorrows" /\ known "WernerSorrows".
Proof. split; [|split; [|split; [|split]]]; try (vm_compute; reflexivity). split; [cbn; intuition discriminate|exists "WernerSorrows"%string; cbn; tauto]. Qed.
(** A sample too many, an error, a sample that is not a number. *)
Theorem C107_extra_sample_refuted : exists n f, demo_signal tcount64 hcount64 "Blocks" (Some n) = Ok (DReal f) /\ zlen f = n + 1.
Proof. exact ds64_extra. Qed.
Print Assumptions C107_extra_sample_refuted.
Theorem C107_hypchirps_refuted : exists n, 1 <= n /\ demo_signal tcount64 hcount64 "HypChirps" (Some n) = Err ValueError.
Proof. exact ds64_hypchirps. Qed.
Print Assumptions C107_hypchirps_refuted.
Theorem C107_doppler_nan_refuted : exists n f, demo_signal tcount64 hcount64 "Doppler" (Some n) = Ok (DReal f) /\ In None f.
Proof. exact ds64_nan. Qed.
Print Assumptions C107_doppler_nan_refuted.
Theorem C107_chirps_nan_refuted : forall tcount hcount, exists f, demo_signal tcount hcount "Chirps" (Some 8) = Ok (DReal f) /\ In None f.
Proof. exact chirps8_nan. Qed.
Print Assumptions C107_chirps_nan_refuted.

(** Values. *)
Theorem C107_zero_mean : forall (tcount hcount : Z -> Z) s n f, lower s = "piece-regular"%string \/ lower s = "piece-polynomial"%string -> n <= tcount n ->
  demo_signal tcount hcount s (Some n) = Ok (DReal f) -> exists g, f = map Some g /\ DemoSpec.sum g = 0%R.
Proof. exact demo_zero_mean. Qed.
Print Assumptions C107_zero_mean.
Theorem C107_blocks : forall (tcount hcount : Z -> Z) s n, lower s = "blocks"%string -> 1 <= n -> 0 <= tcount n ->
  exists f, demo_signal tcount hcount s (Some n) = Ok (DReal f) /\ sampled f n (tcount n) (fun t => DemoSpec.sum (map (fun '(p, h) => step t p h) steps)).
Proof. exact demo_blocks. Qed.
Print Assumptions C107_blocks.
Theorem C107_ramp : forall (tcount hcount : Z -> Z) s n, lower s = "ramp"%string -> 1 <= n -> 0 <= tcount n ->
  exists f g, demo_signal tcount hcount s (Some n) = Ok (DReal f) /\ sampled f n (tcount n) g /\ forall t : R, (t < 0.37 -> g t = t)%R /\ (0.37 <= t -> g t = t - 1)%R.
Proof. exact demo_ramp. Qed.
Print Assumptions C107_ramp.
Theorem C107_heavisine : forall (tcount hcount : Z -> Z) s n, lower s = "heavisine"%string -> 1 <= n -> 0 <= tcount n ->
  exists f g, demo_signal tcount hcount s (Some n) = Ok (DReal f) /\ sampled f n (tcount n) g /\
    forall t : R, (t < 0.3 \/ 0.72 < t -> g t = 4 * sin (4 * PI * t))%R /\ (0.3 < t < 0.72 -> g t = 4 * sin (4 * PI * t) - 2)%R.
Proof. exact demo_heavisine. Qed.
Print Assumptions C107_heavisine.
Theorem C107_sines : forall (tcount hcount : Z -> Z) s n, In (lower s) ["hisine"; "losine"; "linchirp"; "quadchirp"]%string -> 1 <= n -> 0 <= tcount n ->
  exists f g, demo_signal tcount hcount s (Some n) = Ok (DReal f) /\ sampled f n (tcount n) g /\ forall t : R, (-1 <= g t <= 1)%R.
Proof. exact demo_sines. Qed.
Print Assumptions C107_sines.
Theorem C107_doppler : forall (tcount hcount : Z -> Z) s n f, lower s = "doppler"%string -> 1 <= n -> tcount n <= n -> demo_signal tcount hcount s (Some n) = Ok (DReal f) ->
  forall x, In x f -> exists v, x = Some v /\ (- (1 / 2) <= v <= 1 / 2)%R.
Proof. exact demo_doppler. Qed.
Print Assumptions C107_doppler.
Theorem C107_linchirps : forall (tcount hcount : Z -> Z) s n f, lower s = "linchirps"%string -> 1 <= n -> demo_signal tcount hcount s (Some n) = Ok (DReal f) ->
  forall x, In x f -> exists v, x = Some v /\ (-1 <= v <= 1)%R.
Proof. exact demo_linchirps. Qed.
Print Assumptions C107_linchirps.
(** The samples of the ramp at 1/4, 2/4, 3/4 and 4/4. *)
Example C107_values_ex : exists f g, demo_signal (fun n => n) (fun n => n) "Ramp" (Some 4) = Ok (DReal f) /\ sampled f 4 4 g /\ g (1 / 4)%R = (1 / 4)%R /\ g (2 / 4)%R = (- 1 / 2)%R.
Proof.
  destruct (demo_ramp (fun n => n) (fun n => n) "Ramp" 4 eq_refl ltac:(lia) ltac:(lia)) as (f & g & E & S & G). exists f, g. split; auto. split; auto.
  split; [apply G|rewrite (proj2 (G (2 / 4)%R))]; lra.
Qed.
