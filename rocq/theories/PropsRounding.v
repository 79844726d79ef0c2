(** Property theorems for rounding errors (C100, C101, C102). *)
From Verif Require Import Base BaseLemmas CConv Spec Instances Lengths Dwt DwtProofs Multilevel MultilevelProofs FilterSpec Filters FiltersFacts PRError Tables TablesProofs TablesFacts.
From Verif Require Import CwtReal RawConv HomRing Rounding RoundingBuiltin RoundingMain ExRounding ExRounding2.
From Coq Require Import Reals Lra.
Open Scope R_scope.

(** The arithmetic of the examples is the standard model with 8 or 54 bits. *)
Example C100_arith_ex : val (f := fp_arith 8) (oadd (o := fp_ops 8) (1, 0)%Z (1, -9)%Z) = 1 /\ fu (fp_arith 54) <= / 2 ^ 53.
Proof. split; [|exact fu54]. change (fp_val (128, -7)%Z = 1). unfold fp_val. change (128 * / 2 ^ 7 = 1). field. Qed.

(** dwt: every coefficient has the error of a sum of at most dec_len products. *)
Theorem C100_dwt : forall (fl : flarith) pf px fuel (w : owavelet fl) (b : wavelet Rring) (x : list fl) (X : list Rring) m,
  wf_bank b -> rounded_bank fl pf w b -> copying m = true -> Forall2 (rounded fl px) x X ->
  (min_len m <= zlen X)%Z -> resources fuel (zlen X) (dec_len b) ->
  exists cA cD, o_dwt_single fuel x w m = Ok (cA, cD) /\
    (zlen cA = coeff_len m (zlen X) (dec_len b))%Z /\ zlen cD = zlen cA /\
    forall k, (0 <= k < zlen cA)%Z ->
      Rabs (gz (C := Rring) (map val cA) k - gz (analysis m (dec_lo b) X) k) <=
        conv_bound fl (dec_len b) pf px (gz (analysis (abs_mode m) (absl (dec_lo b)) (absl X)) k) /\
      Rabs (gz (C := Rring) (map val cD) k - gz (analysis m (dec_hi b) X) k) <=
        conv_bound fl (dec_len b) pf px (gz (analysis (abs_mode m) (absl (dec_hi b)) (absl X)) k).
Proof. exact dwt_error. Qed.
Print Assumptions C100_dwt.
Example C100_dwt_ex : wf_bank rb3 /\ rounded_bank (fp_arith 8) 1 w8 rb3 /\ copying ANTISYMMETRIC = true /\
  Forall2 (rounded (fp_arith 8) 0) x8 (map val x8) /\ resources 99 (zlen x8) (dec_len rb3) /\
  o_dwt_single (O := fp_ops 8) 99 x8 w8 ANTISYMMETRIC = Ok ([(169, -8); (0, -7)], [(24, -1); (42, -2)])%Z.
Proof.
  split; [apply pr_wf, rb3_pr|]. split; [exact w8_rounded|]. split; [reflexivity|]. split; [apply RoundingLevels.rounded_0|].
  split; [split; vm_compute; [discriminate|reflexivity]|]. vm_compute. reflexivity.
Qed.
Theorem C100_idwt : forall (fl : flarith) pf px fuel (w : owavelet fl) (b : wavelet Rring) (a d : list fl) (A D : list Rring) m,
  wf_bank b -> rounded_bank fl pf w b -> Forall2 (rounded fl px) a A -> Forall2 (rounded fl px) d D ->
  zlen A = zlen D -> (1 <= zlen A)%Z -> (1 <= rec_len m (zlen A) (dec_len b))%Z -> resources fuel (zlen A) (dec_len b) ->
  exists y, o_idwt_single fuel a d w m = Ok y /\ zlen y = rec_len m (zlen A) (dec_len b) /\
    forall k, (0 <= k < zlen y)%Z ->
      Rabs (gz (C := Rring) (map val y) k - gz (vadd (synthesis m (rec_lo b) A) (synthesis m (rec_hi b) D)) k) <=
      conv_bound fl (dec_len b) pf px (gz (vadd (synthesis m (absl (rec_lo b)) (absl A)) (synthesis m (absl (rec_hi b)) (absl D))) k).
Proof. exact idwt_error. Qed.
Print Assumptions C100_idwt.
Example C100_idwt_ex : Forall2 (rounded (fp_arith 8) 0) (rev x8) (map val (rev x8)) /\ resources 99 (zlen x8) (dec_len rb3) /\
  o_idwt_single (O := fp_ops 8) 99 x8 (rev x8) w8 SMOOTH =
  Ok [(138, -4); (203, -5); (-175, -5); (-224, -6); (221, -5); (230, -6)]%Z.
Proof.
  split; [apply RoundingLevels.rounded_0|]. split; [split; vm_compute; [discriminate|reflexivity]|]. vm_compute. reflexivity.
Qed.
(** wavedec: the coefficients of level j. *)
Theorem C100_wavedec : forall (fl : flarith) pf fuel (w : owavelet fl) (b : wavelet Rring) K B (x : list fl) m level,
  wf_bank b -> rounded_bank fl pf w b -> copying m = true -> 0 <= K -> norm1 (dec_lo b) <= K -> norm1 (dec_hi b) <= K ->
  (1 <= zlen x)%Z -> (forall v, In v x -> Rabs (val v) <= B) -> (0 <= level)%Z -> levels_ok m (dec_len b) (Z.to_nat level) (zlen x) ->
  resources fuel (zlen x) (dec_len b) ->
  let X := map val x : list Rring in let n := Z.to_nat level in
  exists a ds, o_wavedec fuel x w m (Some level) = Ok (a :: rev ds) /\ length ds = n /\
    (zlen a = zlen (approx m (dec_lo b) n X) /\ forall k, (0 <= k < zlen a)%Z ->
      Rabs (gz (C := Rring) (map val a) k - gz (approx m (dec_lo b) n X) k) <= steps_bound fl (dec_len b) pf K B n) /\
    forall j, (j < n)%nat -> let d := nth j ds [] in let D := analysis m (dec_hi b) (approx m (dec_lo b) j X) in
      zlen d = zlen D /\ forall k, (0 <= k < zlen d)%Z ->
        Rabs (gz (C := Rring) (map val d) k - gz D k) <= steps_bound fl (dec_len b) pf K B (S j).
Proof. exact wavedec_error. Qed.
Print Assumptions C100_wavedec.
Example C100_wavedec_ex : norm1 (dec_lo rb3) <= 3 /\ norm1 (dec_hi rb3) <= 3 /\ (forall v, In v x8 -> Rabs (val v) <= 5) /\
  levels_ok SYMMETRIC (dec_len rb3) 2 (zlen x8) /\
  o_wavedec (O := fp_ops 8) 99 x8 w8 SYMMETRIC (Some 2%Z) = Ok [[(252, -8)]; [(-158, -6)]; [(24, -1); (0, -2)]]%Z.
Proof.
  destruct rb3_norm as (N1 & N2 & _). split; [exact N1|]. split; [exact N2|]. split; [exact x8_le|].
  split; [apply levels_ok_intro; cbn; lia|]. vm_compute. reflexivity.
Qed.

(** waverec after wavedec returns the data up to the rounding errors. *)
Theorem C101_round_trip : forall (fl : flarith) pf fuel (w : owavelet fl) (b : wavelet Rring) K B (x : list fl) m level,
  rounded_bank fl pf w b -> pr_wavelet b -> copying m = true -> 1 <= K -> norm1 (dec_lo b) <= K -> norm1 (dec_hi b) <= K ->
  (forall q, taps q (rec_lo b) + taps q (rec_hi b) <= K) ->
  (1 <= zlen x)%Z -> (forall v, In v x -> Rabs (val v) <= B) -> (0 <= level)%Z -> levels_ok m (dec_len b) (Z.to_nat level) (zlen x) ->
  resources fuel (zlen x) (dec_len b) ->
  exists cs y, o_wavedec fuel x w m (Some level) = Ok cs /\ o_waverec fuel cs w m = Ok y /\
    zlen y = (zlen x + (if (0 <? level)%Z && (zlen x mod 2 =? 1)%Z then 1 else 0))%Z /\
    forall i, (0 <= i < zlen x)%Z ->
      Rabs (gz (C := Rring) (map val y) i - gz (C := Rring) (map val x) i) <= steps_bound fl (dec_len b) pf K B (2 * Z.to_nat level).
Proof. exact round_trip_error. Qed.
Print Assumptions C101_round_trip.
Example C101_round_trip_ex : rounded_bank (fp_arith 8) 1 w8 rb3 /\ pr_wavelet rb3 /\
  (forall q, taps q (rec_lo rb3) + taps q (rec_hi rb3) <= 3) /\
  exists cs, o_wavedec (O := fp_ops 8) 99 x8 w8 SYMMETRIC (Some 2%Z) = Ok cs /\
    o_waverec (O := fp_ops 8) 99 cs w8 SYMMETRIC = Ok [(159, -5); (-191, -6); (219, -6); (219, -6)]%Z.
Proof.
  split; [exact w8_rounded|]. split; [exact rb3_pr|]. split; [apply rb3_norm|]. eexists. split; [vm_compute; reflexivity|]. vm_compute. reflexivity.
Qed.

(** idwt after dwt with the built-in wavelets: error of the tables plus rounding. *)
Theorem C102_builtin : forall (fl : flarith) pf fuel name n M (x : list fl) m,
  uint_range n -> (22 < Z.of_nat fuel)%Z -> valid_order name n = true -> copying m = true ->
  (min_len m <= zlen x)%Z -> resources fuel (zlen x) 102 -> (forall v, In v x -> Rabs (val v) <= M) ->
  exists d, discrete_wavelet fuel builtin name n = Ok (Some d) /\
    forall wf, rounded_bank fl pf wf (real_bank (w_bank d)) ->
      exists cA cD y, o_dwt_single fuel x wf m = Ok (cA, cD) /\ o_idwt_single fuel cA cD wf m = Ok y /\
        (zlen y = zlen x + zlen x mod 2)%Z /\
        forall i, (0 <= i < zlen x)%Z ->
          Rabs (gz (C := Rring) (map val y) i - gz (C := Rring) (map val x) i) <=
          q2r (residual name) * M +
          (32 * ((1 + fu fl) ^ (2 * (102 + pf)) - 1) * M + 918 * (1 + fu fl) ^ (2 * (102 + pf)) * feta fl).
Proof. exact builtin_rounding. Qed.
Print Assumptions C102_builtin.
Theorem C102_double : forall (fl : flarith) pf fuel name n M (x : list fl) m,
  fu fl <= / 2 ^ 53 -> (pf <= 2)%nat ->
  uint_range n -> (22 < Z.of_nat fuel)%Z -> valid_order name n = true -> copying m = true ->
  (min_len m <= zlen x)%Z -> resources fuel (zlen x) 102 -> (forall v, In v x -> Rabs (val v) <= M) ->
  exists d, discrete_wavelet fuel builtin name n = Ok (Some d) /\
    forall wf, rounded_bank fl pf wf (real_bank (w_bank d)) ->
      exists cA cD y, o_dwt_single fuel x wf m = Ok (cA, cD) /\ o_idwt_single fuel cA cD wf m = Ok y /\
        (zlen y = zlen x + zlen x mod 2)%Z /\
        forall i, (0 <= i < zlen x)%Z ->
          Rabs (gz (C := Rring) (map val y) i - gz (C := Rring) (map val x) i) <=
          (q2r (residual name) + 2 / 10 ^ 12) * M + 1000 * feta fl.
Proof. exact builtin_rounding_double. Qed.
Print Assumptions C102_double.
Example C102_builtin_ex : valid_order HAAR 0 = true /\ resources 250 (zlen x54) 102 /\ (forall v, In v x54 -> Rabs (val v) <= 5) /\
  (forall d, discrete_wavelet 250 builtin HAAR 0 = Ok (Some d) -> rounded_bank (fp_arith 54) 1 w54 (real_bank (w_bank d))) /\
  exists cA cD, o_dwt_single (O := fp_ops 54) 250 x54 w54 SYMMETRIC = Ok (cA, cD) /\
    o_idwt_single (O := fp_ops 54) 250 cA cD w54 SYMMETRIC =
    Ok [(11258999068426239, -51); (-13510798882111486, -52); (15762598695796734, -52); (15762598695796734, -52)]%Z.
Proof.
  split; [reflexivity|]. split; [split; vm_compute; [discriminate|reflexivity]|]. split; [exact x54_le|]. split; [exact haar_rounded|].
  eexists. eexists. split; [vm_compute; reflexivity|]. vm_compute. reflexivity.
Qed.
