(** Property theorems for polynomial signals (C93) and for the attribute
    vanishing_moments_psi of the built-in wavelets (C94). *)
From Verif Require Import Base BaseLemmas CConv Spec Instances Lengths Dwt DwtProofs Multilevel MultilevelProofs Swt SwtProofs FactsSwt FilterSpec Filters FiltersFacts PRError Tables TablesProofs TablesFacts ExBanks.
From Verif Require Import WavefunSpec MomentSpec PolySpec TableMoments BuiltinMoments PolyData ExMoments.
Open Scope Z_scope.

(** C93 *)
Theorem C93_dwt_interior : forall (C : CRing) fuel (x : list C) w m p,
  wf_bank w -> min_len m <= zlen x -> resources fuel (zlen x) (dec_len w) -> polynomial p x ->
  (forall r, (r < p)%nat -> moment (dec_hi w) r = r0) ->
  exists cA cD, dwt fuel x w m = Ok (cA, cD) /\
    forall k, dec_len w - 1 <= 2 * k + first_pos m (dec_len w) <= zlen x - 1 -> 0 <= k < zlen cD /\ gz cD k = r0.
Proof. exact dwt_interior. Qed.
Print Assumptions C93_dwt_interior.
Example C93_dwt_interior_ex : wf_bank mbank /\ resources 99 (zlen xline) (dec_len mbank) /\ polynomial 2 xline /\
  (forall r, (r < 2)%nat -> moment (dec_hi mbank) r = (0 : Zring)) /\
  dwt (C := Zring) 99 xline mbank ZEROPAD = Ok ([11; 28; 44; 60; 76; 92; 25], [-1; 0; 0; 0; 0; 0; 25]) /\
  dwt (C := Zring) 99 xline mbank PERIODIZATION = Ok ([20; 36; 52; 68; 84; 76], [0; 0; 0; 0; 0; -24]).
Proof. split; [exact mbank_wf|]. split; [split; vm_compute; congruence|]. split; [exact xline_poly|]. split; [exact mbank_moments|]. split; vm_compute; reflexivity. Qed.

Theorem C93_wavedec_interior : forall (C : CRing) fuel (x : list C) w m p level, m <> PERIODIZATION ->
  wf_bank w -> 1 <= zlen x -> 0 <= level -> levels_ok m (dec_len w) (Z.to_nat level) (zlen x) ->
  resources fuel (zlen x) (dec_len w) -> polynomial p x ->
  (forall r, (r < p)%nat -> moment (dec_hi w) r = r0) ->
  exists cA ds, wavedec fuel x w m (Some level) = Ok (cA :: rev ds) /\ length ds = Z.to_nat level /\
    (exists c, length c = p /\ forall k, inside (dec_len w) (zlen x) (Z.to_nat level) k -> gz cA k = peval c k) /\
    forall j k, (j < Z.to_nat level)%nat -> inside (dec_len w) (zlen x) (S j) k ->
      0 <= k < zlen (nth j ds []) /\ gz (nth j ds []) k = r0.
Proof. exact wavedec_interior. Qed.
Print Assumptions C93_wavedec_interior.
Example C93_wavedec_interior_ex : wf_bank mbank /\ levels_ok SYMMETRIC (dec_len mbank) 2 (zlen xline) /\
  inside (dec_len mbank) (zlen xline) 1 1 /\ inside (dec_len mbank) (zlen xline) 2 2 /\ ~ inside (dec_len mbank) (zlen xline) 2 3 /\
  wavedec (C := Zring) 99 xline mbank SYMMETRIC (Some 2) = Ok [[70; 176; 304; 386; 358]; [14; 0; 0; -6; -10]; [2; 0; 0; 0; 0; 0; -2]].
Proof.
  split; [exact mbank_wf|]. split; [intros j Hj; destruct j as [|[|j]]; [vm_compute; congruence|vm_compute; congruence|lia]|].
  split; [vm_compute; split; congruence|]. split; [vm_compute; split; congruence|]. split; [intros (_ & H); vm_compute in H; congruence|]. vm_compute. reflexivity.
Qed.

Theorem C93_constant : forall (C : CRing) fuel (x : list C) w m level a, keeps_constants m ->
  wf_bank w -> 1 <= zlen x -> 0 <= level -> levels_ok m (dec_len w) (Z.to_nat level) (zlen x) ->
  resources fuel (zlen x) (dec_len w) -> (forall i, 0 <= i < zlen x -> gz x i = a) -> moment (dec_hi w) 0 = r0 ->
  exists cA ds, wavedec fuel x w m (Some level) = Ok (cA :: ds) /\ Forall (Forall (eq r0)) ds /\
    forall k, 0 <= k < zlen cA -> gz cA k = powr (moment (dec_lo w) 0) (Z.to_nat level) [*] a.
Proof. exact wavedec_constant. Qed.
Print Assumptions C93_constant.
Example C93_constant_ex : keeps_constants PERIODIZATION /\ keeps_constants REFLECT /\
  wavedec (C := Zring) 99 [7; 7; 7; 7; 7] mbank PERIODIZATION (Some 2) = Ok [[112; 112]; [0; 0]; [0; 0; 0]] /\
  wavedec (C := Zring) 99 [7; 7; 7; 7; 7] mbank REFLECT (Some 1) = Ok [[28; 28; 28; 28]; [0; 0; 0; 0]] /\
  wavedec (C := Zring) 99 [7; 7; 7; 7; 7] mbank ANTISYMMETRIC (Some 1) = Ok [[14; 28; 14; -28]; [-14; 0; -14; 0]].
Proof. split; [split; discriminate|]. split; [split; discriminate|]. repeat split; vm_compute; reflexivity. Qed.

Theorem C93_line : forall (C : CRing) fuel (x : list C) w m level a s, keeps_lines m ->
  wf_bank w -> 1 <= zlen x -> 0 <= level -> levels_ok m (dec_len w) (Z.to_nat level) (zlen x) ->
  resources fuel (zlen x) (dec_len w) -> (forall i, 0 <= i < zlen x -> gz x i = a [+] rz i [*] s) ->
  moment (dec_hi w) 0 = r0 -> moment (dec_hi w) 1 = r0 ->
  exists cA ds a' s', wavedec fuel x w m (Some level) = Ok (cA :: ds) /\ Forall (Forall (eq r0)) ds /\
    forall k, 0 <= k < zlen cA -> gz cA k = a' [+] rz k [*] s'.
Proof. exact wavedec_line. Qed.
Print Assumptions C93_line.
Example C93_line_ex : (forall i, 0 <= i < zlen xline -> gz xline i = @radd Zring 3 (@rmul Zring (rz i) 2)) /\
  wavedec (C := Zring) 99 xline mbank SMOOTH (Some 2) = Ok [[48; 176; 304; 432; 560]; [0; 0; 0; 0; 0]; [0; 0; 0; 0; 0; 0; 0]] /\
  wavedec (C := Zring) 99 xline mbank ANTIREFLECT (Some 1) = Ok [[12; 28; 44; 60; 76; 92; 108]; [0; 0; 0; 0; 0; 0; 0]].
Proof. split; [exact xline_line|]. split; vm_compute; reflexivity. Qed.

Theorem C93_swt_constant : forall (C : CRing) fuel w (x : list C) level st norm a, wf_bank w -> 1 <= zlen x -> 0 <= st -> 1 <= level ->
  (2 ^ (st + level) | zlen x) -> swt_resources fuel (zlen x) (dec_len w) (st + level) ->
  (forall i, 0 <= i < zlen x -> gz x i = a) -> moment (dec_hi w) 0 = r0 ->
  exists ca ds, swt fuel x w (Some level) st true norm = Ok (SArr ca :: map SArr ds) /\ Forall (Forall (eq r0)) ds /\
    forall k, 0 <= k < zlen x -> gz ca k = powr (norm_factor norm [*] moment (dec_lo w) 0) (Z.to_nat level) [*] a.
Proof. exact swt_constant. Qed.
Print Assumptions C93_swt_constant.
Example C93_swt_constant_ex : (2 ^ (0 + 2) | 4) /\
  swt (C := Zring) 99 [5; 5; 5; 5] mbank (Some 2) 0 true None = Ok [SArr [80; 80; 80; 80]; SArr [0; 0; 0; 0]; SArr [0; 0; 0; 0]].
Proof. split; [exists 1; reflexivity|]. vm_compute. reflexivity. Qed.

(** C94. [vanishing]: 10^-60 for haar, db and coif, 3 10^-11 for sym and bior.
    [present]: 10^-10 for haar and db, 10^-7 for sym, 10^-16 for coif, 10^-3
    for bior. *)
Theorem C94_psi : forall fuel name n, uint_range n -> 22 < Z.of_nat fuel -> valid_order name n = true ->
  name <> RBIO -> name <> DMEY ->
  exists w, discrete_wavelet fuel builtin name n = Ok (Some w) /\ 1 <= w_psi w /\
    let h := dec_hi (w_bank w) in
    (forall r, Z.of_nat r < w_psi w -> (qabs (moment h r) [<=] vanishing name [*] moment (map qabs h) r)) /\
    (negb (n =? 55) || match name with BIOR => false | _ => true end = true ->
     ~ (qabs (binomial_moment h (Z.to_nat (w_psi w))) [<=] present name [*] binomial_moment (map qabs h) (Z.to_nat (w_psi w)))).
Proof. exact psi_moments. Qed.
Print Assumptions C94_psi.
Example C94_psi_ex : uint_range 4 /\ valid_order DB 4 = true /\
  exists w, discrete_wavelet 30 builtin DB 4 = Ok (Some w) /\ w_psi w = 4 /\
    let h := dec_hi (w_bank w) in (qabs (moment h 3) [<=] vanishing DB [*] moment (map qabs h) 3).
Proof. exact psi_ex. Qed.

Theorem C94_rbio : forall fuel n, uint_range n -> 22 < Z.of_nat fuel -> valid_order RBIO n = true -> n <> 55 ->
  exists w, discrete_wavelet fuel builtin RBIO n = Ok (Some w) /\ w_psi w = n / 10 /\ w_phi w = n mod 10 /\
    let h := dec_hi (w_bank w) in
    (forall r, Z.of_nat r < w_phi w -> (qabs (moment h r) [<=] ratio 3 (10 ^ 11) [*] moment (map qabs h) r)) /\
    ~ (qabs (binomial_moment h (Z.to_nat (w_phi w))) [<=] ratio 1 (10 ^ 3) [*] binomial_moment (map qabs h) (Z.to_nat (w_phi w))).
Proof. exact rbio_moments. Qed.
Print Assumptions C94_rbio.
Example C94_rbio_ex : uint_range 24 /\ valid_order RBIO 24 = true /\ 24 / 10 = 2 /\ 24 mod 10 = 4.
Proof. repeat split; vm_compute; congruence. Qed.

(** rbio3.1: the attribute is 3, the moment number 1 is not small. *)
Theorem C94_rbio_psi_refuted : exists name n w r, valid_order name n = true /\ discrete_wavelet 30 builtin name n = Ok (Some w) /\
  Z.of_nat r < w_psi w /\
  let h := dec_hi (w_bank w) in ~ (qabs (moment h r) [<=] ratio 1 3 [*] moment (map qabs h) r).
Proof. exact rbio_psi_ex. Qed.
Print Assumptions C94_rbio_psi_refuted.
(** bior5.5: the attribute is 5, the moment number 5 is small as well. *)
Theorem C94_bior55_refuted : exists name n w, valid_order name n = true /\ discrete_wavelet 30 builtin name n = Ok (Some w) /\ w_psi w = 5 /\
  let h := dec_hi (w_bank w) in forall r, (r < 6)%nat -> (qabs (moment h r) [<=] ratio 3 (10 ^ 11) [*] moment (map qabs h) r).
Proof. exact bior55_ex. Qed.
Print Assumptions C94_bior55_refuted.
