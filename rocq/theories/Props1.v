(** Properties of the one-dimensional transforms (C01-C15, C19, C43, C44, C47,
    C48, C50). *)
From Verif Require Import Base BaseLemmas CConv Spec ExtLemmas Instances DownConv DownPer UpConv Lengths LengthsProofs Dwt DwtProofs PR Linear Multilevel MultilevelProofs Extra1D ExBanks Facts1.
From Coq Require Import QArith Qcanon.
Open Scope Z_scope.

Ltac ex := repeat split; try (vm_compute; congruence); try (intros; vm_compute; congruence).

(** C01 *)
Theorem C01_dwt_lengths : forall (C : CRing) fuel (x : list C) w m,
  wf_bank w -> min_len m <= zlen x -> resources fuel (zlen x) (dec_len w) ->
  exists cA cD, dwt fuel x w m = Ok (cA, cD) /\ zlen cA = zlen cD /\
    zlen cA = (if mode_code m =? 5 then (zlen x + 1) / 2 else (zlen x + dec_len w - 1) / 2) /\
    dwt_coeff_len (zlen x) (dec_len w) m = Ok (zlen cA).
Proof. exact dwt_lengths. Qed.
Print Assumptions C01_dwt_lengths.
Example C01_ex : wf_bank zbank /\ min_len REFLECT <= zlen [3; 1; 4; 1; 5] /\ resources 99 5 (dec_len zbank) /\
  dwt (C := Zring) 99 [3; 1; 4; 1; 5] zbank REFLECT = Ok ([-14; -15; -18; -17], [-10; -10; -12; -12]).
Proof. ex. Qed.

Theorem C01_coeff_len : forall N F m, 1 <= N -> 1 <= F ->
  dwt_coeff_len N F m = Ok (coeff_len m N F).
Proof. exact (fun N F m HN HF => 
  eq_trans (f_equal2 (fun b c : bool => if b then Err ValueError else if c then Err ValueError else Ok (dwt_buffer_length N F m))
     (proj2 (Z.ltb_ge N 1) HN) (proj2 (Z.ltb_ge F 1) HF)) (f_equal Ok (coeff_len_buffer m N F HN HF))). Qed.
Print Assumptions C01_coeff_len.
Example C01_coeff_len_ex : dwt_coeff_len 5 3 PERIODIZATION = Ok 3 /\ dwt_coeff_len 5 3 SMOOTH = Ok 3.
Proof. ex. Qed.

(** C02 *)
Theorem C02_dwt_is_convolution : forall (C : CRing) fuel (x : list C) w m, m <> PERIODIZATION ->
  wf_bank w -> min_len m <= zlen x -> resources fuel (zlen x) (dec_len w) ->
  exists cA cD, dwt fuel x w m = Ok (cA, cD) /\
   forall k, 0 <= k < (zlen x + dec_len w - 1) / 2 ->
    gz cA k = sumZ 0 (dec_len w) (fun j => gz (dec_lo w) j [*] ext m x (2 * k + 1 - j)) /\
    gz cD k = sumZ 0 (dec_len w) (fun j => gz (dec_hi w) j [*] ext m x (2 * k + 1 - j)).
Proof. exact dwt_values. Qed.
Print Assumptions C02_dwt_is_convolution.
Example C02_ex : ANTIREFLECT <> PERIODIZATION /\ wf_bank zbank /\ resources 99 2 (dec_len zbank) /\
  dwt (C := Zring) 99 [3; 5] zbank ANTIREFLECT = Ok ([-17; -45], [-9; -29]) /\
  ext ANTIREFLECT ([3; 5] : list Zring) (-3) = -3.
Proof. ex. Qed.

(** C02, kernel level: any step, any filter length. *)
Theorem C02_kernel : forall (C : CRing) fuel (inp flt out : list C) step m,
  m <> PERIODIZATION -> min_len m <= zlen inp -> 1 <= zlen flt -> 1 <= step ->
  zlen out = (zlen inp + zlen flt - 1) / step -> zlen inp + zlen flt + 4 <= Z.of_nat fuel ->
  downsampling_convolution fuel inp flt out step m =
  Ok (tab ((zlen inp + zlen flt - 1) / step) (fun k => conv flt (ext m inp) (step * k + step - 1))).
Proof. exact downsampling_convolution_spec. Qed.
Print Assumptions C02_kernel.
Example C02_kernel_ex : downsampling_convolution (C := Zring) 20 [1; 2; 3] [1; 10; 100; 1000; 10000] [0; 0] 3 SMOOTH = Ok [-9877; 23456].
Proof. ex. Qed.

(** C03 *)
Theorem C03_dwt_periodization : forall (C : CRing) fuel (x : list C) w,
  wf_bank w -> 1 <= zlen x -> resources fuel (zlen x) (dec_len w) ->
  exists cA cD, dwt fuel x w PERIODIZATION = Ok (cA, cD) /\
   let e n := let r := n mod (zlen x + zlen x mod 2) in if r <? zlen x then gz x r else gz x (zlen x - 1) in
   forall k, 0 <= k < (zlen x + 1) / 2 ->
    gz cA k = sumZ 0 (dec_len w) (fun j => gz (dec_lo w) j [*] e (2 * k + dec_len w / 2 - j)) /\
    gz cD k = sumZ 0 (dec_len w) (fun j => gz (dec_hi w) j [*] e (2 * k + dec_len w / 2 - j)).
Proof. exact dwt_values_per. Qed.
Print Assumptions C03_dwt_periodization.
Example C03_ex : dwt (C := Zring) 99 [3; 1; 4] zbank PERIODIZATION = Ok ([-20; -23], [-15; -16]).
Proof. ex. Qed.

Theorem C03_kernel : forall (C : CRing) fuel (inp flt out : list C) step fstep,
  1 <= zlen inp -> 1 <= zlen flt -> 1 <= step -> 1 <= fstep ->
  let pad := (step - zlen inp mod step) mod step in
  fstep = 1 \/ pad = 0 /\ (fstep | zlen inp) ->
  (forall t, ~ (fstep | t) -> gz flt t = r0) ->
  zlen out = (zlen inp + step - 1) / step ->
  zlen inp + zlen flt + step + fstep + 4 <= Z.of_nat fuel ->
  downsampling_convolution_periodization fuel inp flt out step fstep =
  Ok (tab ((zlen inp + step - 1) / step) (fun k => conv flt (pext pad inp) (step * k + zlen flt / 2))).
Proof. exact downsampling_convolution_periodization_spec. Qed.
Print Assumptions C03_kernel.
Example C03_kernel_ex :
  downsampling_convolution_periodization (C := Zring) 40 [1; 2; 3; 4] [1; 0; 10; 0; 100; 0] [0; 0; 0; 0] 1 2 = Ok [424; 131; 242; 313].
Proof. ex. Qed.

(** C04 *)
Theorem C04_dwt_safe : forall (C : CRing) fuel (x : list C) w m,
  wf_bank w -> resources fuel (zlen x) (dec_len w) -> safe (dwt fuel x w m).
Proof. exact dwt_safe. Qed.
Print Assumptions C04_dwt_safe.
Theorem C04_idwt_safe : forall (C : CRing) fuel (cA cD : option (list C)) w m, wf_bank w ->
  (forall a, cA = Some a -> resources fuel (zlen a) (dec_len w)) ->
  (forall d, cD = Some d -> resources fuel (zlen d) (dec_len w)) ->
  safe (idwt fuel cA cD w m).
Proof. exact idwt_safe. Qed.
Print Assumptions C04_idwt_safe.
Theorem C04_wavedec_safe : forall (C : CRing) fuel (x : list C) w m level,
  wf_bank w -> resources fuel (zlen x) (dec_len w) -> safe (wavedec fuel x w m level).
Proof. exact wavedec_safe. Qed.
Print Assumptions C04_wavedec_safe.
Example C04_ex : safe (dwt (C := Zring) 99 [] zbank SMOOTH) /\ safe (dwt (C := Zring) 99 [1] zbank SMOOTH) /\
  ~ safe (dwt (C := Zring) 2 [1] zbank SMOOTH) /\
  safe (idwt (C := Zring) 99 (Some [1; 2]) None zbank SMOOTH) /\ safe (wavedec (C := Zring) 99 [1; 2; 3] zbank2 REFLECT (Some 3)).
Proof. vm_compute. repeat split. tauto. Qed.

(** C05 *)
Theorem C05_perfect_reconstruction_even : forall (C : CRing) fuel (x : list C) w m,
  zlen x mod 2 = 0 -> pr_wavelet w -> min_len m <= zlen x -> resources fuel (zlen x) (dec_len w) ->
  exists cA cD, dwt fuel x w m = Ok (cA, cD) /\ idwt fuel (Some cA) (Some cD) w m = Ok x.
Proof. exact idwt_dwt_even. Qed.
Print Assumptions C05_perfect_reconstruction_even.
Example C05_ex : pr_wavelet zbank /\ (exists cA cD, dwt (C := Zring) 99 [3; 1; 4; 1] zbank ANTISYMMETRIC = Ok (cA, cD) /\
  idwt 99 (Some cA) (Some cD) zbank ANTISYMMETRIC = Ok [3; 1; 4; 1]).
Proof. split; [exact zbank_pr|]. eexists _, _. (split; [vm_compute; reflexivity|]); repeat split; vm_compute; reflexivity. Qed.

(** C06 *)
Theorem C06_perfect_reconstruction_periodization_odd : forall (C : CRing) fuel (x : list C) w,
  zlen x mod 2 = 1 -> pr_wavelet w -> 1 <= zlen x -> resources fuel (zlen x) (dec_len w) ->
  exists cA cD, dwt fuel x w PERIODIZATION = Ok (cA, cD) /\
    idwt fuel (Some cA) (Some cD) w PERIODIZATION = Ok (x ++ [gz x (zlen x - 1)]).
Proof. exact idwt_dwt_odd_per. Qed.
Print Assumptions C06_perfect_reconstruction_periodization_odd.
Example C06_ex : pr_wavelet zbank /\ (exists cA cD, dwt (C := Zring) 99 [3; 1; 4] zbank PERIODIZATION = Ok (cA, cD) /\
  idwt 99 (Some cA) (Some cD) zbank PERIODIZATION = Ok [3; 1; 4; 4]).
Proof. split; [exact zbank_pr|]. eexists _, _. (split; [vm_compute; reflexivity|]); repeat split; vm_compute; reflexivity. Qed.

(** C07 *)
Theorem C07_perfect_reconstruction_odd : forall (C : CRing) fuel (x : list C) w m,
  zlen x mod 2 = 1 -> pr_wavelet w -> min_len m <= zlen x -> resources fuel (zlen x) (dec_len w) ->
  exists cA cD, dwt fuel x w m = Ok (cA, cD) /\ idwt fuel (Some cA) (Some cD) w m = Ok (x ++ [ext m x (zlen x)]).
Proof. exact idwt_dwt_odd. Qed.
Print Assumptions C07_perfect_reconstruction_odd.
Example C07_ex : pr_wavelet zbank /\ (exists cA cD, dwt (C := Zring) 99 [3; 1; 5] zbank SMOOTH = Ok (cA, cD) /\
  idwt 99 (Some cA) (Some cD) zbank SMOOTH = Ok [3; 1; 5; 9]).
Proof. split; [exact zbank_pr|]. eexists _, _. (split; [vm_compute; reflexivity|]); repeat split; vm_compute; reflexivity. Qed.

(** C08 *)
Theorem C08_dwt_linear : forall (C : CRing) fuel (x y : list C) a b w m, zlen x = zlen y ->
  wf_bank w -> min_len m <= zlen x -> resources fuel (zlen x) (dec_len w) ->
  exists xA xD yA yD, dwt fuel x w m = Ok (xA, xD) /\ dwt fuel y w m = Ok (yA, yD) /\
   dwt fuel (vadd (vscal a x) (vscal b y)) w m =
     Ok (vadd (vscal a xA) (vscal b yA), vadd (vscal a xD) (vscal b yD)).
Proof. exact dwt_linear. Qed.
Print Assumptions C08_dwt_linear.
Theorem C08_idwt_linear : forall (C : CRing) fuel (xA xD yA yD : list C) a b w m,
  wf_bank w -> zlen xA = zlen xD -> zlen yA = zlen xA -> zlen yD = zlen xA -> 1 <= zlen xA ->
  1 <= rec_len m (zlen xA) (dec_len w) -> resources fuel (zlen xA) (dec_len w) ->
  exists x y, idwt fuel (Some xA) (Some xD) w m = Ok x /\ idwt fuel (Some yA) (Some yD) w m = Ok y /\
   idwt fuel (Some (vadd (vscal a xA) (vscal b yA))) (Some (vadd (vscal a xD) (vscal b yD))) w m =
     Ok (vadd (vscal a x) (vscal b y)).
Proof. exact idwt_linear. Qed.
Print Assumptions C08_idwt_linear.
Example C08_ex : dwt (C := Zring) 99 [1; 2; 3] zbank SMOOTH = Ok ([-5; -19; -33], [-2; -12; -22]) /\
  dwt (C := Zring) 99 [10; 20; 30] zbank SMOOTH = Ok ([-50; -190; -330], [-20; -120; -220]) /\
  idwt (C := Zring) 99 (Some [1; 2; 3]) (Some [0; 1; 0]) zbank SMOOTH = Ok [-2; 1; -5; 4].
Proof. ex. Qed.

(** C09 *)
Theorem C09_idwt_missing : forall (C : CRing) fuel (cA cD : list C) w m,
  idwt fuel (Some cA) None w m = idwt fuel (Some cA) (Some (repeat r0 (length cA))) w m /\
  idwt fuel None (Some cD) w m = idwt fuel (Some (repeat r0 (length cD))) (Some cD) w m /\
  idwt (C := C) fuel None None w m = Err ValueError /\
  (zlen cA <> zlen cD -> idwt fuel (Some cA) (Some cD) w m = Err ValueError).
Proof. exact (fun C fuel cA cD w m => conj eq_refl (conj eq_refl (conj eq_refl (idwt_single_mismatch C fuel cA cD w m)))). Qed.
Print Assumptions C09_idwt_missing.
Theorem C09_idwt_split : forall (C : CRing) fuel (cA cD : list C) w m,
  wf_bank w -> zlen cA = zlen cD -> 1 <= zlen cA -> 1 <= rec_len m (zlen cA) (dec_len w) ->
  resources fuel (zlen cA) (dec_len w) ->
  exists a d, idwt fuel (Some cA) None w m = Ok a /\ idwt fuel None (Some cD) w m = Ok d /\
    idwt fuel (Some cA) (Some cD) w m = Ok (vadd a d) /\ zlen a = zlen d.
Proof. exact idwt_split. Qed.
Print Assumptions C09_idwt_split.
Example C09_ex : 1 <= rec_len SMOOTH (zlen [1; 2; 3]) (dec_len zbank) /\
  idwt (C := Zring) 99 (Some [1; 2; 3]) None zbank SMOOTH = Ok [-4; 3; -7; 5] /\
  idwt (C := Zring) 99 (Some [1; 2; 3]) (Some [1; 2]) zbank SMOOTH = Err ValueError.
Proof. ex. Qed.

(** C10 *)
Theorem C10_downcoef_wavedec : forall (C : CRing) fuel (x : list C) w m level,
  wf_bank w -> 1 <= zlen x -> 1 <= level -> levels_ok m (dec_len w) (Z.to_nat level) (zlen x) ->
  resources fuel (zlen x) (dec_len w) ->
  exists cA cD rest, wavedec fuel x w m (Some level) = Ok (cA :: cD :: rest) /\
    downcoef fuel true x w m level = Ok cA /\ downcoef fuel false x w m level = Ok cD.
Proof. exact downcoef_wavedec. Qed.
Print Assumptions C10_downcoef_wavedec.
Theorem C10_downcoef_iterated : forall (C : CRing) fuel b (x : list C) w m level,
  wf_bank w -> 1 <= zlen x -> 1 <= level -> levels_ok m (dec_len w) (Z.to_nat level) (zlen x) ->
  resources fuel (zlen x) (dec_len w) ->
  downcoef fuel b x w m level =
    Ok (analysis m (if b then dec_lo w else dec_hi w) (approx m (dec_lo w) (Z.to_nat (level - 1)) x)).
Proof. exact downcoef_spec. Qed.
Print Assumptions C10_downcoef_iterated.
Theorem C10_downcoef_level : forall (C : CRing) fuel b (x : list C) w m level,
  level < 1 -> downcoef fuel b x w m level = Err ValueError.
Proof. exact downcoef_level. Qed.
Print Assumptions C10_downcoef_level.
Example C10_ex : levels_ok REFLECT 4 2 3 /\
  downcoef (C := Zring) 99 false [1; 2; 3] zbank REFLECT 2 = Ok [71; 71; 71] /\
  wavedec (C := Zring) 99 [1; 2; 3] zbank REFLECT (Some 2) = Ok [[99; 99; 99]; [71; 71; 71]; [-10; -10; -10]].
Proof. split; [|vm_compute; split; reflexivity]. intros [|[|[|j]]] Hj; vm_compute; try congruence; lia. Qed.

(** C11 *)
Theorem C11_upcoef : forall (C : CRing) fuel (b : bool) (c : list C) w level,
  wf_bank w -> 1 <= zlen c -> 1 <= level ->
  let L := Z.to_nat level in
  full_len (dec_len w) L (zlen c) + 16 <= Z.of_nat fuel -> full_len (dec_len w) L (zlen c) < max_alloc ->
  upcoef fuel b c w level 0 =
    Ok (full_approx (rec_lo w) (Z.to_nat (level - 1)) (full_synthesis (if b then rec_lo w else rec_hi w) c)).
Proof. exact upcoef_spec. Qed.
Print Assumptions C11_upcoef.
Theorem C11_upcoef_take : forall (C : CRing) fuel (b : bool) (c out : list C) w level take,
  upcoef fuel b c w level 0 = Ok out ->
  upcoef fuel b c w level take =
    Ok (if (0 <? take) && (take <? zlen out)
        then tab take (fun i => gz out (i + (zlen out - take) / 2)) else out).
Proof. exact upcoef_take. Qed.
Print Assumptions C11_upcoef_take.
Theorem C11_idwt_interior : forall (C : CRing) fuel (cA cD : list C) w m, m <> PERIODIZATION ->
  wf_bank w -> zlen cA = zlen cD -> 1 <= zlen cA -> dec_len w < 2 * zlen cA + 2 ->
  resources fuel (zlen cA) (dec_len w) -> 2 * zlen cA + dec_len w + 14 <= Z.of_nat fuel ->
  exists ua ud y, upcoef fuel true cA w 1 0 = Ok ua /\ upcoef fuel false cD w 1 0 = Ok ud /\
    idwt fuel (Some cA) (Some cD) w m = Ok y /\
    zlen ua = 2 * zlen cA + dec_len w - 2 /\ zlen ud = zlen ua /\ zlen y = 2 * zlen cA - dec_len w + 2 /\
    forall n, 0 <= n < zlen y -> gz y n = gz ua (n + dec_len w - 2) [+] gz ud (n + dec_len w - 2).
Proof. exact idwt_upcoef. Qed.
Print Assumptions C11_idwt_interior.
Example C11_ex : upcoef (C := Zring) 99 true [1; 2; 3] zbank 1 0 = Ok [-1; 1; -4; 3; -7; 5; -6; 3] /\
  idwt (C := Zring) 99 (Some [1; 2; 3]) None zbank SMOOTH = Ok [-4; 3; -7; 5] /\
  upcoef (C := Zring) 99 true [1; 2; 3] zbank 1 5 = Ok [1; -4; 3; -7; 5].
Proof. ex. Qed.

(** C12 *)
Theorem C12_waverec_wavedec : forall (C : CRing) fuel (x : list C) w m level,
  pr_wavelet w -> 1 <= zlen x -> 0 <= level -> levels_ok m (dec_len w) (Z.to_nat level) (zlen x) ->
  resources fuel (zlen x) (dec_len w) ->
  exists cs y, wavedec fuel x w m (Some level) = Ok cs /\ waverec fuel (map Some cs) w m = Ok (Some y) /\
    firstn (length x) y = x /\
    zlen y = zlen x + (if (0 <? level) && (zlen x mod 2 =? 1) then 1 else 0).
Proof. exact waverec_wavedec_full. Qed.
Print Assumptions C12_waverec_wavedec.
(** When the hypothesis levels_ok holds, and what happens when it does not. *)
Theorem C12_levels : forall m F n N, 2 <= F -> min_len m <= N -> (min_len m = 1 \/ 4 <= F) -> levels_ok m F n N.
Proof. exact levels_ok_intro. Qed.
Print Assumptions C12_levels.
Theorem C12_too_short : forall (C : CRing) fuel (x : list C) w m level,
  wf_bank w -> 1 <= zlen x -> 0 <= level -> ~ levels_ok m (dec_len w) (Z.to_nat level) (zlen x) ->
  resources fuel (zlen x) (dec_len w) -> wavedec fuel x w m (Some level) = Err ValueError.
Proof. exact wavedec_fail. Qed.
Print Assumptions C12_too_short.
Example C12_ex : exists cs, wavedec (C := Zring) 99 [3; 1; 4; 1; 5] zbank SYMMETRIC (Some 6) = Ok cs /\
  waverec 99 (map Some cs) zbank SYMMETRIC = Ok (Some [3; 1; 4; 1; 5; 5]).
Proof. eexists. (split; [vm_compute; reflexivity|]); repeat split; vm_compute; reflexivity. Qed.

(** C13 *)
Theorem C13_wavedec_structure : forall (C : CRing) fuel (x : list C) w m level,
  wf_bank w -> 1 <= zlen x -> 0 <= level -> levels_ok m (dec_len w) (Z.to_nat level) (zlen x) ->
  resources fuel (zlen x) (dec_len w) ->
  exists cA ds, wavedec fuel x w m (Some level) = Ok (cA :: rev ds) /\
    length ds = Z.to_nat level /\
    cA = approx m (dec_lo w) (Z.to_nat level) x /\
    zlen cA = approx_len m (dec_len w) (Z.to_nat level) (zlen x) /\
    forall j, (j < Z.to_nat level)%nat ->
      nth j ds [] = analysis m (dec_hi w) (approx m (dec_lo w) j x) /\
      zlen (nth j ds []) = approx_len m (dec_len w) (S j) (zlen x).
Proof. exact wavedec_structure. Qed.
Print Assumptions C13_wavedec_structure.
Theorem C13_wavedec_default_level : forall (C : CRing) fuel (x : list C) w m,
  wavedec fuel x w m None = wavedec fuel x w m (Some (dwt_max_level_c (zlen x) (dec_len w))).
Proof. exact wavedec_default. Qed.
Print Assumptions C13_wavedec_default_level.
Theorem C13_wavedec_negative : forall (C : CRing) fuel (x : list C) w m level,
  level < 0 -> wavedec fuel x w m (Some level) = Err ValueError.
Proof. exact wavedec_negative. Qed.
Print Assumptions C13_wavedec_negative.
Example C13_ex : wavedec (C := Zring) 99 [1; 2; 3; 4; 5; 6; 7; 8] zbank2 PERIODIZATION None =
  Ok [[153]; [90]; [16; 40]; [3; 7; 11; 15]].
Proof. ex. Qed.

(** C14 *)
Theorem C14_dwt_max_level : forall N F, 2 <= F -> F - 1 <= N ->
  0 <= dwt_max_level_c N F /\
  forall L, 0 <= L -> ((F - 1) * 2 ^ L <= N <-> L <= dwt_max_level_c N F).
Proof. exact dwt_max_level_largest. Qed.
Print Assumptions C14_dwt_max_level.
Theorem C14_dwt_max_level_zero : forall N F, F < 2 \/ N < F - 1 -> dwt_max_level_c N F = 0.
Proof. exact dwt_max_level_zero. Qed.
Print Assumptions C14_dwt_max_level_zero.
Theorem C14_dwt_max_level_mono : forall N N' F F', 2 <= F' <= F -> N <= N' ->
  dwt_max_level_c N F <= dwt_max_level_c N' F'.
Proof. exact dwt_max_level_mono. Qed.
Print Assumptions C14_dwt_max_level_mono.
Example C14_ex : dwt_max_level_c 1000 8 = 7 /\ 7 * 2 ^ 7 <= 1000 /\ 1000 < 7 * 2 ^ 8.
Proof. ex. Qed.

(** C15 (the level guards of swt are in PropsSwt.v) *)
Theorem C15_swt_max_level : forall N, 1 <= N ->
  exists j, swt_max_level_c N = Ok j /\ 0 <= j /\ (2 ^ j | N) /\ ~ (2 ^ (j + 1) | N).
Proof. exact swt_max_level_spec. Qed.
Print Assumptions C15_swt_max_level.
Example C15_ex : swt_max_level_c 48 = Ok 4 /\ swt_max_level_c 7 = Ok 0.
Proof. ex. Qed.

(** C19 (first half; the swt half is in PropsSwt.v) *)
Theorem C19_dwt_energy : forall (C : CRing) fuel (x : list C) w, zlen x mod 2 = 0 ->
  orthonormal w -> 2 <= zlen x -> resources fuel (zlen x) (dec_len w) ->
  exists cA cD, dwt fuel x w PERIODIZATION = Ok (cA, cD) /\
    sumZ 0 (zlen cA) (fun i => gz cA i [*] gz cA i) [+] sumZ 0 (zlen cD) (fun i => gz cD i [*] gz cD i) =
    sumZ 0 (zlen x) (fun i => gz x i [*] gz x i).
Proof. exact dwt_energy. Qed.
Print Assumptions C19_dwt_energy.
Example C19_ex : orthonormal qbank /\
  exists cA cD, dwt 99 [qc 1 1; qc 2 1; qc 0 1; qc 5 1] qbank PERIODIZATION = Ok (cA, cD) /\
   map this cA = [172 # 65; 187 # 65]%Q /\ map this cD = [(-41) # 65; (-246) # 65]%Q.
Proof. split; [exact (conj qbank_pr (conj eq_refl eq_refl))|]. eexists _, _. repeat (split; [vm_compute; reflexivity|]); repeat split; vm_compute; reflexivity. Qed.

(** C43: dwt and wavedec terminate (C04 above); downcoef does not. *)
Theorem C43_downcoef_diverges_refuted :
  exists (x : list Zring) w m level, wf_bank w /\ 1 <= zlen x /\ 1 <= level /\
    forall fuel b, downcoef fuel b x w m level = Fuel.
Proof. exact (ex_intro _ [7] (ex_intro _ zbank2 (ex_intro _ REFLECT (ex_intro _ 1
  (conj (pr_wf _ zbank2_pr) (conj (Z.le_refl 1) (conj (Z.le_refl 1)
    (fun fuel b => downcoef_diverges Zring fuel b [7] zbank2 REFLECT 1 (or_introl eq_refl) eq_refl (pr_wf _ zbank2_pr) (Z.le_refl 1) eq_refl)))))))). Qed.
Print Assumptions C43_downcoef_diverges_refuted.
Theorem C43_downcoef_diverges : forall (C : CRing) fuel b (x : list C) w m level,
  wf_bank w -> 1 <= zlen x -> 1 <= level -> ~ levels_ok m (dec_len w) (Z.to_nat level) (zlen x) ->
  resources fuel (zlen x) (dec_len w) -> downcoef fuel b x w m level = Fuel.
Proof. exact downcoef_diverges_level. Qed.
Print Assumptions C43_downcoef_diverges.
Theorem C43_downcoef_terminates_partial : forall (C : CRing) fuel b (x : list C) w m level,
  wf_bank w -> 1 <= zlen x -> 1 <= level -> levels_ok m (dec_len w) (Z.to_nat level) (zlen x) ->
  resources fuel (zlen x) (dec_len w) ->
  downcoef fuel b x w m level =
    Ok (analysis m (if b then dec_lo w else dec_hi w) (approx m (dec_lo w) (Z.to_nat (level - 1)) x)).
Proof. exact downcoef_spec. Qed.
Print Assumptions C43_downcoef_terminates_partial.
Example C43_ex : downcoef (C := Zring) 1000 true [1; 2] zbank2 REFLECT 2 = Fuel /\ 
  downcoef (C := Zring) 1000 true [1; 2] zbank2 REFLECT 1 = Ok [5].
Proof. ex. Qed.

(** C44 *)
Theorem C44_idwt_short : forall (C : CRing) fuel (cA cD : list C) w m,
  zlen cA = zlen cD -> rec_len m (zlen cA) (rec_flen w) < 1 -> rec_flen w < max_alloc ->
  idwt fuel (Some cA) (Some cD) w m = Err ValueError \/ idwt fuel (Some cA) (Some cD) w m = Err MemoryError.
Proof. exact idwt_short. Qed.
Print Assumptions C44_idwt_short.
Example C44_ex : idwt (C := Zring) 99 (Some [1]) (Some [1]) zbank SMOOTH = Err ValueError /\
  idwt (C := Zring) 99 (Some []) (Some []) zbank SMOOTH = Err MemoryError.
Proof. ex. Qed.

(** C47 *)
Theorem C47_dwt_roll : forall (C : CRing) fuel (x : list C) w s, zlen x mod 2 = 0 ->
  wf_bank w -> 1 <= zlen x -> resources fuel (zlen x) (dec_len w) ->
  exists cA cD, dwt fuel x w PERIODIZATION = Ok (cA, cD) /\
    dwt fuel (roll (2 * s) x) w PERIODIZATION = Ok (roll s cA, roll s cD).
Proof. exact dwt_roll. Qed.
Print Assumptions C47_dwt_roll.
Example C47_ex : roll 2 ([1; 2; 3; 4] : list Zring) = [3; 4; 1; 2] /\
  dwt (C := Zring) 99 [1; 2; 5; 4] zbank PERIODIZATION = Ok ([-20; -22], [-13; -17]) /\
  dwt (C := Zring) 99 [5; 4; 1; 2] zbank PERIODIZATION = Ok ([-22; -20], [-17; -13]).
Proof. ex. Qed.

(** C48 *)
Theorem C48_idwt_length : forall (C : CRing) fuel (cA cD : list C) w m,
  wf_bank w -> zlen cA = zlen cD -> 1 <= zlen cA -> 1 <= rec_len m (zlen cA) (dec_len w) ->
  resources fuel (zlen cA) (dec_len w) ->
  exists y, idwt fuel (Some cA) (Some cD) w m = Ok y /\
    zlen y = (if mode_code m =? 5 then 2 * zlen cA else 2 * zlen cA - dec_len w + 2).
Proof. exact idwt_len. Qed.
Print Assumptions C48_idwt_length.
Theorem C48_idwt_dwt_length : forall (C : CRing) fuel (x : list C) w m,
  wf_bank w -> min_len m <= zlen x -> resources fuel (zlen x) (dec_len w) ->
  exists cA cD y, dwt fuel x w m = Ok (cA, cD) /\ idwt fuel (Some cA) (Some cD) w m = Ok y /\
    zlen y = zlen x + zlen x mod 2.
Proof. exact idwt_dwt_len. Qed.
Print Assumptions C48_idwt_dwt_length.
Example C48_ex : exists y, idwt (C := Zring) 99 (Some [1; 2; 3]) (Some [1; 1; 1]) zbank PERIODIC = Ok y /\ zlen y = 4.
Proof. eexists. (split; [vm_compute; reflexivity|]); repeat split; vm_compute; reflexivity. Qed.

(** C50 *)
Theorem C50_dwt_complex : forall (C : CRing) fuel (x : list (Cplx C)) (w : wavelet C) m,
  wf_bank w -> min_len m <= zlen x -> resources fuel (zlen x) (dec_len w) ->
  exists rA rD iA iD,
    dwt fuel (re_l C x) w m = Ok (rA, rD) /\ dwt fuel (im_l C x) w m = Ok (iA, iD) /\
    dwt fuel x (cwave C w) m = Ok (cjoin C rA iA, cjoin C rD iD).
Proof. exact dwt_complex. Qed.
Print Assumptions C50_dwt_complex.
Theorem C50_idwt_complex : forall (C : CRing) fuel (cA cD : list (Cplx C)) (w : wavelet C) m,
  wf_bank w -> zlen cA = zlen cD -> 1 <= zlen cA -> 1 <= rec_len m (zlen cA) (dec_len w) ->
  resources fuel (zlen cA) (dec_len w) ->
  exists r i,
    idwt fuel (Some (re_l C cA)) (Some (re_l C cD)) w m = Ok r /\
    idwt fuel (Some (im_l C cA)) (Some (im_l C cD)) w m = Ok i /\
    idwt fuel (Some cA) (Some cD) (cwave C w) m = Ok (cjoin C r i).
Proof. exact idwt_complex. Qed.
Print Assumptions C50_idwt_complex.
Example C50_ex : dwt (C := Cplx Zring) 99 [(1, 2); (3, -1)] (cwave Zring zbank2) SYMMETRIC = Ok ([(7, 0)], [(4, 1)]).
Proof. ex. Qed.
