(** Properties of the one-dimensional stationary transform (C15-C20, C53-C55). *)
From Verif Require Import Base BaseLemmas CConv Spec Instances Lengths LengthsProofs Dwt DwtProofs Linear Swt SwtSpec SwtProofs Facts1 FactsSwt ExBanks ExBanks2.
From Coq Require Import QArith Qcanon.
Open Scope Z_scope.

Ltac ex := repeat split; try (vm_compute; congruence); try (intros; vm_compute; congruence).

(** C15, the level guards. *)
Theorem C15_swt_guard : forall (C : CRing) fuel w (x : list C) level s trim norm,
  wf_bank w -> 0 <= s -> swt_resources fuel (zlen x) (dec_len w) (Z.max 1 (s + level)) ->
  ((exists r, swt fuel x w (Some level) s trim norm = Ok r) <-> (1 <= zlen x /\ 1 <= level /\ (2 ^ (s + level) | zlen x))) /\
  (~ (1 <= zlen x /\ 1 <= level /\ (2 ^ (s + level) | zlen x)) -> swt fuel x w (Some level) s trim norm = Err ValueError).
Proof. exact swt_guard. Qed.
Print Assumptions C15_swt_guard.
Example C15_swt_guard_ex : wf_bank zbank2 /\ swt_resources 99 12 (dec_len zbank2) 3 /\
  (exists r, swt (C := Zring) 99 [1; 2; 3; 4; 5; 6; 7; 8; 9; 10; 11; 12] zbank2 (Some 1) 1 true None = Ok r) /\
  swt (C := Zring) 99 [1; 2; 3; 4; 5; 6; 7; 8; 9; 10; 11; 12] zbank2 (Some 2) 1 true None = Err ValueError.
Proof. ex. eexists. vm_compute. reflexivity. Qed.

Theorem C15_swt_default : forall (C : CRing) fuel w (x : list C) trim norm j, swt_max_level (zlen x) = Ok j ->
  swt fuel x w None 0 trim norm = swt fuel x w (Some j) 0 trim norm.
Proof. exact swt_default. Qed.
Print Assumptions C15_swt_default.
Example C15_swt_default_ex : swt_max_level (zlen [3; 1; 4; 1]) = Ok 2 /\
  swt (C := Zring) 99 [3; 1; 4; 1] zbank2 None 0 true None = Ok [SArr [17; 23; 16; 25]; SArr [11; 16; 11; 16]; SArr [4; 5; 5; 4]].
Proof. ex. Qed.

Theorem C15_swt_safe : forall (C : CRing) fuel w (x : list C) level s trim norm,
  wf_bank w -> 0 <= s -> swt_resources fuel (zlen x) (dec_len w) (Z.max 1 (s + level)) ->
  safe (swt fuel x w (Some level) s trim norm).
Proof. exact swt_safe. Qed.
Print Assumptions C15_swt_safe.
Example C15_swt_safe_ex : wf_bank zbank /\ swt_resources 99 3 (dec_len zbank) 2 /\ swt (C := Zring) 99 [1; 2; 3] zbank (Some 2) 0 true None = Err ValueError.
Proof. ex. Qed.

Theorem C15_c_swt_guard : forall (C : CRing) fuel (x h out : list C) level, 1 <= zlen x ->
  (level < 1 -> c_swt fuel x h out level = Err (-1)) /\
  (1 <= level -> ~ (2 ^ level | zlen x) -> c_swt fuel x h out level = Err (-2)) /\
  (1 <= level -> (2 ^ level | zlen x) -> zlen out <> zlen x -> c_swt fuel x h out level = Err (-1)).
Proof. exact c_swt_guard. Qed.
Print Assumptions C15_c_swt_guard.
Example C15_c_swt_guard_ex : c_swt (C := Zring) 99 [1; 2; 3; 4; 5; 6] [1; 1] [0; 0; 0; 0; 0; 0] 2 = Err (-2) /\
  c_swt (C := Zring) 99 [1; 2; 3; 4; 5; 6] [1; 1] [0; 0; 0; 0; 0] 1 = Err (-1) /\
  c_swt (C := Zring) 99 [1; 2; 3; 4; 5; 6] [1; 1] [0; 0; 0; 0; 0; 0] 1 = Ok (A := list Z) [3; 5; 7; 9; 11; 7].
Proof. ex. Qed.

(** C16 (and C20: both layouts carry the same arrays). *)
Theorem C16_swt_is_circular_convolution : forall (C : CRing) fuel w (x : list C) level s norm,
  wf_bank w -> 1 <= zlen x -> 0 <= s -> 1 <= level ->
  (2 ^ (s + level) | zlen x) -> swt_resources fuel (zlen x) (dec_len w) (s + level) ->
  exists a d : nat -> list C,
    swt fuel x w (Some level) s false norm = Ok (map (fun j => SPair (a j) (d j)) (rev (seq 1 (Z.to_nat level)))) /\
    swt fuel x w (Some level) s true norm = Ok (SArr (a (Z.to_nat level)) :: map (fun j => SArr (d j)) (rev (seq 1 (Z.to_nat level)))) /\
    a O = x /\ forall j, zlen (a j) = zlen x /\ zlen (d j) = zlen x /\
    forall n, 0 <= n < zlen x ->
    let step := 2 ^ (s + Z.of_nat j) in
    gz (a (S j)) n = sumZ 0 (dec_len w) (fun m => norm_factor norm [*] gz (dec_lo w) m [*] gz (a j) ((n + step * (dec_len w / 2 - m)) mod zlen x)) /\
    gz (d (S j)) n = sumZ 0 (dec_len w) (fun m => norm_factor norm [*] gz (dec_hi w) m [*] gz (a j) ((n + step * (dec_len w / 2 - m)) mod zlen x)).
Proof. exact swt_values. Qed.
Print Assumptions C16_swt_is_circular_convolution.
Example C16_ex : wf_bank zbank /\ (2 ^ (0 + 3) | zlen [3; 1; 4; 1; 5; 9; 2; 6]) /\ swt_resources 99 8 (dec_len zbank) (0 + 3) /\
  swt (C := Zring) 99 [3; 1; 4; 1; 5; 9; 2; 6] zbank (Some 3) 0 false None =
  Ok [SPair [-1311; -1350; -1311; -1363; -1321; -1338; -1300; -1339] [-935; -966; -938; -977; -945; -954; -927; -953];
      SPair [183; 198; 192; 205; 193; 186; 181; 181] [129; 125; 128; 144; 140; 149; 138; 132];
      SPair [-22; -15; -21; -34; -33; -39; -31; -22] [-17; -10; -15; -20; -22; -31; -22; -18]].
Proof. ex. exists 1. reflexivity. Qed.

Theorem C20_swt_layout : forall (C : CRing) fuel w (x : list C) level s norm,
  wf_bank w -> 1 <= zlen x -> 0 <= s -> 1 <= level ->
  (2 ^ (s + level) | zlen x) -> swt_resources fuel (zlen x) (dec_len w) (s + level) ->
  exists a d : nat -> list C,
    swt fuel x w (Some level) s false norm = Ok (map (fun j => SPair (a j) (d j)) (rev (seq 1 (Z.to_nat level)))) /\
    swt fuel x w (Some level) s true norm = Ok (SArr (a (Z.to_nat level)) :: map (fun j => SArr (d j)) (rev (seq 1 (Z.to_nat level)))) /\
    a O = x /\ forall j, zlen (a j) = zlen x /\ zlen (d j) = zlen x /\
    forall n, 0 <= n < zlen x ->
    let step := 2 ^ (s + Z.of_nat j) in
    gz (a (S j)) n = sumZ 0 (dec_len w) (fun m => norm_factor norm [*] gz (dec_lo w) m [*] gz (a j) ((n + step * (dec_len w / 2 - m)) mod zlen x)) /\
    gz (d (S j)) n = sumZ 0 (dec_len w) (fun m => norm_factor norm [*] gz (dec_hi w) m [*] gz (a j) ((n + step * (dec_len w / 2 - m)) mod zlen x)).
Proof. exact swt_values. Qed.
Print Assumptions C20_swt_layout.
Example C20_ex : wf_bank zbank /\ (2 ^ (1 + 2) | zlen [3; 1; 4; 1; 5; 9; 2; 6]) /\ swt_resources 99 8 (dec_len zbank) (1 + 2) /\
  swt (C := Zring) 99 [3; 1; 4; 1; 5; 9; 2; 6] zbank (Some 2) 1 true None =
  Ok [SArr [176; 211; 169; 207; 174; 216; 167; 199]; SArr [126; 150; 121; 149; 124; 155; 119; 141]; SArr [-17; -18; -18; -18; -19; -26; -16; -23]].
Proof. ex. exists 1. reflexivity. Qed.

(** C17 *)
Theorem C17_swt_shift_invariant : forall (C : CRing) fuel w (x : list C) level s trim norm r,
  wf_bank w -> 1 <= zlen x -> 0 <= s -> 1 <= level ->
  (2 ^ (s + level) | zlen x) -> swt_resources fuel (zlen x) (dec_len w) (s + level) ->
  exists cs, swt fuel x w (Some level) s trim norm = Ok cs /\
    swt fuel (roll r x) w (Some level) s trim norm = Ok (map (item_map (roll r)) cs).
Proof. exact swt_roll. Qed.
Print Assumptions C17_swt_shift_invariant.
Example C17_ex : wf_bank zbank /\ (2 ^ (0 + 1) | zlen [3; 1; 4; 1; 5; 9]) /\ swt_resources 99 6 (dec_len zbank) (0 + 1) /\
  swt (C := Zring) 99 [3; 1; 4; 1; 5; 9] zbank (Some 1) 0 false None = Ok [SPair [-25; -15; -21; -34; -35; -31] [-20; -10; -15; -20; -23; -27]] /\
  swt (C := Zring) 99 [9; 3; 1; 4; 1; 5] zbank (Some 1) 0 false None = Ok [SPair [-31; -25; -15; -21; -34; -35] [-27; -20; -10; -15; -20; -23]].
Proof. ex. exists 3. reflexivity. Qed.

(** C18: norm = Some (sqrt 2, 1/sqrt 2) models norm=True. *)
Theorem C18_iswt_swt : forall (C : CRing) fuel w (x : list C) level trim norm half,
  pr_wavelet w -> half [+] half = r1 ->
  match norm with Some (sq2, isq2) => sq2 [*] isq2 = r1 | None => True end ->
  1 <= zlen x -> 1 <= level -> (2 ^ level | zlen x) -> swt_resources fuel (zlen x) (dec_len w) level ->
  exists cs, swt fuel x w (Some level) 0 trim (option_map snd norm) = Ok cs /\
    iswt fuel half cs w (option_map fst norm) = Ok x.
Proof. exact iswt_swt. Qed.
Print Assumptions C18_iswt_swt.
Example C18_ex : pr_wavelet haar /\ halfs [+] halfs = (r1 : QS2) /\ sqrt2 [*] isqrt2 = (r1 : QS2) /\ (2 ^ 2 | 4) /\
  exists cs, swt 99 (map qsz [3; 1; 4; 1]) haar (Some 2) 0 true (Some isqrt2) = Ok cs /\
   map (item_map (map show)) cs = [SArr [(9 # 4, 0); (9 # 4, 0); (9 # 4, 0); (9 # 4, 0)];
          SArr [(-1 # 4, 0); (1 # 4, 0); (1 # 4, 0); (-1 # 4, 0)]; SArr [(1, 0); (-3 # 2, 0); (3 # 2, 0); (-1 # 1, 0)]]%Q /\
   (y <- iswt 99 halfs cs haar (Some sqrt2) ;; Ok (map show y)) = Ok [(3, 0); (1, 0); (4, 0); (1, 0)]%Q.
Proof.
  split; [exact haar_pr|]. split; [vm_compute; f_equal; apply Qc_is_canon; reflexivity|].
  split; [vm_compute; f_equal; apply Qc_is_canon; reflexivity|]. split; [exists 1; reflexivity|].
  eexists. (split; [vm_compute; reflexivity|]). split; vm_compute; reflexivity.
Qed.

(** C19, stationary half. *)
Theorem C19_swt_energy : forall (C : CRing) fuel w (x : list C) level isq2,
  orthonormal w -> (r1 [+] r1) [*] (isq2 [*] isq2) = r1 ->
  1 <= zlen x -> 1 <= level -> (2 ^ level | zlen x) -> swt_resources fuel (zlen x) (dec_len w) level ->
  exists arrs, swt fuel x w (Some level) 0 true (Some isq2) = Ok (map SArr arrs) /\
    fold_right radd r0 (map (fun y => sumZ 0 (zlen y) (fun i => gz y i [*] gz y i)) arrs) =
    sumZ 0 (zlen x) (fun i => gz x i [*] gz x i).
Proof. exact swt_energy. Qed.
Print Assumptions C19_swt_energy.
(** 4*(9/4)^2 + 4*(1/4)^2 + 1 + 9/4 + 9/4 + 1 = 27 = 9 + 1 + 16 + 1; see C18_ex for the arrays. *)
Example C19_swt_ex : orthonormal haar /\ (r1 [+] r1) [*] (isqrt2 [*] isqrt2) = (r1 : QS2) /\
  (2 ^ 2 | zlen (map qsz [3; 1; 4; 1])) /\ swt_resources 99 4 (dec_len haar) 2.
Proof.
  split; [split; [exact haar_pr|split; vm_compute; reflexivity]|].
  split; [vm_compute; f_equal; apply Qc_is_canon; reflexivity|]. split; [exists 1; reflexivity|ex].
Qed.

(** C53: with the default level, every start level above 0 is refused, although
    an admissible level exists. *)
Theorem C53_swt_default_start_level_refuted : exists (x : list Zring) w s cs,
  wf_bank w /\ 1 <= s /\ (2 ^ (s + 1) | zlen x) /\
  swt 99 x w (Some 1) s true None = Ok cs /\ swt 99 x w None s true None = Err ValueError.
Proof. exact (ex_intro _ [3; 1; 4; 1] (ex_intro _ zbank2 (ex_intro _ 1 (ex_intro _ _
  (conj (pr_wf zbank2 zbank2_pr) (conj (Z.le_refl 1) (conj (Z.divide_refl 4) (conj eq_refl eq_refl)))))))). Qed.
Print Assumptions C53_swt_default_start_level_refuted.
Theorem C53_swt_default_start_level_partial : forall (C : CRing) fuel w (x : list C) trim norm s,
  1 <= s -> swt fuel x w None s trim norm = Err ValueError.
Proof. exact swt_default_start. Qed.
Print Assumptions C53_swt_default_start_level_partial.
Example C53_ex : swt (C := Zring) 99 [3; 1; 4; 1] zbank2 None 1 true None = Err ValueError.
Proof. ex. Qed.

(** C54: iswt does not undo swt with start_level > 0. *)
Theorem C54_iswt_start_level_refuted : exists (x : list QS2) w s cs y,
  pr_wavelet w /\ 1 <= s /\ (2 ^ (s + 1) | zlen x) /\
  swt 99 x w (Some 1) s true None = Ok cs /\ iswt 99 halfs cs w None = Ok y /\
  map show x = [(3, 0); (1, 0); (4, 0); (1, 0)]%Q /\ map show y = [(2, 0); (5 # 2, 0); (5 # 2, 0); (2, 0)]%Q.
Proof. exact (ex_intro _ (map qsz [3; 1; 4; 1]) (ex_intro _ haar (ex_intro _ 1 (ex_intro _ _ (ex_intro _ _
  (conj haar_pr (conj (Z.le_refl 1) (conj (Z.divide_refl 4) (conj eq_refl (conj eq_refl (conj eq_refl eq_refl))))))))))). Qed.
Print Assumptions C54_iswt_start_level_refuted.
