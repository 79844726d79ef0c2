(** Property theorems for wavefun (C77-C81), integrate_wavelet (C82) and
    central_frequency (C83). *)
From Coq Require Import QArith.
From Verif Require Import Base BaseLemmas CConv Spec Instances Lengths Dwt DwtProofs Swt FilterSpec Filters FiltersFacts ExBanks ExBanks2 ExFilters.
From Verif Require Import Cwt Wavefun WavefunSpec WavefunProofs WavefunFacts WavefunMain WavefunMore ExWavefun.
Open Scope Z_scope.

(** C77. [wf_res fuel F level]: (F-1) 2^level entries can be allocated. The
    sample at position i belongs to the point x_i - 2^-level. *)
Theorem C77_orthogonal : forall (C : CRing) fuel (s : C) (W : dwave C) level,
  wf_bank (w_bank W) -> w_orthogonal W = true -> 1 <= level -> wf_res fuel (dec_len (w_bank W)) level ->
  let L := Z.to_nat level in let h := rec_lo (w_bank W) in let g := rec_hi (w_bank W) in
  let n := wavefun_len true (dec_len (w_bank W)) level in
  exists phi psi x, wavefun fuel s W level = Ok (WfOrth phi psi x) /\
    zlen phi = n /\ zlen psi = n /\ zlen x = n /\
    (forall i, gz phi i = cascade s h L (i - 1)) /\
    (forall i, gz psi i = cascade_with s g h L (i - 1)) /\
    (forall i, 0 <= i < n -> (nth (Z.to_nat i) x 0 == inject_Z i / inject_Z (2 ^ level))%Q).
Proof. exact wavefun_orth. Qed.
Print Assumptions C77_orthogonal.
Example C77_orthogonal_ex : wf_bank (w_bank Wz) /\ w_orthogonal Wz = true /\ wf_res 60 (dec_len (w_bank Wz)) 2 /\
  exists x, wavefun 60 (3 : Zring) Wz 2 =
    Ok (WfOrth (C := Zring) [0; 9; 18; 45; 72; 81; 126; 117; 180; 108; 144; 0; 0] [0; 9; 18; 9; 0; -45; -54; 27; 36; 0; 0; 0; 0] x).
Proof. split; [exact wz_wf|]. split; [reflexivity|]. split; [apply res4; lia|]. eexists. vm_compute. reflexivity. Qed.

Theorem C77_biorthogonal : forall (C : CRing) fuel (s : C) (W : dwave C) level,
  wf_bank (w_bank W) -> w_orthogonal W = false -> 1 <= level -> wf_res fuel (dec_len (w_bank W)) level ->
  let L := Z.to_nat level in let w := w_bank W in
  let n := wavefun_len false (dec_len w) level in
  let sign := if w_biorthogonal W && negb (w_psi W mod 4 =? 1) then ropp r1 else r1 in
  exists phi_d psi_d phi_r psi_r x, wavefun fuel s W level = Ok (WfBior phi_d psi_d phi_r psi_r x) /\
    zlen phi_d = n /\ zlen psi_d = n /\ zlen phi_r = n /\ zlen psi_r = n /\ zlen x = n /\
    (forall i, gz phi_d i = cascade s (rev (dec_lo w)) L (i - 1)) /\
    (forall i, gz psi_d i = sign [*] cascade_with s (rev (dec_hi w)) (rev (dec_lo w)) L (i - 1)) /\
    (forall i, gz phi_r i = cascade s (rec_lo w) L (i - 1)) /\
    (forall i, gz psi_r i = sign [*] cascade_with s (rec_hi w) (rec_lo w) L (i - 1)) /\
    (forall i, 0 <= i < n -> (nth (Z.to_nat i) x 0 == inject_Z i / inject_Z (2 ^ level))%Q).
Proof. exact wavefun_bior. Qed.
Print Assumptions C77_biorthogonal.
Example C77_biorthogonal_ex : wf_bank (w_bank Wzb) /\ w_orthogonal Wzb = false /\ wf_res 60 (dec_len (w_bank Wzb)) 1 /\
  (exists x, wavefun 60 (3 : Zring) Wzb 1 =
    Ok (WfBior (C := Zring) [0; 15; -3; 0; 6; 0] [0; -6; 0; -3; -3; 0] [0; 3; 6; 9; 12; 0] [0; -3; 6; -3; 0; 0] x)) /\
  (exists x, wavefun 60 (3 : Zring) Wzc 1 =
    Ok (WfBior (C := Zring) [0; 15; -3; 0; 6; 0] [0; 6; 0; 3; 3; 0] [0; 3; 6; 9; 12; 0] [0; 3; -6; 3; 0; 0] x)).
Proof. split; [exact wz_wf|]. split; [reflexivity|]. split; [apply res4; lia|]. split; eexists; vm_compute; reflexivity. Qed.

(** Successive levels: the two-scale equations on the arrays themselves. *)
Theorem C77_two_scale_orthogonal : forall (C : CRing) fuel (s : C) (W : dwave C) level phi psi x phi' psi' x',
  wf_bank (w_bank W) -> wf_res fuel (dec_len (w_bank W)) (level + 1) ->
  wavefun fuel s W level = Ok (WfOrth phi psi x) ->
  wavefun fuel s W (level + 1) = Ok (WfOrth phi' psi' x') ->
  let h := rec_lo (w_bank W) in let g := rec_hi (w_bank W) in
  forall i, gz phi' i = s [*] sumZ 0 (zlen h) (fun k => gz h k [*] gz phi (i - 2 ^ level * k)) /\
            gz psi' i = s [*] sumZ 0 (zlen g) (fun k => gz g k [*] gz phi (i - 2 ^ level * k)).
Proof. exact orth_two_scale. Qed.
Print Assumptions C77_two_scale_orthogonal.
Example C77_two_scale_orthogonal_ex : wf_res 60 (dec_len (w_bank Wz)) (1 + 1) /\
  (exists x, wavefun 60 (3 : Zring) Wz 1 = Ok (WfOrth (C := Zring) [0; 3; 6; 9; 12; 0; 0] [0; 3; -6; 3; 0; 0; 0] x)) /\
  3 * (1 * 9 + 2 * 3) = 45 /\ 3 * (1 * 9 + -2 * 3) = 9.
Proof. split; [apply res4; lia|]. split; [eexists; vm_compute; reflexivity|]. split; reflexivity. Qed.

Theorem C77_two_scale_biorthogonal : forall (C : CRing) fuel (s : C) (W : dwave C) level phi_d psi_d phi_r psi_r x phi_d' psi_d' phi_r' psi_r' x',
  let w := w_bank W in
  wf_bank w -> wf_res fuel (dec_len w) (level + 1) ->
  wavefun fuel s W level = Ok (WfBior phi_d psi_d phi_r psi_r x) ->
  wavefun fuel s W (level + 1) = Ok (WfBior phi_d' psi_d' phi_r' psi_r' x') ->
  let sign := if w_biorthogonal W && negb (w_psi W mod 4 =? 1) then ropp r1 else r1 in
  let step f p i := s [*] sumZ 0 (zlen f) (fun k => gz f k [*] gz p (i - 2 ^ level * k)) in
  forall i, gz phi_d' i = step (rev (dec_lo w)) phi_d i /\ gz psi_d' i = sign [*] step (rev (dec_hi w)) phi_d i /\
            gz phi_r' i = step (rec_lo w) phi_r i /\ gz psi_r' i = sign [*] step (rec_hi w) phi_r i.
Proof. exact bior_two_scale. Qed.
Print Assumptions C77_two_scale_biorthogonal.
Example C77_two_scale_biorthogonal_ex : wf_bank (w_bank W6) /\ wf_res 60 (dec_len (w_bank W6)) (1 + 1) /\
  (exists a b c d x, wavefun 60 sqrt2 W6 1 = Ok (WfBior a b c d x)) /\
  (exists a b c d x, wavefun 60 sqrt2 W6 (1 + 1) = Ok (WfBior a b c d x)).
Proof. split; [exact W6_wf|]. split; [apply res6; lia|]. split; apply W6_run; lia. Qed.

Theorem C77_level : forall (C : CRing) fuel (s : C) (W : dwave C) level,
  level < 1 -> wf_bank (w_bank W) -> wavefun fuel s W level = Err ValueError.
Proof. exact wavefun_level. Qed.
Print Assumptions C77_level.
Example C77_level_ex : wavefun 60 (3 : Zring) Wz 0 = Err ValueError /\ wavefun 60 (3 : Zring) Wzb (-2) = Err ValueError.
Proof. split; vm_compute; reflexivity. Qed.

(** keep (not reached by wavefun with more samples than it keeps). *)
Theorem C77_keep : forall A (l : list A) k, 0 <= k < zlen l ->
  exists a b, l = a ++ keep l k ++ b /\ zlen (keep l k) = k /\ (zlen b = zlen a \/ zlen b = zlen a + 1).
Proof. exact keep_middle. Qed.
Print Assumptions C77_keep.
Example C77_keep_ex : keep [1; 2; 3; 4; 5; 6] 3 = [2; 3; 4] /\ keep [1; 2] 5 = [1; 2].
Proof. split; reflexivity. Qed.

(** C78. *)
Theorem C78_orthogonal : forall (C : CRing) fuel (s : C), s [*] s = r1 [+] r1 -> forall (W : dwave C) level phi psi x,
  wf_bank (w_bank W) -> wf_res fuel (dec_len (w_bank W)) level ->
  wavefun fuel s W level = Ok (WfOrth phi psi x) -> total (rec_lo (w_bank W)) = s ->
  total phi = rz (2 ^ level) /\ (total (rec_hi (w_bank W)) = r0 -> total psi = r0).
Proof. exact orth_sums. Qed.
Print Assumptions C78_orthogonal.
Example C78_orthogonal_ex : wf_bank (w_bank W4) /\ wf_res 60 (dec_len (w_bank W4)) 3 /\
  (exists phi psi x, wavefun 60 sqrt2 W4 3 = Ok (WfOrth phi psi x)) /\
  total (rec_lo (w_bank W4)) = (sqrt2 : QS2) /\ total (rec_hi (w_bank W4)) = (r0 : QS2).
Proof. split; [exact W4_wf|]. split; [apply res4; lia|]. split; [apply W4_run; lia|]. split; [exact h4_sum|exact h4_high]. Qed.

Theorem C78_biorthogonal : forall (C : CRing) fuel (s : C), s [*] s = r1 [+] r1 -> forall (W : dwave C) level phi_d psi_d phi_r psi_r x,
  let w := w_bank W in
  wf_bank w -> wf_res fuel (dec_len w) level ->
  wavefun fuel s W level = Ok (WfBior phi_d psi_d phi_r psi_r x) ->
  (total (dec_lo w) = s -> total phi_d = rz (2 ^ level) /\ (total (dec_hi w) = r0 -> total psi_d = r0)) /\
  (total (rec_lo w) = s -> total phi_r = rz (2 ^ level) /\ (total (rec_hi w) = r0 -> total psi_r = r0)).
Proof. exact bior_sums. Qed.
Print Assumptions C78_biorthogonal.
Example C78_biorthogonal_ex : wf_bank (w_bank W6) /\ wf_res 60 (dec_len (w_bank W6)) 3 /\
  (exists a b c d x, wavefun 60 sqrt2 W6 3 = Ok (WfBior a b c d x)) /\
  total (dec_lo (w_bank W6)) = (sqrt2 : QS2) /\ total (dec_hi (w_bank W6)) = (r0 : QS2) /\
  total (rec_lo (w_bank W6)) = (sqrt2 : QS2) /\ total (rec_hi (w_bank W6)) = (r0 : QS2).
Proof. split; [exact W6_wf|]. split; [apply res6; lia|]. split; [apply W6_run; lia|]. exact W6_sums. Qed.

(** C79. 2^level is one unit of x. *)
Theorem C79_orthonormal : forall (C : CRing) fuel (s : C), s [*] s = r1 [+] r1 -> forall (W : dwave C) (h : list C) level phi psi x,
  w_bank W = bi_bank h h -> zlen h mod 2 = 0 -> 2 <= zlen h -> even_shift_dual h h ->
  wf_res fuel (zlen h) level -> wavefun fuel s W level = Ok (WfOrth phi psi x) ->
  forall k, inner_shift phi phi (2 ^ level * k) = (if k =? 0 then rz (2 ^ level) else r0) /\
    inner_shift psi psi (2 ^ level * k) = (if k =? 0 then rz (2 ^ level) else r0) /\
    inner_shift phi psi (2 ^ level * k) = r0.
Proof. exact orth_orthonormal. Qed.
Print Assumptions C79_orthonormal.
Example C79_orthonormal_ex : (sqrt2 [*] sqrt2 : QS2) = r1 [+] r1 /\ w_bank W4 = bi_bank h4 h4 /\ zlen h4 = 4 /\
  even_shift_dual (C := QS2) h4 h4 /\ wf_res 60 (zlen h4) 3 /\ exists phi psi x, wavefun 60 sqrt2 W4 3 = Ok (WfOrth phi psi x).
Proof.
  split; [exact sqrt2_sq|]. split; [reflexivity|]. split; [reflexivity|]. split; [exact h4_dual|].
  split; [apply res4; lia|apply W4_run; lia].
Qed.

Theorem C79_biorthonormal : forall (C : CRing) fuel (s : C), s [*] s = r1 [+] r1 -> forall (W : dwave C) (a b : list C) level phi_d psi_d phi_r psi_r x,
  w_bank W = bi_bank a b -> zlen b = zlen a -> zlen a mod 2 = 0 -> 2 <= zlen a -> even_shift_dual a b ->
  wf_res fuel (zlen a) level -> wavefun fuel s W level = Ok (WfBior phi_d psi_d phi_r psi_r x) ->
  forall k, inner_shift phi_r phi_d (2 ^ level * k) = (if k =? 0 then rz (2 ^ level) else r0) /\
    inner_shift psi_r psi_d (2 ^ level * k) = (if k =? 0 then rz (2 ^ level) else r0) /\
    inner_shift phi_r psi_d (2 ^ level * k) = r0 /\
    inner_shift psi_r phi_d (2 ^ level * k) = r0.
Proof. exact bior_dual. Qed.
Print Assumptions C79_biorthonormal.
Example C79_biorthonormal_ex : w_bank W6 = bi_bank a6 b6 /\ zlen b6 = 6 /\ zlen a6 = 6 /\
  even_shift_dual (C := QS2) a6 b6 /\ wf_res 60 (zlen a6) 3 /\ exists a b c d x, wavefun 60 sqrt2 W6 3 = Ok (WfBior a b c d x).
Proof.
  split; [reflexivity|]. split; [reflexivity|]. split; [reflexivity|]. split; [exact ab6_dual|].
  split; [apply res6; lia|apply W6_run; lia].
Qed.

(** For any other bank, in terms of the correlations of its filters. *)
Theorem C79_correlations : forall (C : CRing) fuel (s : C), s [*] s = r1 [+] r1 -> forall (W : dwave C) level phi_d psi_d phi_r psi_r x,
  let w := w_bank W in
  wf_bank w -> wf_res fuel (dec_len w) level ->
  wavefun fuel s W level = Ok (WfBior phi_d psi_d phi_r psi_r x) ->
  let h := rec_lo w in let g := rec_hi w in let h' := rev (dec_lo w) in let g' := rev (dec_hi w) in
  even_shift_dual h h' ->
  exists sign, (sign = r1 \/ sign = ropp r1) /\
  forall k, inner_shift phi_r phi_d (2 ^ level * k) = (if k =? 0 then rz (2 ^ level) else r0) /\
    inner_shift psi_r psi_d (2 ^ level * k) = rz (2 ^ level) [*] corr g g' (2 * k) /\
    inner_shift phi_r psi_d (2 ^ level * k) = sign [*] rz (2 ^ level) [*] corr h g' (2 * k) /\
    inner_shift psi_r phi_d (2 ^ level * k) = sign [*] rz (2 ^ level) [*] corr g h' (2 * k).
Proof. exact bior_inner. Qed.
Print Assumptions C79_correlations.
Example C79_correlations_ex : wf_bank (w_bank W6) /\ wf_res 60 (dec_len (w_bank W6)) 2 /\
  (exists a b c d x, wavefun 60 sqrt2 W6 2 = Ok (WfBior a b c d x)) /\
  even_shift_dual (C := QS2) (rec_lo (w_bank W6)) (rev (dec_lo (w_bank W6))).
Proof. split; [exact W6_wf|]. split; [apply res6; lia|]. split; [apply W6_run; lia|exact ab6_dual]. Qed.

(** C80. *)
Theorem C80_orthogonal : forall (C : CRing) fuel (s : C) (W : dwave C) level phi psi x,
  wf_bank (w_bank W) -> wf_res fuel (dec_len (w_bank W)) level ->
  wavefun fuel s W level = Ok (WfOrth phi psi x) ->
  let h := rec_lo (w_bank W) in
  s [*] even_part h = r1 -> s [*] odd_part h = r1 ->
  forall i, 0 <= i < 2 ^ level -> sumZ 0 (zlen h) (fun k => gz phi (i + 2 ^ level * k)) = r1.
Proof. exact orth_translates. Qed.
Print Assumptions C80_orthogonal.
Example C80_orthogonal_ex : wf_bank (w_bank W4) /\ wf_res 60 (dec_len (w_bank W4)) 3 /\
  (exists phi psi x, wavefun 60 sqrt2 W4 3 = Ok (WfOrth phi psi x)) /\
  (sqrt2 [*] even_part h4 : QS2) = r1 /\ (sqrt2 [*] odd_part h4 : QS2) = r1.
Proof. split; [exact W4_wf|]. split; [apply res4; lia|]. split; [apply W4_run; lia|]. split; [exact h4_even|exact h4_odd]. Qed.

Theorem C80_biorthogonal : forall (C : CRing) fuel (s : C) (W : dwave C) level phi_d psi_d phi_r psi_r x, let w := w_bank W in
  wf_bank w -> wf_res fuel (dec_len w) level ->
  wavefun fuel s W level = Ok (WfBior phi_d psi_d phi_r psi_r x) ->
  (s [*] even_part (rec_lo w) = r1 -> s [*] odd_part (rec_lo w) = r1 ->
   forall i, 0 <= i < 2 ^ level -> sumZ 0 (dec_len w) (fun k => gz phi_r (i + 2 ^ level * k)) = r1) /\
  (s [*] even_part (rev (dec_lo w)) = r1 -> s [*] odd_part (rev (dec_lo w)) = r1 ->
   forall i, 0 <= i < 2 ^ level -> sumZ 0 (dec_len w) (fun k => gz phi_d (i + 2 ^ level * k)) = r1).
Proof. exact bior_translates. Qed.
Print Assumptions C80_biorthogonal.
Example C80_biorthogonal_ex : wf_bank (w_bank W6) /\ wf_res 60 (dec_len (w_bank W6)) 3 /\
  (exists a b c d x, wavefun 60 sqrt2 W6 3 = Ok (WfBior a b c d x)) /\
  (sqrt2 [*] even_part (rec_lo (w_bank W6)) : QS2) = r1 /\ (sqrt2 [*] odd_part (rec_lo (w_bank W6)) : QS2) = r1 /\
  (sqrt2 [*] even_part (rev (dec_lo (w_bank W6))) : QS2) = r1 /\ (sqrt2 [*] odd_part (rev (dec_lo (w_bank W6))) : QS2) = r1.
Proof. split; [exact W6_wf|]. split; [apply res6; lia|]. split; [apply W6_run; lia|exact W6_parts]. Qed.

(** C81. *)
Theorem C81_orthogonal : forall (C : CRing) fuel (s : C) (W : dwave C) level phi psi x m,
  wf_bank (w_bank W) -> wf_res fuel (dec_len (w_bank W)) level ->
  wavefun fuel s W level = Ok (WfOrth phi psi x) ->
  (forall r, (r <= m)%nat -> moment (rec_hi (w_bank W)) r = r0) ->
  moment psi m = r0.
Proof. exact orth_moments. Qed.
Print Assumptions C81_orthogonal.
Example C81_orthogonal_ex : wf_bank (w_bank Wz) /\ wf_res 60 (dec_len (w_bank Wz)) 2 /\
  (exists phi x, wavefun 60 (3 : Zring) Wz 2 = Ok (WfOrth (C := Zring) phi [0; 9; 18; 9; 0; -45; -54; 27; 36; 0; 0; 0; 0] x)) /\
  (moment (C := Zring) [1; -2; 1; 0] 0 = 0 /\ moment (C := Zring) [1; -2; 1; 0] 1 = 0 /\ moment (C := Zring) [1; -2; 1; 0] 2 = 2) /\
  moment (C := Zring) [0; 9; 18; 9; 0; -45; -54; 27; 36; 0; 0; 0; 0] 1 = 0.
Proof. split; [exact wz_wf|]. split; [apply res4; lia|]. split; [eexists; eexists; vm_compute; reflexivity|]. repeat split; vm_compute; reflexivity. Qed.

Theorem C81_biorthogonal : forall (C : CRing) fuel (s : C) (W : dwave C) level phi_d psi_d phi_r psi_r x m, let w := w_bank W in
  wf_bank w -> wf_res fuel (dec_len w) level ->
  wavefun fuel s W level = Ok (WfBior phi_d psi_d phi_r psi_r x) ->
  ((forall r, (r <= m)%nat -> moment (rev (dec_hi w)) r = r0) -> moment psi_d m = r0) /\
  ((forall r, (r <= m)%nat -> moment (rec_hi w) r = r0) -> moment psi_r m = r0).
Proof. exact bior_moments. Qed.
Print Assumptions C81_biorthogonal.
Example C81_biorthogonal_ex : wf_bank (w_bank W6) /\ wf_res 60 (dec_len (w_bank W6)) 3 /\
  (exists a b c d x, wavefun 60 sqrt2 W6 3 = Ok (WfBior a b c d x)) /\
  forall r, (r <= 1)%nat -> (moment (rev (dec_hi (w_bank W6))) r : QS2) = r0 /\ (moment (rec_hi (w_bank W6)) r : QS2) = r0.
Proof. split; [exact W6_wf|]. split; [apply res6; lia|]. split; [apply W6_run; lia|exact W6_moments]. Qed.

(** C82. [inj] embeds the step of the grid. *)
Theorem C82_orthogonal : forall (C : CRing) fuel (s : C), s [*] s = r1 [+] r1 -> forall (inj : Q -> C) (W : dwave C) level phi psi x,
  wf_bank (w_bank W) -> wf_res fuel (dec_len (w_bank W)) level ->
  wavefun fuel s W level = Ok (WfOrth phi psi x) ->
  exists I, integrate_wavelet fuel s inj W level = Ok ([I], x) /\ zlen I = zlen x /\
    (grid_step x == 1 / inject_Z (2 ^ level))%Q /\
    (forall i, 0 <= i < zlen x -> gz I i = sumZ 0 (i + 1) (gz psi) [*] inj (grid_step x)) /\
    (total (rec_lo (w_bank W)) = s -> total (rec_hi (w_bank W)) = r0 -> gz I (zlen x - 1) = r0).
Proof. exact integrate_orth. Qed.
Print Assumptions C82_orthogonal.
Example C82_orthogonal_ex : wf_bank (w_bank W4) /\ wf_res 60 (dec_len (w_bank W4)) 3 /\
  (exists phi psi x, wavefun 60 sqrt2 W4 3 = Ok (WfOrth phi psi x)) /\
  exists x, integrate_wavelet 60 (3 : Zring) (fun q => Qnum (Qred (2 * q))) Wz 1 = Ok ([[0; 3; -3; 0; 0; 0; 0]], x).
Proof. split; [exact W4_wf|]. split; [apply res4; lia|]. split; [apply W4_run; lia|]. eexists. vm_compute. reflexivity. Qed.

Theorem C82_biorthogonal : forall (C : CRing) fuel (s : C), s [*] s = r1 [+] r1 -> forall (inj : Q -> C) (W : dwave C) level phi_d psi_d phi_r psi_r x,
  let w := w_bank W in
  wf_bank w -> wf_res fuel (dec_len w) level ->
  wavefun fuel s W level = Ok (WfBior phi_d psi_d phi_r psi_r x) ->
  exists I J, integrate_wavelet fuel s inj W level = Ok ([I; J], x) /\ zlen I = zlen x /\ zlen J = zlen x /\
    (grid_step x == 1 / inject_Z (2 ^ level))%Q /\
    (forall i, 0 <= i < zlen x -> gz I i = sumZ 0 (i + 1) (gz psi_d) [*] inj (grid_step x) /\
                                  gz J i = sumZ 0 (i + 1) (gz psi_r) [*] inj (grid_step x)) /\
    (total (dec_lo w) = s -> total (dec_hi w) = r0 -> gz I (zlen x - 1) = r0) /\
    (total (rec_lo w) = s -> total (rec_hi w) = r0 -> gz J (zlen x - 1) = r0).
Proof. exact integrate_bior. Qed.
Print Assumptions C82_biorthogonal.
Example C82_biorthogonal_ex : wf_bank (w_bank W6) /\ wf_res 60 (dec_len (w_bank W6)) 2 /\
  (exists a b c d x, wavefun 60 sqrt2 W6 2 = Ok (WfBior a b c d x)) /\
  total (dec_lo (w_bank W6)) = (sqrt2 : QS2) /\ total (dec_hi (w_bank W6)) = (r0 : QS2) /\
  total (rec_lo (w_bank W6)) = (sqrt2 : QS2) /\ total (rec_hi (w_bank W6)) = (r0 : QS2).
Proof. split; [exact W6_wf|]. split; [apply res6; lia|]. split; [apply W6_run; lia|]. exact W6_sums. Qed.

(** C83. [peak mag k]: k is the first frequency other than 0 with the largest
    magnitude. Missing: spectra of odd length N whose peak is at (N-1)/2. *)
Theorem C83_central_frequency_partial : forall (x mag : list Q) k, peak mag k -> (0 < grid_width x)%Q -> 2 * k + 1 <> zlen mag ->
  exists f, central_frequency qgt x mag = Ok f /\ (f == inject_Z (Z.min k (zlen mag - k)) / grid_width x)%Q.
Proof. exact central_min. Qed.
Print Assumptions C83_central_frequency_partial.
Example C83_central_frequency_partial_ex : peak mag8 6 /\ (0 < grid_width grid8)%Q /\ 2 * 6 + 1 <> zlen mag8 /\
  central_frequency qgt grid8 mag8 = Ok (2 # 4)%Q.
Proof. split; [exact mag8_peak|]. split; [reflexivity|]. split; [vm_compute; discriminate|vm_compute; reflexivity]. Qed.

Theorem C83_odd_length : forall (x mag : list Q) k, peak mag k -> (0 < grid_width x)%Q -> 2 * k + 1 = zlen mag ->
  exists f, central_frequency qgt x mag = Ok f /\ (f == inject_Z (k + 1) / grid_width x)%Q.
Proof. exact central_middle. Qed.
Print Assumptions C83_odd_length.
Example C83_odd_length_ex : peak mag7 3 /\ (0 < grid_width grid7)%Q /\ 2 * 3 + 1 = zlen mag7 /\
  central_frequency qgt grid7 mag7 = Ok (4 # 3)%Q.
Proof. split; [exact mag7_peak|]. split; [reflexivity|]. split; [reflexivity|vm_compute; reflexivity]. Qed.

Theorem C83_central_frequency_refuted : exists (x mag : list Q) k f,
  peak mag k /\ (0 < grid_width x)%Q /\ zlen x = zlen mag /\
  (forall j, 1 <= j < zlen mag -> nth (Z.to_nat j) mag 0%Q = nth (Z.to_nat (zlen mag - j)) mag 0%Q) /\
  central_frequency qgt x mag = Ok f /\ ~ (f == inject_Z (Z.min k (zlen mag - k)) / grid_width x)%Q.
Proof. exact central_odd_length. Qed.
Print Assumptions C83_central_frequency_refuted.

Theorem C83_scales : forall (x mag : list Q) f a, central_frequency qgt x mag = Ok f ->
  scale2frequency qgt x mag a = Ok (f / a)%Q /\ frequency2scale qgt x mag a = Ok (f / a)%Q /\
  (~ (a == 0)%Q -> ~ (f == 0)%Q -> exists g b, scale2frequency qgt x mag a = Ok g /\ frequency2scale qgt x mag g = Ok b /\ (b == a)%Q).
Proof. exact scale_freq. Qed.
Print Assumptions C83_scales.
Example C83_scales_ex : central_frequency qgt grid8 mag8 = Ok (2 # 4)%Q /\ ~ (3 == 0)%Q /\ ~ ((2 # 4) == 0)%Q /\
  scale2frequency qgt grid8 mag8 3 = Ok (2 # 12)%Q /\ frequency2scale qgt grid8 mag8 (2 # 12) = Ok (24 # 8)%Q.
Proof. split; [vm_compute; reflexivity|]. split; [discriminate|]. split; [discriminate|]. split; vm_compute; reflexivity. Qed.
