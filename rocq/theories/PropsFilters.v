(** Property theorems: filter construction (C32, C33), built-in tables (C34),
    modes (C35), names (C45, C61), scale and frequency (C51). *)
From Coq Require Import String Ascii QArith Qcanon Sorted Permutation.
From Verif Require Import Base BaseLemmas CConv Spec Instances Lengths Dwt Swt DwtProofs ExBanks ExBanks2 FilterSpec Filters FiltersProofs FiltersFacts
  PRError Tables TablesProofs TablesFacts ExFilters NamesSpec Names NamesProofs NamesProofs2 NamesOrder Freq.
Open Scope Z_scope.

(** C32 *)
Theorem C32_filter_bank_structure : forall (C : CRing) (sqrt2 : C) div (h : list C),
  orthogonal_filter_bank sqrt2 div h =
  if zlen h mod 2 =? 0
  then let c := map (fun v => div (sqrt2 [*] v) (sumZ 0 (zlen h) (gz h))) h in Ok (bi_bank c c)
  else Err ValueError.
Proof. exact ofb_structure. Qed.
Print Assumptions C32_filter_bank_structure.
Example C32_filter_bank_structure_ex :
  orthogonal_filter_bank (C := Zring) 2 Z.div [1; 3; 2; 2] =
    Ok (mkWavelet (C := Zring) [0; 0; 0; 0] [0; 0; 0; 0] [0; 0; 0; 0] [0; 0; 0; 0]) /\
  orthogonal_filter_bank (C := Zring) 8 Z.div [1; 3; 2; 2] =
    Ok (mkWavelet (C := Zring) [2; 2; 3; 1] [-1; 3; -2; 2] [1; 3; 2; 2] [2; -2; 3; -1]) /\
  orthogonal_filter_bank (C := Zring) 8 Z.div [1; 3; 2] = Err ValueError.
Proof. split; [|split]; reflexivity. Qed.

Theorem C32_qmf_flip : forall (C : CRing) (l : list C), qmf l = alt_flip l.
Proof. exact qmf_flip. Qed.
Print Assumptions C32_qmf_flip.
Example C32_qmf_flip_ex : qmf (C := Zring) [1; 2; 3; 4] = [4; -3; 2; -1].
Proof. reflexivity. Qed.

Theorem C32_qmf_twice : forall (C : CRing) (l : list C),
  qmf (qmf l) = map (fun v => if zlen l mod 2 =? 0 then [--] v else v) l.
Proof. exact qmf_twice. Qed.
Print Assumptions C32_qmf_twice.
Example C32_qmf_twice_ex : qmf (qmf (C := Zring) [1; 2; 3; 4]) = [-1; -2; -3; -4] /\ qmf (qmf (C := Zring) [1; 2; 3]) = [1; 2; 3].
Proof. split; reflexivity. Qed.

(** Orthonormality to even shifts gives perfect reconstruction when, in addition,
    the square of the sum is 2. *)
Theorem C32_perfect_reconstruction_partial : forall (C : CRing) (sqrt2 : C) div (h : list C),
  let s := sumZ 0 (zlen h) (gz h) in
  sqrt2 [*] sqrt2 = r1 [+] r1 -> (forall a, div a s [*] s = a) -> (forall a : C, a [*] (r1 [+] r1) = r0 -> a = r0) ->
  zlen h mod 2 = 0 -> 2 <= zlen h -> even_shift_dual h h -> s [*] s = r1 [+] r1 ->
  exists w, orthogonal_filter_bank sqrt2 div h = Ok w /\ pr_wavelet w.
Proof. exact ofb_pr. Qed.
Print Assumptions C32_perfect_reconstruction_partial.
Example C32_perfect_reconstruction_partial_ex :
  let s := sumZ 0 (zlen h_haar4) (gz h_haar4) in
  (sqrt2 [*] sqrt2 : QS2) = r1 [+] r1 /\ (forall a, qs_div a s [*] s = a) /\ (forall a : QS2, a [*] (r1 [+] r1) = r0 -> a = r0) /\
  zlen h_haar4 mod 2 = 0 /\ 2 <= zlen h_haar4 /\ even_shift_dual (C := QS2) h_haar4 h_haar4 /\ s [*] s = r1 [+] r1.
Proof.
  split; [exact sqrt2_sq|]. split; [exact h_haar4_div|]. split; [exact qs_two_regular|]. split; [reflexivity|].
  split; [vm_compute; discriminate|]. split; [exact h_haar4_dual|exact h_haar4_sum].
Qed.

Theorem C32_sum_condition_necessary : forall (C : CRing) (sqrt2 : C) div (h : list C) w,
  let s := sumZ 0 (zlen h) (gz h) in
  sqrt2 [*] sqrt2 = r1 [+] r1 -> (forall a, div a s [*] s = a) -> div r0 s = r0 ->
  corr h h 0 = r1 -> orthogonal_filter_bank sqrt2 div h = Ok w -> pr_wavelet w -> s [*] s = r1 [+] r1.
Proof. exact ofb_pr_needs. Qed.
Print Assumptions C32_sum_condition_necessary.
Example C32_sum_condition_necessary_ex : corr (C := QS2) h_haar4 h_haar4 0 = r1.
Proof. exact (h_haar4_dual 0 eq_refl). Qed.

Theorem C32_perfect_reconstruction_refuted : exists (h : list QS2) (w : wavelet QS2),
  zlen h mod 2 = 0 /\ 2 <= zlen h /\ even_shift_dual h h /\
  orthogonal_filter_bank sqrt2 qs_div h = Ok w /\ ~ pr_wavelet w.
Proof. exact ofb_not_pr. Qed.
Print Assumptions C32_perfect_reconstruction_refuted.

(** The construction behind all families: duality to even shifts of the two
    low-pass filters is enough for perfect reconstruction. *)
Theorem C32_dual_filters_reconstruct : forall (C : CRing) (a b : list C),
  zlen b = zlen a -> zlen a mod 2 = 0 -> 2 <= zlen a -> even_shift_dual a b -> pr_wavelet (bi_bank a b).
Proof. exact bi_bank_pr. Qed.
Print Assumptions C32_dual_filters_reconstruct.
Example C32_dual_filters_reconstruct_ex : zlen h_half = 4 /\ even_shift_dual (C := QS2) h_half h_half.
Proof. split; [reflexivity|exact h_half_dual]. Qed.

(** C33 *)
Theorem C33_db : forall (C : CRing) fuel (T : tables C) n, tables_ok T -> uint_range n ->
  discrete_wavelet fuel T DB n =
  if (1 <=? n) && (n <=? 38)
  then let c := nthZ (t_db T) (n - 1) in Ok (Some (mkDwave (bi_bank c c) true true n 0)) else Ok None.
Proof. exact db_structure. Qed.
Print Assumptions C33_db.
Example C33_db_ex : tables_ok builtin /\ uint_range 2 /\ zlen (nthZ (t_db builtin) 1) = 4.
Proof. split; [exact builtin_ok|]. split; [vm_compute; split; [discriminate|reflexivity]|vm_compute; reflexivity]. Qed.

Theorem C33_sym : forall (C : CRing) fuel (T : tables C) n, tables_ok T -> uint_range n ->
  discrete_wavelet fuel T SYM n =
  if (2 <=? n) && (n <=? 20)
  then let c := nthZ (t_sym T) (n - 2) in Ok (Some (mkDwave (bi_bank c c) true true n 0)) else Ok None.
Proof. exact sym_structure. Qed.
Print Assumptions C33_sym.
Example C33_sym_ex : tables_ok builtin /\ uint_range 2 /\ zlen (nthZ (t_sym builtin) 0) = 4.
Proof. split; [exact builtin_ok|]. split; [vm_compute; split; [discriminate|reflexivity]|vm_compute; reflexivity]. Qed.

Theorem C33_coif : forall (C : CRing) fuel (T : tables C) n, tables_ok T -> uint_range n ->
  discrete_wavelet fuel T COIF n =
  if (1 <=? n) && (n <=? 17)
  then let c := map (fun v => v [*] t_sqrt2 T) (nthZ (t_coif T) (n - 1)) in
       Ok (Some (mkDwave (bi_bank c c) true true (2 * n) (2 * n - 1))) else Ok None.
Proof. exact coif_structure. Qed.
Print Assumptions C33_coif.
Example C33_coif_ex : tables_ok builtin /\ uint_range 1 /\ zlen (nthZ (t_coif builtin) 0) = 6.
Proof. split; [exact builtin_ok|]. split; [vm_compute; split; [discriminate|reflexivity]|vm_compute; reflexivity]. Qed.

Theorem C33_haar : forall (C : CRing) fuel (T : tables C) n, tables_ok T ->
  discrete_wavelet fuel T HAAR n = discrete_wavelet fuel T DB 1.
Proof. exact haar_structure. Qed.
Print Assumptions C33_haar.
Example C33_haar_ex : tables_ok builtin.
Proof. exact builtin_ok. Qed.

Theorem C33_dmey : forall (C : CRing) fuel (T : tables C) n, tables_ok T ->
  discrete_wavelet fuel T DMEY n =
  let c := t_dmey T in Ok (Some (mkDwave (bi_bank c c) true true (-1) (-1))).
Proof. exact dmey_structure. Qed.
Print Assumptions C33_dmey.
Example C33_dmey_ex : tables_ok builtin.
Proof. exact builtin_ok. Qed.

Theorem C33_bior : forall (C : CRing) fuel (T : tables C) n, tables_ok T -> uint_range n ->
  discrete_wavelet fuel T BIOR n =
  match lookup n with
  | Some q => Ok (Some (mkDwave (bi_bank (bior_synth C T q) (bior_ana C T q)) false true (n / 10) (n mod 10)))
  | None => Ok None
  end.
Proof. exact bior_structure. Qed.
Print Assumptions C33_bior.
Example C33_bior_ex : tables_ok builtin /\ uint_range 24 /\ lookup 24 = Some (1, 2, 4, 10) /\ lookup 25 = None.
Proof. split; [exact builtin_ok|]. split; [vm_compute; split; [discriminate|reflexivity]|split; reflexivity]. Qed.

Theorem C33_rbio : forall (C : CRing) fuel (T : tables C) n, tables_ok T -> uint_range n -> 22 < Z.of_nat fuel ->
  discrete_wavelet fuel T RBIO n =
  match discrete_wavelet fuel T BIOR n with
  | Ok (Some w) => let b := w_bank w in
      Ok (Some (mkDwave (mkWavelet (rev (rec_lo b)) (rev (rec_hi b)) (rev (dec_lo b)) (rev (dec_hi b)))
                 (w_orthogonal w) (w_biorthogonal w) (w_psi w) (w_phi w)))
  | r => r
  end.
Proof. exact rbio_structure. Qed.
Print Assumptions C33_rbio.
Example C33_rbio_ex : tables_ok builtin /\ uint_range 24 /\ 22 < Z.of_nat 40.
Proof. split; [exact builtin_ok|]. split; [vm_compute; split; [discriminate|reflexivity]|vm_compute; reflexivity]. Qed.

(** Every order that exists gives four filters of one even length, every other order NULL. *)
Theorem C33_accepts : forall (C : CRing) fuel (T : tables C) name n, tables_ok T -> uint_range n -> 22 < Z.of_nat fuel ->
  if valid_order name n
  then exists w, discrete_wavelet fuel T name n = Ok (Some w) /\ wf_bank (w_bank w)
  else discrete_wavelet fuel T name n = Ok None.
Proof. exact discrete_wavelet_accepts. Qed.
Print Assumptions C33_accepts.
Example C33_accepts_ex : tables_ok builtin /\ valid_order BIOR 68 = true /\ valid_order BIOR 66 = false /\ valid_order SYM 1 = false.
Proof. split; [exact builtin_ok|]. split; [|split]; reflexivity. Qed.

Theorem C33_inverse_twice : forall (C : CRing) (w w' : wavelet C), custom_wavelet (inverse_filter_bank w) = Ok w' ->
  wf_bank w -> inverse_filter_bank w' = filter_bank w.
Proof. exact inverse_involutive. Qed.
Print Assumptions C33_inverse_twice.
Example C33_inverse_twice_ex : wf_bank zbank /\ exists w', custom_wavelet (inverse_filter_bank zbank) = Ok w'.
Proof. split; [vm_compute; repeat split; discriminate|]. eexists. vm_compute. reflexivity. Qed.

Theorem C33_inverse_accepted : forall (C : CRing) (w : wavelet C), wf_bank w -> exists w', custom_wavelet (inverse_filter_bank w) = Ok w'.
Proof. exact inverse_accepted. Qed.
Print Assumptions C33_inverse_accepted.
Example C33_inverse_accepted_ex : wf_bank zbank.
Proof. vm_compute; repeat split; discriminate. Qed.

(** Custom banks: four filters of one positive length, zero-padded to even length. *)
Theorem C33_custom : forall (C : CRing) (filters : list (list C)),
  (exists F, 0 < F /\ exists dl dh rl rh, filters = [dl; dh; rl; rh] /\
     zlen dl = F /\ zlen dh = F /\ zlen rl = F /\ zlen rh = F /\
     let pad l := app l (repeat r0 (Z.to_nat (F mod 2))) in
     custom_wavelet filters = Ok (mkWavelet (pad dl) (pad dh) (pad rl) (pad rh)) /\
     wf_bank (mkWavelet (pad dl) (pad dh) (pad rl) (pad rh)))
  \/ custom_wavelet filters = Err ValueError /\
     ~ (exists F, 0 < F /\ zlen filters = 4 /\ forall f, In f filters -> zlen f = F).
Proof. exact custom_spec. Qed.
Print Assumptions C33_custom.
Example C33_custom_ex :
  custom_wavelet (C := Zring) [[1; 2; 3]; [4; 5; 6]; [7; 8; 9]; [1; 1; 1]] =
    Ok (mkWavelet (C := Zring) [1; 2; 3; 0] [4; 5; 6; 0] [7; 8; 9; 0] [1; 1; 1; 0]) /\
  custom_wavelet (C := Zring) [[1; 2]; [4]; [7; 8]; [1; 1]] = Err ValueError.
Proof. split; reflexivity. Qed.

(** C34 *)
Theorem C34_residual_bound : forall fuel name n, uint_range n -> 22 < Z.of_nat fuel -> valid_order name n = true ->
  exists w, discrete_wavelet fuel builtin name n = Ok (Some w) /\
    let b := w_bank w in let F := dec_len b in
    forall p s, p = 0 \/ p = 1 ->
      qabs (sumZ 0 F (fun m => if m mod 2 =? p
                               then gz (rec_lo b) m [*] gz (dec_lo b) (s - m) [+] gz (rec_hi b) m [*] gz (dec_hi b) (s - m)
                               else r0)
            [-] (if s =? F - 1 then r1 else r0)) [<=] residual name.
Proof. exact builtin_residual. Qed.
Print Assumptions C34_residual_bound.
Example C34_residual_bound_ex : uint_range 7 /\ 22 < Z.of_nat 40 /\ valid_order SYM 7 = true /\ residual SYM = Q2Qc (3 # 10 ^ 11).
Proof. split; [vm_compute; split; [discriminate|reflexivity]|]. split; [vm_compute; reflexivity|]. split; reflexivity. Qed.

Theorem C34_reconstruction_error : forall fuel name n (x : list Qcring) m (M : Qcring),
  uint_range n -> valid_order name n = true -> min_len m <= zlen x -> resources fuel (zlen x) 102 ->
  (forall i, 0 <= i < zlen x -> (qabs (gz x i) [<=] M)) ->
  exists w cA cD y, discrete_wavelet fuel builtin name n = Ok (Some w) /\
    dwt fuel x (w_bank w) m = Ok (cA, cD) /\ idwt fuel (Some cA) (Some cD) (w_bank w) m = Ok y /\
    zlen y = zlen x + zlen x mod 2 /\
    forall i, 0 <= i < zlen x -> (qabs (gz y i [-] gz x i) [<=] residual name [*] (rz (gain m (dec_len (w_bank w))) [*] M)).
Proof. exact builtin_error. Qed.
Print Assumptions C34_reconstruction_error.
Example C34_reconstruction_error_ex :
  uint_range 24 /\ valid_order BIOR 24 = true /\ min_len ANTIREFLECT <= zlen [qc 1 1; qc (-2) 3; qc 5 1] /\
  resources 300 (zlen [qc 1 1; qc (-2) 3; qc 5 1]) 102 /\
  (forall i, 0 <= i < 3 -> (qabs (gz [qc 1 1; qc (-2) 3; qc 5 1] i) [<=] qc 5 1)).
Proof.
  split; [vm_compute; split; [discriminate|reflexivity]|]. split; [reflexivity|]. split; [vm_compute; discriminate|].
  split; [vm_compute; split; [discriminate|reflexivity]|]. intros i Hi.
  assert (E : i = 0 \/ i = 1 \/ i = 2) by lia. destruct E as [->|[->| ->]]; vm_compute; discriminate.
Qed.

(** The bound of the general form: any bank built from two low-pass filters. *)
Theorem C34_error_general : forall fuel (a b x : list Qcring) m (M : Qcring),
  zlen b = zlen a -> zlen a mod 2 = 0 -> 2 <= zlen a -> min_len m <= zlen x -> resources fuel (zlen x) (zlen a) ->
  (forall i, 0 <= i < zlen x -> (qabs (gz x i) [<=] M)) ->
  let w := bi_bank a b in
  exists cA cD y, dwt fuel x w m = Ok (cA, cD) /\ idwt fuel (Some cA) (Some cD) w m = Ok y /\
    zlen y = zlen x + zlen x mod 2 /\
    forall n, 0 <= n < zlen y -> (qabs (gz y n [-] ext m x n) [<=] resid_sum a b [*] (rz (gain m (zlen a)) [*] M)).
Proof. exact idwt_dwt_error. Qed.
Print Assumptions C34_error_general.
Example C34_error_general_ex :
  min_len SMOOTH <= zlen [qc 1 1] /\ resources 99 (zlen [qc 1 1]) (zlen [qc 7 10; qc 7 10]) /\
  resid_sum [qc 7 10; qc 7 10] [qc 7 10; qc 7 10] = qc 1 50.
Proof.
  split; [vm_compute; discriminate|]. split; [vm_compute; split; [discriminate|reflexivity]|]. apply Qc_is_canon. vm_compute. reflexivity.
Qed.

(** The discrete Meyer wavelet is marked orthogonal but is not a
    perfect-reconstruction bank: its energy differs from 1 by more than 1/500. *)
Theorem C34_dmey_not_pr : forall fuel n, exists w, discrete_wavelet fuel builtin DMEY n = Ok (Some w) /\ w_orthogonal w = true /\
  ~ pr_wavelet (w_bank w).
Proof. exact dmey_not_pr. Qed.
Print Assumptions C34_dmey_not_pr.
Theorem C34_dmey_energy : ratio 1 500 [<=] qabs (corr (t_dmey builtin) (t_dmey builtin) 0 [-] r1).
Proof. exact dmey_energy. Qed.
Print Assumptions C34_dmey_energy.
Example C34_dmey_energy_ex : ratio 1 500 = Q2Qc (1 # 500) /\ zlen (t_dmey builtin) = 62.
Proof. split; [reflexivity|vm_compute; reflexivity]. Qed.

(** C35 *)
Theorem C35_integers : forall z, from_object (MInt z) = if (0 <=? z) && (z <=? 8) then Ok (AMode z) else Err ValueError.
Proof. exact from_object_int. Qed.
Print Assumptions C35_integers.
Example C35_integers_ex : from_object (MInt 8) = Ok (AMode 8) /\ from_object (MInt (-1)) = Err ValueError.
Proof. split; reflexivity. Qed.

Theorem C35_names : forall s m, In (s, m) (mode_names ++ former_names) -> from_object (MStr s) = Ok (AMode (mode_code m)).
Proof. exact from_object_name. Qed.
Print Assumptions C35_names.
Example C35_names_ex : In ("periodic"%string, PERIODIC) (mode_names ++ former_names) /\ from_object (MStr "periodic") = Ok (AMode 4).
Proof. split; [cbn; tauto|reflexivity]. Qed.

(** Strings that are accepted: the nine names, six former names, and - returning
    something that is not a mode - names of other attributes. *)
Theorem C35_strings_partial : forall s a, from_object (MStr s) = Ok a ->
  (exists m, In (s, m) (mode_names ++ former_names) /\ a = AMode (mode_code m)) \/ (not_a_mode_name s /\ a = AOther).
Proof. exact from_object_string. Qed.
Print Assumptions C35_strings_partial.
Example C35_strings_partial_ex : from_object (MStr "sym") = Ok (AMode 1) /\ from_object (MStr "modes") = Ok AOther.
Proof. split; reflexivity. Qed.

Theorem C35_total : forall m, (exists a, from_object m = Ok a) \/ (exists e, from_object m = Err e).
Proof. exact from_object_total. Qed.
Print Assumptions C35_total.
Example C35_total_ex : (exists a, from_object (MStr "sym") = Ok a) /\ exists e, from_object MOther = Err e.
Proof. split; eexists; reflexivity. Qed.
Theorem C35_errors_partial : forall m e, from_object m = Err e -> e = ValueError \/ (m = MOther /\ e = TypeError).
Proof. exact from_object_raises. Qed.
Print Assumptions C35_errors_partial.
Example C35_errors_partial_ex : from_object (MStr "Zero") = Err ValueError /\ from_object MOther = Err TypeError.
Proof. split; reflexivity. Qed.

Theorem C35_exactly_nine_refuted : exists s a, (forall m, ~ In (s, m) mode_names) /\ from_object (MStr s) = Ok a.
Proof. exact more_strings_accepted. Qed.
Print Assumptions C35_exactly_nine_refuted.

(** C45 *)
Theorem C45_wavelist : forall k l s, wavelist None k = Ok l ->
  (In s l <-> exists f n, valid_name f n = true /\ kind_ok k f = true /\ s = name_of f n).
Proof. exact wavelist_complete. Qed.
Print Assumptions C45_wavelist.
Theorem C45_wavelist_returns : forall k, exists l, wavelist None k = Ok l.
Proof. exact wavelist_ok. Qed.
Print Assumptions C45_wavelist_returns.
Example C45_wavelist_returns_ex : (match wavelist None KDiscrete with Ok l => zlen l | _ => 0 end) = 106.
Proof. vm_compute. reflexivity. Qed.
Example C45_wavelist_ex : valid_name DB 10 = true /\ kind_ok KDiscrete DB = true /\ name_of DB 10 = "db10"%string /\ name_of RBIO 35 = "rbio3.5"%string.
Proof. repeat split. Qed.

Theorem C45_wavelist_distinct : forall k l, wavelist None k = Ok l -> NoDup l.
Proof. exact wavelist_nodup. Qed.
Print Assumptions C45_wavelist_distinct.
Example C45_wavelist_distinct_ex : wavelist (Some "haar"%string) KAll = Ok ["haar"%string].
Proof. vm_compute. reflexivity. Qed.
Theorem C45_wavelist_sorted : forall k l f, wavelist None k = Ok l -> StronglySorted Z.lt (numbers_of f l).
Proof. exact wavelist_sorted. Qed.
Print Assumptions C45_wavelist_sorted.
Example C45_wavelist_sorted_ex : wavelist None KContinuous =
  Ok ["cgau1"; "cgau2"; "cgau3"; "cgau4"; "cgau5"; "cgau6"; "cgau7"; "cgau8"; "cmor"; "fbsp"; "gaus1"; "gaus2"; "gaus3"; "gaus4";
      "gaus5"; "gaus6"; "gaus7"; "gaus8"; "mexh"; "morl"; "shan"]%string.
Proof. vm_compute. reflexivity. Qed.

(** [before_eq]: the first two letters, then the length, then alphabetical. *)
Theorem C45_wavelist_order : forall fam k l, wavelist fam k = Ok l -> StronglySorted before_eq l.
Proof. exact wavelist_order. Qed.
Print Assumptions C45_wavelist_order.
Example C45_wavelist_order_ex : nat_before "db9" "db10" /\ nat_before "bior6.8" "coif1" /\ nat_before "cmor" "coif1" /\ ~ nat_before "coif1" "cmor".
Proof.
  split; [right; split; [reflexivity|left; cbn; lia]|]. split; [left; reflexivity|]. split; [left; reflexivity|].
  intros [H|(H & _)]; vm_compute in H; discriminate.
Qed.
Theorem C45_sort : forall l, Permutation l (sort l) /\ StronglySorted before_eq (sort l).
Proof. exact sort_sorted. Qed.
Print Assumptions C45_sort.
Example C45_sort_ex : sort ["db10"; "dmey"; "db2"; "coif1"; "db1"]%string = ["coif1"; "db1"; "db2"; "db10"; "dmey"]%string /\
  sort ["sym11"; "sym9"; "shan"; "sym10"]%string = ["shan"; "sym9"; "sym10"; "sym11"]%string.
Proof. split; vm_compute; reflexivity. Qed.

Theorem C45_wavelist_family : forall fam k,
  (exists f l, fam = short f /\ wavelist (Some fam) k = Ok l /\ NoDup l /\ StronglySorted Z.lt (numbers_of f l) /\
     (forall s, In s l <-> exists n, valid_name f n = true /\ s = name_of f n))
  \/ ((forall f, fam <> short f) /\ wavelist (Some fam) k = Err ValueError).
Proof. exact wavelist_family. Qed.
Print Assumptions C45_wavelist_family.
Example C45_wavelist_family_ex : wavelist (Some "rbio"%string) KAll =
  Ok ["rbio1.1"; "rbio1.3"; "rbio1.5"; "rbio2.2"; "rbio2.4"; "rbio2.6"; "rbio2.8"; "rbio3.1"; "rbio3.3"; "rbio3.5"; "rbio3.7"; "rbio3.9";
      "rbio4.4"; "rbio5.5"; "rbio6.8"]%string /\ wavelist (Some "b"%string) KAll = Err ValueError.
Proof. split; vm_compute; reflexivity. Qed.

Theorem C45_wavelet_accepts : forall (C : CRing) fuel (T : tables C), tables_ok T -> 22 < Z.of_nat fuel -> forall s,
  (exists f n w, valid_name f n = true /\ is_discrete_wavelet f = true /\ lower s = name_of f n /\
     wavelet_new fuel T s = Ok w /\ discrete_wavelet fuel T f n = Ok (Some w) /\ wf_bank (w_bank w))
  \/ ((~ exists f n, valid_name f n = true /\ is_discrete_wavelet f = true /\ lower s = name_of f n) /\
      wavelet_new fuel T s = Err (if String.eqb s "" then TypeError else ValueError)).
Proof. exact wavelet_new_spec. Qed.
Print Assumptions C45_wavelet_accepts.
Example C45_wavelet_accepts_ex : tables_ok builtin /\ 22 < Z.of_nat 40 /\ lower "Bior3.5" = name_of BIOR 35 /\
  wavelet_new 40 builtin "cmor1.5-1.0" = Err ValueError.
Proof. split; [exact builtin_ok|]. split; [vm_compute; reflexivity|]. split; reflexivity. Qed.

Theorem C45_continuous_accepts : forall s, extended (lower s) = false ->
  (exists f n, valid_name f n = true /\ is_discrete_wavelet f = false /\ lower s = name_of f n /\
     continuous_new s = Ok (mkCwave f n None None None))
  \/ ((~ exists f n, valid_name f n = true /\ is_discrete_wavelet f = false /\ lower s = name_of f n) /\ continuous_new s = Err ValueError).
Proof. exact continuous_new_plain. Qed.
Print Assumptions C45_continuous_accepts.
Example C45_continuous_accepts_ex : extended (lower "MEXH") = false /\ continuous_new "MEXH" = Ok (mkCwave MEXH 0 None None None) /\
  continuous_new "db2" = Err ValueError.
Proof. repeat split. Qed.

Theorem C45_lower : forall s, String.length (lower s) = String.length s /\ forall i c, String.get i s = Some c ->
  String.get i (lower s) = match String.index 0 (String c EmptyString) upper_letters with Some k => String.get k lower_letters | None => Some c end.
Proof. exact lower_get. Qed.
Print Assumptions C45_lower.
Example C45_lower_ex : lower "Bior3.5 AZ[`az{" = "bior3.5 az[`az{"%string.
Proof. reflexivity. Qed.

Theorem C45_case_insensitive : forall (C : CRing) fuel (T : tables C) s, wavelet_new fuel T (lower s) = wavelet_new fuel T s.
Proof. exact wavelet_new_lower. Qed.
Print Assumptions C45_case_insensitive.
Theorem C45_case_insensitive_continuous : forall s, continuous_new (lower s) = continuous_new s.
Proof. exact continuous_new_lower. Qed.
Print Assumptions C45_case_insensitive_continuous.
Example C45_case_insensitive_ex : lower "DB12" = "db12"%string /\ continuous_new "Gaus8" = Ok (mkCwave GAUS 8 None None None).
Proof. split; reflexivity. Qed.

(** C61 *)
Theorem C61_parameters_partial : forall f b c, f = CMOR \/ f = SHAN -> decimal b -> decimal c ->
  continuous_new (String.append (short f) (String.append (render b) (String.append "-" (render c)))) =
  Ok (mkCwave f 0 (Some (decimal_value b)) (Some (decimal_value c)) None).
Proof. exact cmor_shan_name. Qed.
Print Assumptions C61_parameters_partial.
Example C61_parameters_partial_ex :
  let b := ("1"%string, 1%nat, "5"%string) in let c := ("20"%string, 0%nat, ""%string) in
  decimal b /\ decimal c /\ render b = "1.5"%string /\ (decimal_value b == 3 # 2)%Q /\ (decimal_value c == 20)%Q /\
  continuous_new "cmor1.5-20" = Ok (mkCwave CMOR 0 (Some (15 # 10)) (Some (20 # 1)) None).
Proof. repeat split; try discriminate; cbn; auto. Qed.

Theorem C61_one_parameter : forall f b, f = CMOR \/ f = SHAN -> decimal b -> continuous_new (String.append (short f) (render b)) = Err ValueError.
Proof. exact cmor_shan_one. Qed.
Print Assumptions C61_one_parameter.
Example C61_one_parameter_ex : decimal ("1"%string, 1%nat, "5"%string) /\ continuous_new "shan1.5" = Err ValueError.
Proof. repeat split; try discriminate; cbn; auto. Qed.

(** The order of an fbsp wavelet is a whole number from 1 on. *)
Theorem C61_fbsp : forall m b c, decimal m -> decimal b -> decimal c ->
  let name := String.append "fbsp" (String.append (render m) (String.append "-" (String.append (render b) (String.append "-" (render c))))) in
  (forall k, (decimal_value m == inject_Z k)%Q -> 1 <= k ->
     continuous_new name = Ok (mkCwave FBSP 0 (Some (decimal_value b)) (Some (decimal_value c)) (Some k))) /\
  ((forall k, (decimal_value m == inject_Z k)%Q -> k < 1) -> continuous_new name = Err ValueError).
Proof. exact fbsp_name. Qed.
Print Assumptions C61_fbsp.
Example C61_fbsp_ex : let m := ("2"%string, 1%nat, "0"%string) in decimal m /\ render m = "2.0"%string /\ (decimal_value m == inject_Z 2)%Q /\
  continuous_new "fbsp2.0-1.5-1" = Ok (mkCwave FBSP 0 (Some (15 # 10)) (Some (1 # 1)) (Some 2)) /\
  continuous_new "fbsp1-1.5-1" = Ok (mkCwave FBSP 0 (Some (15 # 10)) (Some (1 # 1)) (Some 1)) /\
  continuous_new "fbsp0-1.5-1" = Err ValueError /\ continuous_new "fbsp1.5-1.5-1" = Err ValueError.
Proof. repeat split; try discriminate; cbn; auto. Qed.

Theorem C61_signs_and_letters_ignored_refuted : continuous_new "cmor-1.5-1.0" = continuous_new "cmor1.5-1.0" /\
  (exists w, continuous_new "cmor-1.5-1.0" = Ok w) /\ (exists w, continuous_new "shanABC0.5xyz1.0" = Ok w).
Proof. exact sign_ignored. Qed.
Print Assumptions C61_signs_and_letters_ignored_refuted.

(** C51 *)
Theorem C51_inverse : forall len k domain s, 0 <= k < len - 1 -> (0 < domain)%Q -> (0 < s)%Q ->
  let c := central_frequency len k domain in
  (frequency2scale c (scale2frequency c s) == s)%Q /\ (scale2frequency c (frequency2scale c s) == s)%Q /\
  (0 < scale2frequency c s)%Q.
Proof. exact wavelet_scale_frequency. Qed.
Print Assumptions C51_inverse.
Example C51_inverse_ex : 0 <= 3 < 9 - 1 /\ (scale2frequency (central_frequency 9 3 (7 # 2)) 5 == 10 # 35)%Q /\
  (frequency2scale (central_frequency 9 3 (7 # 2)) (10 # 35) == 5)%Q.
Proof. split; [split; [discriminate|reflexivity]|]. split; reflexivity. Qed.

Theorem C51_central_frequency_positive : forall len k domain, 0 <= k < len - 1 -> (0 < domain)%Q ->
  (central_frequency len k domain == inject_Z (freq_index len k - 1) / domain)%Q /\ (0 < central_frequency len k domain)%Q.
Proof. exact central_frequency_value. Qed.
Print Assumptions C51_central_frequency_positive.
Example C51_central_frequency_positive_ex : 0 <= 7 < 9 - 1 /\ (central_frequency 9 7 2 == 1 # 2)%Q.
Proof. split; [split; [discriminate|reflexivity]|reflexivity]. Qed.

Theorem C51_field : forall (C : CRing) (inv : C -> C), (forall x : C, x <> r0 -> inv x [*] x = r1) ->
  forall c s : C, c <> r0 -> s <> r0 -> fdiv C inv c (fdiv C inv c s) = s.
Proof. exact field_inverse. Qed.
Print Assumptions C51_field.
Example C51_field_ex : forall x : Qcring, x <> r0 -> (Qcinv x : Qcring) [*] x = r1.
Proof. intros x H. exact (Qcmult_inv_l x H). Qed.
