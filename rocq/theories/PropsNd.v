(** Properties of the n-dimensional transforms (C21-C23, C52, C55, C56). *)
From Coq Require Import Ascii String.
From Verif Require Import Base BaseLemmas CConv Spec Instances Lengths Dwt DwtProofs Swt SwtProofs Nd NdSpec Axis AxisProofs AxisProofs2 NdLinear Multidim MultidimProofs MultidimFacts ExBanks ExNd.
From Coq Require Import Permutation.

(** C21 *)
Theorem C21_dwt_line_by_line : forall (C : CRing) fuel junk (data : sarr C) w m axis (ax : nat),
  sarr_ok C data -> ndim data <= 64 -> norm_axis (ndim data) axis = Z.of_nat ax -> (ax < List.length (sshape data))%nat ->
  wf_bank w -> min_len m <= nthz ax (sshape data) -> resources fuel (nthz ax (sshape data)) (dec_len w) ->
  prodZ (setn ax (coeff_len m (nthz ax (sshape data)) (dec_len w)) (sshape data)) < max_alloc ->
  exists cA cD, py_dwt fuel junk data w m axis = Ok (cA, cD) /\ sarr_ok C cA /\ sarr_ok C cD /\
    sshape cA = setn ax (coeff_len m (nthz ax (sshape data)) (dec_len w)) (sshape data) /\ sshape cD = sshape cA /\
    forall idx, valid (sshape cA) idx ->
      ndget (val C cA) idx = gz (analysis m (dec_lo w) (line (val C data) ax idx)) (nthz ax idx) /\
      ndget (val C cD) idx = gz (analysis m (dec_hi w) (line (val C data) ax idx)) (nthz ax idx).
Proof. exact py_dwt_lines. Qed.
Print Assumptions C21_dwt_line_by_line.
Example C21_dwt_ex : sarr_ok Zring xt /\ norm_axis (ndim xt) (-2) = Z.of_nat 0 /\ wf_bank zbank /\
  resources 99 (nthz 0 (sshape xt)) (dec_len zbank) /\
  py_dwt 99 jk xt zbank SYMMETRIC (-2)
  = Ok (of_nd (mkNd (C := Zring) [3; 2] [-10; -31; -17; -38; -15; -36]), of_nd (mkNd (C := Zring) [3; 2] [-7; -22; -11; -26; -12; -27])) /\
  dwt (C := Zring) 99 [1; 2; 3] zbank SYMMETRIC = Ok ([-10; -17; -15], [-7; -11; -12]).
Proof. split; [exact xt_ok|]. repeat split; vm_compute; congruence. Qed.

Theorem C21_idwt_line_by_line : forall (C : CRing) fuel junk (a d : sarr C) w m axis (ax : nat) sh,
  sarr_ok C a -> sarr_ok C d -> sshape a = sh -> sshape d = sh -> zlen sh <= 64 ->
  norm_axis (zlen sh) axis = Z.of_nat ax -> (ax < List.length sh)%nat ->
  wf_bank w -> 1 <= nthz ax sh -> 1 <= rec_len m (nthz ax sh) (dec_len w) -> resources fuel (nthz ax sh) (dec_len w) ->
  prodZ (setn ax (rec_len m (nthz ax sh) (dec_len w)) sh) < max_alloc ->
  exists r, py_idwt fuel junk (Some a) (Some d) w m axis = Ok (Some r) /\ sarr_ok C r /\
    sshape r = setn ax (rec_len m (nthz ax sh) (dec_len w)) sh /\
    forall idx, valid (sshape r) idx ->
      ndget (val C r) idx = gz (synthesis m (rec_lo w) (line (val C a) ax idx)) (nthz ax idx)
        [+] gz (synthesis m (rec_hi w) (line (val C d) ax idx)) (nthz ax idx).
Proof. exact py_idwt_lines. Qed.
Print Assumptions C21_idwt_line_by_line.
Example C21_idwt_ex : py_idwt 99 jk (Some (of_nd (mkNd (C := Zring) [3; 2] [-10; -31; -17; -38; -15; -36])))
    (Some (of_nd (mkNd (C := Zring) [3; 2] [-7; -22; -11; -26; -12; -27]))) zbank SYMMETRIC 0
  = Ok (Some (of_nd (mkNd (C := Zring) [4; 2] [1; 4; 2; 5; 3; 6; 3; 6]))) /\
  wf_bank zbank /\ resources 99 3 (dec_len zbank) /\ rec_len SYMMETRIC 3 (dec_len zbank) = 4.
Proof. repeat split; vm_compute; congruence. Qed.

(** C21, C layer: any strides and offsets of input and output; the cells of the
    output array get exactly the results, all other memory is unchanged. *)
Theorem C21_axis_kernel_any_layout : forall (C : CRing) fuel junk (inp out : sarr C) w axis (approx : bool) m level tr,
  let n := nthz axis (sshape inp) in
  sarr_ok C inp -> sarr_ok C out -> no_overlap C out -> (axis < List.length (sshape inp))%nat ->
  axis_pre C fuel w m level tr n -> sshape out = setn axis (axis_len C w m tr n) (sshape inp) ->
  exists mem, downcoef_axis fuel junk inp out w axis approx m level tr = Ok mem /\ zlen mem = zlen (smem out) /\
    (forall idx, valid (sshape out) idx ->
       gz mem (sbase out + dot idx (sstrides out))
       = gz (axis_kernel C w approx m level tr (line (val C inp) axis idx)) (nthz axis idx)) /\
    (forall q, (forall idx, valid (sshape out) idx -> q <> sbase out + dot idx (sstrides out)) ->
       gz mem q = gz (smem out) q).
Proof. exact downcoef_axis_spec. Qed.
Print Assumptions C21_axis_kernel_any_layout.
Example C21_axis_kernel_ex :
  downcoef_axis 99 jk xt (mkSarr (C := Zring) (tab 24 (fun i => 100 + i)) 23 [3; 2] [-2; -9]) zbank 0 true SYMMETRIC 0 DWT_TRANSFORM
  = Ok [100; 101; 102; 103; 104; 105; 106; 107; 108; 109; -36; 111; -38; 113; -31; 115; 116; 117; 118; -15; 120; -17; 122; -10].
Proof. vm_compute. reflexivity. Qed.

Theorem C21_idwt_axis_any_layout : forall (C : CRing) fuel junk (a d : option (sarr C)) (out : sarr C) w axis m sh,
  let n := nthz axis sh in
  let inputs := opt_list a ++ opt_list d in
  isS a || isS d = true -> (forall x, In x inputs -> sarr_ok C x /\ sshape x = sh) ->
  sarr_ok C out -> no_overlap C out -> (axis < List.length sh)%nat -> idwt_pre C fuel w m n ->
  sshape out = setn axis (rec_len m n (dec_len w)) sh ->
  exists mem, c_idwt_axis fuel junk a d out w axis m = Ok mem /\ zlen mem = zlen (smem out) /\
    (forall idx, valid (sshape out) idx ->
       gz mem (sbase out + dot idx (sstrides out))
       = gz (syn_rows C w m (isS a) (isS d) (map (fun x => line (val C x) axis idx) inputs)) (nthz axis idx)) /\
    (forall q, (forall idx, valid (sshape out) idx -> q <> sbase out + dot idx (sstrides out)) ->
       gz mem q = gz (smem out) q).
Proof. exact c_idwt_axis_spec. Qed.
Print Assumptions C21_idwt_axis_any_layout.
Example C21_idwt_axis_ex : sarr_ok Zring xt /\ idwt_pre Zring 99 zbank SYMMETRIC 3 /\
  c_idwt_axis 99 jk (Some xt) None (mkSarr (C := Zring) (tab 17 (fun i => 100 + i)) 0 [4; 2] [1; 9]) zbank 0 SYMMETRIC
  = Ok [-4; 3; -7; 5; 104; 105; 106; 107; 108; -13; 9; -16; 11; 113; 114; 115; 116].
Proof. split; [exact xt_ok|]. repeat split; vm_compute; congruence. Qed.

Theorem C21_swt_line_by_line : forall (C : CRing) fuel junk (data : sarr C) w level s axis trim,
  let N := nthz axis (sshape data) in
  sarr_ok C data -> (axis < List.length (sshape data))%nat -> wf_bank w -> 1 <= N -> 0 <= s -> 1 <= level ->
  (2 ^ (s + level) | N) -> swt_resources fuel N (dec_len w) (s + level) -> prodZ (sshape data) < max_alloc ->
  swt_axis fuel junk data w level s axis trim
  = Ok (ndswt_out C trim axis (dec_lo w) (dec_hi w) s (Z.to_nat level) (val C data)).
Proof. exact swt_axis_spec. Qed.
Print Assumptions C21_swt_line_by_line.
Example C21_swt_ex : swt_resources 99 4 (dec_len zbank) 1 /\ (2 ^ (0 + 1) | 4) /\
  swt_axis 99 jk (of_nd (mkNd (C := Zring) [2; 4] [1; 2; 3; 4; 5; 6; 7; 8])) zbank 1 0 1 false
  = Ok [SPair (of_nd (mkNd (C := Zring) [2; 4] [-16; -19; -18; -17; -44; -47; -46; -45]))
              (of_nd (mkNd (C := Zring) [2; 4] [-11; -12; -13; -14; -31; -32; -33; -34]))].
Proof. repeat split; try (vm_compute; congruence). exists 2. reflexivity. Qed.

(** C22: [L] pairs key letters with steps (axis, wavelet, mode); permuting the
    list of axes permutes the key letters in the same way. *)
Theorem C22_axis_order : forall (C : CRing) fuel junk (data : sarr C) w m axes w' m' axes' L L' B,
  sarr_ok C data -> 1 <= ndim data <= 64 -> L <> [] -> Permutation L L' ->
  Forall (fun p => fst p = "a"%char \/ fst p = "d"%char) L ->
  resolves C (ndim data) w m (default_axes (ndim data) axes) (plan_of C L) ->
  resolves C (ndim data) w' m' (default_axes (ndim data) axes') (plan_of C L') ->
  plan_good C fuel B (sshape data) (plan_of C L) ->
  exists D D' c, dwtn fuel junk data w m axes = Ok D /\ dwtn fuel junk data w' m' axes' = Ok D' /\
    dget D (key_of C L) = Some c /\ dget D' (key_of C L') = Some c.
Proof. exact dwtn_axis_order. Qed.
Print Assumptions C22_axis_order.
Example C22_ex : let L := [("a"%char, st0); ("d"%char, st1)] in let L' := [("d"%char, st1); ("a"%char, st0)] in
  Permutation L L' /\ plan_good Zring 99 [16; 16] (sshape xt) (plan_of Zring L) /\
  resolves Zring (ndim xt) (Seq [zbank2; zbank]) (Seq [SYMMETRIC; PERIODIZATION]) [0; -1] (plan_of Zring L) /\
  resolves Zring (ndim xt) (Seq [zbank; zbank2]) (Seq [PERIODIZATION; SYMMETRIC]) [1; 0] (plan_of Zring L') /\
  match dwtn 99 jk xt (Seq [zbank2; zbank]) (Seq [SYMMETRIC; PERIODIZATION]) (Some [0; -1]),
        dwtn 99 jk xt (Seq [zbank; zbank2]) (Seq [PERIODIZATION; SYMMETRIC]) (Some [1; 0]) with
  | Ok D, Ok D' => dget D (key_of Zring L) = Some (of_nd (mkNd (C := Zring) [2; 1] [-43; -63])) /\
                   dget D' (key_of Zring L') = Some (of_nd (mkNd (C := Zring) [2; 1] [-43; -63]))
  | _, _ => False
  end.
Proof.
  split; [constructor|]. split; [exact plan_good_ex|]. repeat split; vm_compute; reflexivity.
Qed.

(** C22, the value of every sub-band (repeated axes allowed). *)
Theorem C22_dwtn_bands : forall (C : CRing) fuel junk (data : sarr C) w m axes plan,
  sarr_ok C data -> 1 <= ndim data <= 64 -> plan <> [] ->
  resolves C (ndim data) w m (default_axes (ndim data) axes) plan -> plan_ok C fuel plan (sshape data) ->
  dwtn fuel junk data w m axes = Ok (map (fun k => (k, of_nd (band C k plan (val C data)))) (ad_keys (List.length plan))).
Proof. exact dwtn_bands. Qed.
Print Assumptions C22_dwtn_bands.
Example C22_dwtn_bands_ex : plan_ok Zring 99 [st0; st1] (sshape xt) /\ ad_keys 2 = ["aa"; "ad"; "da"; "dd"]%string /\
  band Zring "da" [st0; st1] (val Zring xt) = mkNd (C := Zring) [2; 1] [-39; -60].
Proof. split; [exact (plan_good_ok _ _ _ _ _ plan_good_ex)|]. split; vm_compute; reflexivity. Qed.

(** C23 *)
Theorem C23_idwtn_dwtn : forall (C : CRing) fuel junk (data : sarr C) w m axes plan B,
  sarr_ok C data -> 1 <= ndim data <= 64 ->
  resolves C (ndim data) w m (default_axes (ndim data) axes) plan -> plan_good C fuel B (sshape data) plan ->
  (forall s, In s plan -> pr_wavelet (st_w C s)) ->
  exists D r, dwtn fuel junk data w m axes = Ok D /\
    idwtn fuel junk (map (fun '(k, v) => (k, Some v)) D) w m axes = Ok (Some r) /\
    sshape r = odd_up (map (st_ax C) plan) (sshape data) /\
    (forall idx, valid (sshape data) idx -> ndget (val C r) idx = ndget (val C data) idx).
Proof. exact idwtn_dwtn. Qed.
Print Assumptions C23_idwtn_dwtn.
Example C23_ex : pr_wavelet (st_w Zring st0) /\ pr_wavelet (st_w Zring st1) /\ odd_up [0%nat; 1%nat] [3; 2] = [4; 2] /\
  match dwtn 99 jk xt (Seq [zbank2; zbank]) (Seq [SYMMETRIC; PERIODIZATION]) (Some [0; -1]) with
  | Ok D => idwtn 99 jk (map (fun '(k, v) => (k, Some v)) D) (Seq [zbank2; zbank]) (Seq [SYMMETRIC; PERIODIZATION]) (Some [0; -1])
            = Ok (Some (of_nd (mkNd (C := Zring) [4; 2] [1; 4; 2; 5; 3; 6; 3; 6])))
  | _ => False
  end.
Proof. split; [exact zbank2_pr|]. split; [exact zbank_pr|]. split; vm_compute; reflexivity. Qed.

Theorem C23_dwt2_is_dwtn : forall (C : CRing) fuel junk (data : sarr C) w m ax1 ax2 s1 s2,
  sarr_ok C data -> 1 <= ndim data <= 64 -> Z.of_nat (distinct [ax1; ax2]) <= ndim data ->
  resolves C (ndim data) w m [ax1; ax2] [s1; s2] -> plan_ok C fuel [s1; s2] (sshape data) ->
  exists D aa da ad dd, dwtn fuel junk data w m (Some [ax1; ax2]) = Ok D /\
   D = [("aa", aa); ("ad", ad); ("da", da); ("dd", dd)]%string /\
   dwt2 fuel junk data w m [ax1; ax2] = Ok (aa, (da, ad, dd)) /\
   forall w' m', idwt2 fuel junk (Some aa, (Some da, Some ad, Some dd)) w' m' [ax1; ax2]
     = idwtn fuel junk [("aa", Some aa); ("da", Some da); ("ad", Some ad); ("dd", Some dd)]%string w' m' (Some [ax1; ax2]).
Proof. exact dwt2_dwtn. Qed.
Print Assumptions C23_dwt2_is_dwtn.
Theorem C23_idwt2_dwt2 : forall (C : CRing) fuel junk (data : sarr C) w m ax1 ax2 s1 s2 B,
  sarr_ok C data -> 1 <= ndim data <= 64 -> Z.of_nat (distinct [ax1; ax2]) <= ndim data ->
  resolves C (ndim data) w m [ax1; ax2] [s1; s2] -> plan_good C fuel B (sshape data) [s1; s2] ->
  pr_wavelet (st_w C s1) -> pr_wavelet (st_w C s2) ->
  exists aa da ad dd r, dwt2 fuel junk data w m [ax1; ax2] = Ok (aa, (da, ad, dd)) /\
    idwt2 fuel junk (Some aa, (Some da, Some ad, Some dd)) w m [ax1; ax2] = Ok (Some r) /\
    sshape r = odd_up [st_ax C s1; st_ax C s2] (sshape data) /\
    (forall idx, valid (sshape data) idx -> ndget (val C r) idx = ndget (val C data) idx).
Proof. exact idwt2_dwt2. Qed.
Print Assumptions C23_idwt2_dwt2.
Example C23_dwt2_ex : Z.of_nat (distinct [0; -1]) <= ndim xt /\
  dwt2 99 jk xt (Seq [zbank2; zbank]) (Seq [SYMMETRIC; PERIODIZATION]) [0; -1]
  = Ok (of_nd (mkNd (C := Zring) [2; 1] [-62; -90]), (of_nd (mkNd (C := Zring) [2; 1] [-39; -60]),
        of_nd (mkNd (C := Zring) [2; 1] [-43; -63]), of_nd (mkNd (C := Zring) [2; 1] [-27; -42]))).
Proof. split; vm_compute; congruence. Qed.

(** C23 fails for a repeated axis: with 6 samples, axes=(0, 0) and the
    periodization mode, sample 5 comes back as 0 instead of 6. *)
Theorem C23_repeated_axes_refuted : exists (data : sarr Zring) w m axes,
  sarr_ok Zring data /\ pr_wavelet w /\ min_len m <= nthz 0 (sshape data) /\
  exists D r, dwtn 99 jk data (One w) (One m) axes = Ok D /\
    idwtn 99 jk (map (fun '(k, v) => (k, Some v)) D) (One w) (One m) axes = Ok (Some r) /\
    valid (sshape data) [5] /\ ndget (val Zring r) [5] <> ndget (val Zring data) [5].
Proof. exact repeated_axes_bad. Qed.
Print Assumptions C23_repeated_axes_refuted.

(** C52 *)
Theorem C52_per_axis : forall A (p : per_axis A) n,
  objs_per_axis p n = match p with
  | One a => Ok (repeat a n)
  | Seq l => if Nat.eqb (List.length l) 1 then Ok (flat_map (fun a => repeat a n) l)
             else if Nat.eqb (List.length l) n then Ok l else Err ValueError
  end.
Proof. exact @per_axis_spec. Qed.
Print Assumptions C52_per_axis.
Example C52_ex : objs_per_axis (Seq [7]) 3 = Ok [7; 7; 7] /\ objs_per_axis (One 7) 2 = Ok [7; 7] /\
  objs_per_axis (Seq [1; 2]) 2 = Ok [1; 2] /\ objs_per_axis (Seq [1; 2]) 3 = Err ValueError.
Proof. repeat split. Qed.

(** C55: dwtn, dwt2 and idwtn do not check that the axes lie in the array. *)
Theorem C55_dwtn_axis_refuted : exists (data : sarr Zring) w m axes,
  sarr_ok Zring data /\ pr_wavelet w /\ dwtn 99 jk data (One w) (One m) (Some axes) = OOB.
Proof. exact (ex_intro _ d6 (ex_intro _ zbank (ex_intro _ SYMMETRIC (ex_intro _ [1] (conj d6_ok (conj zbank_pr eq_refl)))))). Qed.
Print Assumptions C55_dwtn_axis_refuted.
Theorem C55_dwt2_axis_refuted : exists (data : sarr Zring) w m axes,
  sarr_ok Zring data /\ pr_wavelet w /\ dwt2 99 jk data (One w) (One m) axes = OOB.
Proof. exact (ex_intro _ x23 (ex_intro _ zbank (ex_intro _ SYMMETRIC (ex_intro _ [0; 2] (conj x23_ok (conj zbank_pr eq_refl)))))). Qed.
Print Assumptions C55_dwt2_axis_refuted.
Theorem C55_idwtn_axis_refuted : exists (x : sarr Zring) w m,
  sarr_ok Zring x /\ pr_wavelet w /\ idwtn 99 jk [("aaa"%string, Some x)] (One w) (One m) None = OOB.
Proof. exact (ex_intro _ x23 (ex_intro _ zbank (ex_intro _ SYMMETRIC (conj x23_ok (conj zbank_pr eq_refl))))). Qed.
Print Assumptions C55_idwtn_axis_refuted.

(** C56: keys longer than the list of axes make idwtn return None. *)
Theorem C56_idwtn_none_refuted : exists (x : sarr Zring) w m,
  sarr_ok Zring x /\ pr_wavelet w /\ idwtn 99 jk [("aa"%string, Some x)] (One w) (One m) (Some [0]) = Ok None.
Proof. exact (ex_intro _ x23 (ex_intro _ zbank (ex_intro _ SYMMETRIC (conj x23_ok (conj zbank_pr eq_refl))))). Qed.
Print Assumptions C56_idwtn_none_refuted.
