(** Properties of the fully separable transform and of wavedec/waverec along an
    axis. *)
From Coq Require Import QArith Sorted.
From Verif Require Import Base BaseLemmas CConv Spec Instances Lengths Dwt DwtProofs Multilevel MultilevelProofs Swt Nd NdSpec Axis AxisProofs Multidim MultidimProofs MultidimFacts
  MultilevelNd MultilevelNdProofs SwtNd PackSpec Packing PackBox Fsw FswSpec FswLine FswAxis FswProofs FswBands FswWave ExBanks ExNd ExFsw.
Open Scope Z_scope.

(** C28. [fsw_resolves]: the arguments ask for the plan, a list of an axis, a
    number of levels, a wavelet and a mode each; [fsw_good]: the axes are
    distinct and within the array, the modes can extend the data on every level,
    and memory for the intermediate arrays. *)
Theorem C28_round_trip : forall (C : CRing) fuel junk (data : sarr C) w m levels axes plan B, sarr_ok C data -> fsw_resolves C (sshape data) w m levels axes plan ->
  fsw_good C fuel B (sshape data) plan -> (forall s, In s plan -> pr_wavelet (fs_w s)) ->
  exists r y, fswavedecn fuel junk data w m levels axes = Ok r /\ fswaverecn fuel junk r = Ok y /\
    nshape y = grown_all plan (sshape data) /\ (forall idx, Nd.valid (sshape data) idx -> ndget y idx = ndget (val C data) idx).
Proof. exact fsw_round_trip. Qed.
Print Assumptions C28_round_trip.
Example C28_round_trip_ex : sarr_ok Zring xt /\ fsw_resolves Zring (sshape xt) fwv fmd flv fax [fp0; fp1] /\
  fsw_good Zring 99 [16; 16] (sshape xt) [fp0; fp1] /\ (forall s, In s [fp0; fp1] -> pr_wavelet (fs_w s)) /\
  fswavedecn 99 jk xt fwv fmd flv fax = Ok fs_ex /\ grown_all [fp0; fp1] (sshape xt) = [4; 2] /\
  fswaverecn 99 jk fs_ex = Ok (mkNd (C := Zring) [4; 2] [1; 4; 2; 5; 3; 6; 3; 6]).
Proof. exact (conj xt_ok (conj fs_ex_resolves (conj fs_ex_good (conj fs_ex_pr (conj eq_refl (conj eq_refl eq_refl)))))). Qed.

(** C28: what the sub-band of a key holds, namely for every line along the
    first axis the approximation (0) or the details number j, and so on along
    the other axes. *)
Theorem C28_bands : forall (C : CRing) fuel junk (data : sarr C) w m levels axes plan B key, sarr_ok C data -> fsw_resolves C (sshape data) w m levels axes plan ->
  fsw_good C fuel B (sshape data) plan -> is_key plan key ->
  exists r, fswavedecn fuel junk data w m levels axes = Ok r /\ layout C plan (sshape data) r /\ fs_get r (map NInt key) = Ok (sub_all plan key (val C data)).
Proof. exact fsw_bands. Qed.
Print Assumptions C28_bands.
Example C28_bands_ex : sarr_ok Zring xt /\ fsw_resolves Zring (sshape xt) fwv fmd flv fax [fp0; fp1] /\ fsw_good Zring 99 [16; 16] (sshape xt) [fp0; fp1] /\
  is_key [fp0; fp1] [1; 1] /\ is_key [fp0; fp1] [2; 0] /\ layout Zring [fp0; fp1] (sshape xt) fs_ex /\
  fs_get fs_ex (map NInt [2; 0]) = Ok (sub_all [fp0; fp1] [2; 0] (val Zring xt)) /\ nshape (sub_all [fp0; fp1] [2; 0] (val Zring xt)) = [2; 1].
Proof. exact (conj xt_ok (conj fs_ex_resolves (conj fs_ex_good (conj (proj1 fs_ex_key) (conj (proj2 fs_ex_key) (conj fs_ex_layout (conj eq_refl eq_refl))))))). Qed.

(** C28: every element of the array of coefficients belongs to the sub-band of
    exactly one key. [layout] is kept by assignments to sub-bands (C28_set). *)
Theorem C28_partition : forall (C : CRing) plan sh (r : fsw (C := C)) idx, layout C plan sh r -> Nd.valid (nshape (fs_coeffs r)) idx ->
  exists key ss, (is_key plan key /\ get_coef_sl r (map NInt key) = Ok ss /\ selects ss (nshape (fs_coeffs r)) idx) /\
  forall key' ss', is_key plan key' -> get_coef_sl r (map NInt key') = Ok ss' -> selects ss' (nshape (fs_coeffs r)) idx -> key' = key.
Proof. exact fs_partition. Qed.
Print Assumptions C28_partition.
Example C28_partition_ex : layout Zring [fp0; fp1] (sshape xt) fs_ex /\ Nd.valid (nshape (fs_coeffs fs_ex)) [3; 1] /\
  get_coef_sl fs_ex (map NInt [2; 1]) = Ok [SRange 2 4; SRange 1 2].
Proof. exact (conj fs_ex_layout (conj ex_valid eq_refl)). Qed.

Theorem C28_set : forall (C : CRing) plan sh (r : fsw (C := C)) key x band, layout C plan sh r -> is_key plan key -> nd_wf x ->
  fs_get r (map NInt key) = Ok band -> nshape x = nshape band ->
  exists c, fs_set r (map NInt key) x = Ok (with_coeffs C r c) /\ layout C plan sh (with_coeffs C r c) /\
    fs_get (with_coeffs C r c) (map NInt key) = Ok x /\
    forall key', is_key plan key' -> key' <> key -> fs_get (with_coeffs C r c) (map NInt key') = fs_get r (map NInt key').
Proof. exact fs_set_spec. Qed.
Print Assumptions C28_set.
Example C28_set_ex : layout Zring [fp0; fp1] (sshape xt) fs_ex /\ is_key [fp0; fp1] [2; 0] /\
  exists r', fs_set fs_ex (map NInt [2; 0]) (mkNd (C := Zring) [2; 1] [70; 71]) = Ok r' /\ fs_get r' (map NInt [2; 0]) = Ok (mkNd (C := Zring) [2; 1] [70; 71]) /\
    fs_get r' (map NInt [2; 1]) = fs_get fs_ex (map NInt [2; 1]) /\ fs_set fs_ex (map NInt [2; 0]) (mkNd (C := Zring) [1; 2] [70; 71]) = Err ValueError.
Proof. exact (conj fs_ex_layout (conj (proj2 fs_ex_key) (ex_intro _ _ (conj eq_refl (conj eq_refl (conj eq_refl eq_refl)))))). Qed.

Theorem C28_detail_keys : forall (C : CRing) plan sh (r : fsw (C := C)), layout C plan sh r ->
  exists keys, detail_keys r = Ok keys /\ NoDup keys /\ Sorted lex_le keys /\
    forall key, In key keys <-> is_key plan key /\ key <> repeat 0 (List.length plan).
Proof. exact detail_keys_spec. Qed.
Print Assumptions C28_detail_keys.
Example C28_detail_keys_ex : layout Zring [fp0; fp1] (sshape xt) fs_ex /\ detail_keys fs_ex = Ok [[0; 1]; [1; 0]; [1; 1]; [2; 0]; [2; 1]].
Proof. exact (conj fs_ex_layout eq_refl). Qed.

Theorem C28_approx : forall (C : CRing) plan sh (r : fsw (C := C)), layout C plan sh r -> fs_approx r = fs_get r (map NInt (repeat 0 (List.length plan))).
Proof. exact fs_approx_spec. Qed.
Print Assumptions C28_approx.
Example C28_approx_ex : layout Zring [fp0; fp1] (sshape xt) fs_ex /\ exists a, fs_approx fs_ex = Ok a /\ nshape a = [1; 1].
Proof. exact (conj fs_ex_layout (ex_intro _ _ (conj eq_refl eq_refl))). Qed.

Theorem C28_bad_keys : forall (C : CRing) plan sh (r : fsw (C := C)) key, layout C plan sh r -> ~ is_key plan key -> validate_index r (map NInt key) = Err ValueError.
Proof. exact validate_bad. Qed.
Print Assumptions C28_bad_keys.
Example C28_bad_keys_ex : layout Zring [fp0; fp1] (sshape xt) fs_ex /\ (~ is_key [fp0; fp1] [3; 0] /\ ~ is_key [fp0; fp1] [0; -1] /\ ~ is_key [fp0; fp1] [0]) /\
  fs_get fs_ex (map NInt [3; 0]) = Err ValueError /\ fs_get fs_ex (map NInt [0; -1]) = Err ValueError /\ fs_get fs_ex (map NInt [0]) = Err ValueError.
Proof. exact (conj fs_ex_layout (conj fs_ex_bad_key (conj eq_refl (conj eq_refl eq_refl)))). Qed.

(** C65. wavedec and waverec along one axis of an array. *)
Theorem C65_lines : forall (C : CRing) fuel junk (data : sarr C) w m level axis k n, sarr_ok C data -> ndim data <= 64 ->
  norm_axis (ndim data) axis = Z.of_nat k -> (k < List.length (sshape data))%nat -> wf_bank w ->
  1 <= nthz k (sshape data) -> level_is (nthz k (sshape data)) (dec_len w) level n ->
  levels_ok m (dec_len w) n (nthz k (sshape data)) -> resources fuel (nthz k (sshape data)) (dec_len w) ->
  roomy k (sshape data) (2 * Z.max (nthz k (sshape data)) (dec_len w)) ->
  exists cs, py_wavedec fuel junk data w m level axis = Ok cs /\ List.length cs = S n /\
    forall j, (j <= n)%nat -> val C (nth j cs data) = sub_ax (mkFstep k n w m) (Z.of_nat j) (val C data).
Proof. exact wavedec_lines. Qed.
Print Assumptions C65_lines.
Theorem C65_round_trip : forall (C : CRing) fuel junk (data : sarr C) w m level axis k n B, sarr_ok C data -> ndim data <= 64 ->
  norm_axis (ndim data) axis = Z.of_nat k -> (k < List.length (sshape data))%nat -> pr_wavelet w ->
  1 <= nthz k (sshape data) -> level_is (nthz k (sshape data)) (dec_len w) level n ->
  levels_ok m (dec_len w) n (nthz k (sshape data)) -> resources fuel (nthz k (sshape data)) (dec_len w) ->
  fsw_good C fuel B (sshape data) [mkFstep k n w m] ->
  exists cs r, py_wavedec fuel junk data w m level axis = Ok cs /\ py_waverec fuel junk (map Some cs) w m axis = Ok (Some r) /\
    sshape r = grown (mkFstep k n w m) (sshape data) /\ forall idx, Nd.valid (sshape data) idx -> ndget (val C r) idx = ndget (val C data) idx.
Proof. exact wavedec_round_trip. Qed.
Print Assumptions C65_round_trip.
Example C65_ex : sarr_ok Zring xt /\ ndim xt <= 64 /\ norm_axis (ndim xt) (-2) = Z.of_nat 0 /\ pr_wavelet zbank2 /\
  level_is 3 2 (Some 2) 2 /\ (forall s, In s [fp0] -> levels_ok SYMMETRIC (dec_len zbank2) 2 (nthz 0 (sshape xt))) /\ resources 99 3 2 /\
  fsw_good Zring 99 [16; 16] (sshape xt) [fp0] /\
  exists cs, py_wavedec 99 jk xt zbank2 SYMMETRIC (Some 2) (-2) = Ok cs /\ map (@sshape Zring) cs = [[1; 2]; [1; 2]; [2; 2]] /\
    exists r, py_waverec 99 jk (map Some cs) zbank2 SYMMETRIC (-2) = Ok (Some r) /\ val Zring r = mkNd (C := Zring) [4; 2] [1; 4; 2; 5; 3; 6; 3; 6].
Proof. exact ex65. Qed.

(** C66. *)
Theorem C66_rejected_partial : forall (C : CRing) fuel junk (data : sarr C) w m levels axes,
  (~ NoDup axes \/ exists ax, In ax axes /\ (ax < - ndim data \/ ndim data <= ax)) ->
  fswavedecn fuel junk data w m levels (Some axes) = Err AxisError.
Proof. exact fswavedecn_axes. Qed.
Print Assumptions C66_rejected_partial.
Example C66_rejected_ex : ~ NoDup [0; 1; 0] /\ fswavedecn 99 jk xt fwv fmd flv (Some [0; 1; 0]) = Err AxisError /\ fswavedecn 99 jk xt fwv fmd flv (Some [2; 0]) = Err AxisError.
Proof. exact (conj ex_dup (conj eq_refl eq_refl)). Qed.
Theorem C66_refuted : exists (data : sarr Zring) w m,
  sarr_ok Zring data /\ pr_wavelet w /\ ndim data = 1 /\
  exists r, fswavedecn 99 jk data (One w) (One m) (One (Some 1)) (Some [0; -1]) = Ok r /\ fswaverecn 99 jk r = Err ValueError.
Proof. exact fsw_axes_bad. Qed.
Print Assumptions C66_refuted.

(** C67. *)
Theorem C67_refuted : exists (r : fsw (C := Zring)) q, layout Zring [fp0; fp1] (sshape xt) r /\ (q == inject_Z 1)%Q /\
  validate_index r [NFloat q; NInt 0] = Ok tt /\ fs_get r [NFloat q; NInt 0] = Err TypeError /\ (exists b, fs_get r [NInt 1; NInt 0] = Ok b).
Proof. exact fsw_float_bad. Qed.
Print Assumptions C67_refuted.
