(** Properties of the n-dimensional stationary transform (C70-C72, C92). *)
From Coq Require Import QArith Qcanon Ascii String ZArith List. Import ListNotations. Local Open Scope Z_scope.
From Verif Require Import Base BaseLemmas CConv Spec SwtSpec Instances Lengths Dwt DwtProofs Swt SwtProofs Nd NdSpec Axis AxisProofs AxisProofs2 NdLinear Multidim MultidimProofs MultilevelNd SwtNd NdSwtSpec SwtNdLevel SwtNdFwd SwtNdInv SwtNd2 SwtAxisInv ExBanks ExBanks2 ExNd ExSwtNd.

(** C70: every sub-band of every level is the one its key names; norm = Some (1/sqrt 2)
    models norm=True (the bank of every axis is rescaled). *)
Theorem C70_swtn_bands : forall (C : CRing) fuel junk (data : sarr C) w level s axes trim norm plan0,
  let plan := norm_plan norm plan0 in
  sarr_ok C data -> 1 <= ndim data <= 64 -> 0 <= s -> 1 <= level ->
  swt_resolves (ndim data) w (default_axes (ndim data) axes) plan0 ->
  swt_plan_ok fuel (s + level) (sshape data) plan ->
  swtn fuel junk data w level s axes trim norm = Ok (swtn_result trim plan s (Z.to_nat level) (val C data)).
Proof. exact swtn_spec. Qed.
Print Assumptions C70_swtn_bands.
Example C70_ex : sarr_ok Zring x42 /\ swt_resolves 2 (One zbank2) [0; -1] plan2 /\ swt_plan_ok 99 1 [4; 2] plan2 /\
  val Zring x42 = mkNd (C := Zring) [4; 2] [1; 5; 2; 6; 3; 7; 4; 8] /\
  swtn 99 jk x42 (One zbank2) 1 0 (Some [0; -1]) true None
  = Ok [NArr (z42 [39; 27; 48; 36; 57; 45; 42; 30]);
        NDict [("ad", z42 [22; 22; 28; 28; 34; 34; 24; 24]); ("da", z42 [25; 17; 31; 23; 37; 29; 31; 23]); ("dd", z42 [14; 14; 18; 18; 22; 22; 18; 18])]]%string.
Proof. split; [exact x42_ok|]. split; [exact plan2_resolves|]. split; [exact plan2_ok|]. split; vm_compute; reflexivity. Qed.

Theorem C70_swt_axis : forall (C : CRing) fuel junk (data : sarr C) w level s axis (ax : nat) trim norm,
  let N := nthz ax (sshape data) in let w' := norm_w norm w in
  sarr_ok C data -> 1 <= ndim data <= 64 -> norm_ax (ndim data) axis = Z.of_nat ax -> (ax < List.length (sshape data))%nat ->
  wf_bank w -> 1 <= N -> 0 <= s -> 1 <= level -> (2 ^ (s + level) | N) -> swt_resources fuel N (dec_len w) (s + level) ->
  prodZ (sshape data) < max_alloc ->
  py_swt fuel junk data w (Some level) s axis trim norm = Ok (ndswt_out C trim ax (dec_lo w') (dec_hi w') s (Z.to_nat level) (val C data)).
Proof. exact py_swt_spec. Qed.
Print Assumptions C70_swt_axis.
Example C70_axis_ex : norm_ax (ndim x42) (-2) = Z.of_nat 0 /\ wf_bank zbank2 /\ (2 ^ (1 + 1) | nthz 0 (sshape x42)) /\ swt_resources 99 4 (dec_len zbank2) 2 /\
  py_swt 99 jk x42 zbank2 (Some 1) 1 (-2) true None
  = Ok [SArr (z42 [7; 19; 10; 22; 5; 17; 8; 20]); SArr (z42 [4; 12; 6; 14; 4; 12; 6; 14])].
Proof. split; [reflexivity|]. split; [exact (pr_wf _ zbank2_pr)|]. split; [exists 1; reflexivity|]. split; [repeat split; vm_compute; congruence|vm_compute; reflexivity]. Qed.

(** C71: the inverse undoes the transform from start_level = 0, with and without
    trim_approx and norm, in any number of dimensions. *)
Theorem C71_iswtn_swtn : forall (C : CRing) fuel junk half (data : sarr C) w level axes trim norm plan,
  half [+] half = r1 -> match norm with Some (sq2, isq2) => sq2 [*] isq2 = r1 | None => True end ->
  sarr_ok C data -> 1 <= ndim data <= 64 -> 1 <= level ->
  swt_resolves (ndim data) w (default_axes (ndim data) axes) plan ->
  swt_plan_ok fuel level (sshape data) plan -> (forall p, In p plan -> pr_wavelet (snd p)) ->
  exists cs, swtn fuel junk data w level 0 axes trim (option_map snd norm) = Ok cs /\
    snd (iswtn fuel junk half cs w axes (option_map fst norm)) = Ok (of_nd (val C data)).
Proof. exact iswtn_swtn. Qed.
Print Assumptions C71_iswtn_swtn.
Example C71_ex : sarr_ok QS2 x22 /\ swt_resolves 2 (One haar) [0; 1] planq /\ swt_plan_ok 99 1 [2; 2] planq /\ (forall p, In p planq -> pr_wavelet (snd p)) /\
  halfs [+] halfs = (r1 : QS2) /\ sqrt2 [*] isqrt2 = (r1 : QS2) /\
  (cs <- swtn 99 jq x22 (One haar) 1 0 None true (Some isqrt2) ;; r <- snd (iswtn 99 jq halfs cs (One haar) None (Some sqrt2)) ;; Ok (shownd r))
  = Ok ([2; 2], [(3, 0); (1, 0); (4, 0); (1, 0)]%Q).
Proof. split; [exact x22_ok|]. split; [exact planq_resolves|]. split; [exact planq_ok|]. split; [exact planq_pr|]. split; [apply halfs_ok|]. split; [apply halfs_ok|vm_compute; reflexivity]. Qed.

Theorem C71_iswt_swt_axis : forall (C : CRing) fuel junk half (data : sarr C) w level axis (ax : nat) trim norm,
  let N := nthz ax (sshape data) in
  half [+] half = r1 -> match norm with Some (sq2, isq2) => sq2 [*] isq2 = r1 | None => True end ->
  sarr_ok C data -> 1 <= ndim data <= 64 -> norm_ax (ndim data) axis = Z.of_nat ax -> (ax < List.length (sshape data))%nat ->
  pr_wavelet w -> 1 <= N -> 1 <= level -> (2 ^ level | N) -> swt_resources fuel N (dec_len w) level ->
  prodZ (sshape data) < max_alloc ->
  exists cs, py_swt fuel junk data w (Some level) 0 axis trim (option_map snd norm) = Ok cs /\
    py_iswt fuel junk half cs w (option_map fst norm) axis = Ok (of_nd (val C data)).
Proof. exact py_iswt_swt. Qed.
Print Assumptions C71_iswt_swt_axis.
Example C71_axis_ex : norm_ax (ndim x22) (-1) = Z.of_nat 1 /\ pr_wavelet haar /\ (2 ^ 1 | nthz 1 (sshape x22)) /\ swt_resources 99 2 (dec_len haar) 1 /\
  (cs <- py_swt 99 jq x22 haar (Some 1) 0 (-1) true None ;; r <- py_iswt 99 jq halfs cs haar None (-1) ;; Ok (shownd r))
  = Ok ([2; 2], [(3, 0); (1, 0); (4, 0); (1, 0)]%Q).
Proof. split; [reflexivity|]. split; [exact haar_pr|]. split; [exists 1; reflexivity|]. split; [repeat split; vm_compute; congruence|vm_compute; reflexivity]. Qed.

(** C72: the 2-D functions are the n-D functions on two axes. *)
Theorem C72_swt2_bands : forall (C : CRing) fuel junk (data : sarr C) w level s axes trim norm plan0,
  let plan := norm_plan norm plan0 in
  sarr_ok C data -> 2 <= ndim data <= 64 -> 0 <= s -> 1 <= level -> List.length plan0 = 2%nat ->
  swt_resolves (ndim data) w axes plan0 -> swt_plan_ok fuel (s + level) (sshape data) plan ->
  swt2 fuel junk data w level s axes trim norm = Ok (swt2_result trim plan s (Z.to_nat level) (val C data)).
Proof. exact swt2_spec. Qed.
Print Assumptions C72_swt2_bands.
Example C72_bands_ex : sarr_ok Zring x42 /\ swt_resolves 2 (One zbank2) [1; 0] (rev plan2) /\ swt_plan_ok 99 1 [4; 2] (rev plan2) /\
  swt2 99 jk x42 (One zbank2) 1 0 [1; 0] false None
  = Ok [AD2 (z42 [39; 27; 48; 36; 57; 45; 42; 30]) (z42 [22; 22; 28; 28; 34; 34; 24; 24])
            (z42 [25; 17; 31; 23; 37; 29; 31; 23]) (z42 [14; 14; 18; 18; 22; 22; 18; 18])].
Proof. split; [exact x42_ok|]. split; [split; reflexivity|]. split; [exact plan2_perm_ok|vm_compute; reflexivity]. Qed.

Theorem C72_iswt2_swt2 : forall (C : CRing) fuel junk half (data : sarr C) w level axes trim norm plan,
  half [+] half = r1 -> match norm with Some (sq2, isq2) => sq2 [*] isq2 = r1 | None => True end ->
  sarr_ok C data -> 2 <= ndim data <= 64 -> 1 <= level -> List.length plan = 2%nat ->
  swt_resolves (ndim data) w axes plan ->
  swt_plan_ok fuel level (sshape data) plan -> (forall p, In p plan -> pr_wavelet (snd p)) ->
  exists cs, swt2 fuel junk data w level 0 axes trim (option_map snd norm) = Ok cs /\
    iswt2 fuel junk half cs w (option_map fst norm) axes = Ok (of_nd (val C data)).
Proof. exact iswt2_swt2. Qed.
Print Assumptions C72_iswt2_swt2.
Example C72_ex : sarr_ok QS2 x22 /\ swt_resolves 2 (One haar) [0; 1] planq /\ swt_plan_ok 99 1 [2; 2] planq /\ (forall p, In p planq -> pr_wavelet (snd p)) /\
  (cs <- swt2 99 jq x22 (One haar) 1 0 [0; 1] true (Some isqrt2) ;; r <- iswt2 99 jq halfs cs (One haar) (Some sqrt2) [0; 1] ;; Ok (shownd r))
  = Ok ([2; 2], [(3, 0); (1, 0); (4, 0); (1, 0)]%Q).
Proof. split; [exact x22_ok|]. split; [exact planq_resolves|]. split; [exact planq_ok|]. split; [exact planq_pr|vm_compute; reflexivity]. Qed.

(** For arbitrary coefficients, not only those of a transform. *)
Theorem C72_iswt2_is_iswtn : forall (C : CRing) fuel junk half w axes norm plan sh (a : sarr C) ds,
  ds <> [] -> sarr_ok C a -> sshape a = sh -> (forall t, In t ds -> triple_ok C sh t) ->
  List.length plan = 2%nat -> swt_resolves (zlen sh) w axes plan -> swt_plan_ok fuel (zlen ds) sh plan ->
  exists r, iswt2 fuel junk half (A2 a :: map (fun '(h, v, d) => D2 h v d) ds) w norm axes = Ok r /\ sarr_ok C r /\ sshape r = sh /\
    snd (iswtn fuel junk half (NArr a :: map (fun '(h, v, d) => NDict [("da", h); ("ad", v); ("dd", d)]%string) ds) w (Some axes) norm) = Ok r.
Proof. exact iswt2_iswtn. Qed.
Print Assumptions C72_iswt2_is_iswtn.
Example C72_is_ex : swt_resolves 2 (One haar) [0; 1] planq /\ swt_plan_ok 99 1 [2; 2] planq /\
  triple_ok QS2 [2; 2] (q22 [1; 0; 2; 0], q22 [0; 1; 0; 0], q22 [5; 0; 0; 0]) /\
  (r <- iswt2 99 jq halfs [A2 (q22 [1; 2; 3; 4]); D2 (q22 [1; 0; 2; 0]) (q22 [0; 1; 0; 0]) (q22 [5; 0; 0; 0])] (One haar) None [0; 1] ;; Ok (shownd r))
  = Ok ([2; 2], [(13 # 8, 0); (5 # 8, 0); (5 # 8, 0); (17 # 8, 0)]%Q).
Proof.
  split; [exact planq_resolves|]. split; [exact planq_ok|]. split; [|vm_compute; reflexivity].
  split; [|split]; (split; [apply of_nd_ok; split; [repeat constructor; cbn; lia|reflexivity]|reflexivity]).
Qed.

(** C92: iswtn does not check that the axes lie in the array. *)
Theorem C92_iswtn_range_refuted : exists (data : sarr QS2) axes a, sarr_ok QS2 data /\ ndim data = 2 /\ In a axes /\ a < - ndim data /\
  (cs <- swtn 99 jq data (One haar) 1 0 (Some [1]) false None ;; r <- snd (iswtn 99 jq halfs cs (One haar) (Some axes) None) ;; Ok (shownd r)) = Ok (shownd data).
Proof. exact iswtn_axis_low. Qed.
Print Assumptions C92_iswtn_range_refuted.
