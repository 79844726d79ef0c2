(** Properties of the 2-D and n-D multiresolution analysis (C73, C74). *)
From Coq Require Import QArith Qcanon Ascii String ZArith List. Import ListNotations. Local Open Scope Z_scope.
From Verif Require Import Base BaseLemmas CConv Spec SwtSpec Instances Lengths Dwt DwtProofs Multilevel MultilevelProofs Swt SwtProofs Nd NdSpec Axis AxisProofs AxisProofs2 NdLinear Multidim MultidimProofs MultilevelNd MultilevelNdProofs MultilevelNdFacts SwtNd NdSwtSpec SwtNdLevel SwtNdFwd Mra MraProofs MranLoop MranSwt MranDwt MranTerms ExBanks ExBanks2 ExNd ExNd2 ExSwtNd ExMraNd.

(** C73: the terms have the shape of the data, one dictionary per level with every key but the all-'a' one,
    and add up to the data. [psum] is the sum over a list. *)
Theorem C73_mran_swt : forall (C : CRing) fuel junk half sq2 isq2 (data : sarr C) w level axes plan,
  half [+] half = r1 -> sq2 [*] isq2 = r1 -> sarr_ok C data -> 1 <= ndim data <= 64 -> 1 <= level ->
  swt_resolves (ndim data) w (default_axes (ndim data) axes) plan ->
  swt_plan_ok fuel level (sshape data) plan -> (forall p, In p plan -> pr_wavelet (snd p)) ->
  exists cA out, mran fuel junk half sq2 isq2 data w (Some level) axes TSwt (One PERIODIZATION) = Ok (cA, out) /\
    sarr_ok C cA /\ sshape cA = sshape data /\ List.length out = Z.to_nat level /\
    (forall d, In d out -> map fst d = tl (ad_keys (List.length plan)) /\ forall k v, In (k, v) d -> sarr_ok C v /\ sshape v = sshape data) /\
    forall idx, valid (sshape data) idx ->
      ndget (val C cA) idx [+] psum C (fun '(_, v) => ndget (val C v) idx) (concat out) = ndget (val C data) idx.
Proof. exact mran_swt. Qed.
Print Assumptions C73_mran_swt.
Example C73_mran_swt_ex : halfs [+] halfs = (r1 : QS2) /\ sqrt2 [*] isqrt2 = (r1 : QS2) /\ sarr_ok QS2 x22 /\
  swt_resolves 2 (One haar) (default_axes 2 None) planq /\ swt_plan_ok 99 1 [2; 2] planq /\ (forall p, In p planq -> pr_wavelet (snd p)) /\
  tl (ad_keys 2) = ["ad"; "da"; "dd"]%string /\
  show_n (mran 99 jq halfs sqrt2 isqrt2 x22 (One haar) (Some 1) None TSwt (One PERIODIZATION))
  = Ok (([2; 2], [(9 # 4, 0); (9 # 4, 0); (9 # 4, 0); (9 # 4, 0)]%Q),
      [[("ad", ([2; 2], [(5 # 4, 0); (- 5 # 4, 0); (5 # 4, 0); (- 5 # 4, 0)]%Q));
        ("da", ([2; 2], [(- 1 # 4, 0); (- 1 # 4, 0); (1 # 4, 0); (1 # 4, 0)]%Q));
        ("dd", ([2; 2], [(- 1 # 4, 0); (1 # 4, 0); (1 # 4, 0); (- 1 # 4, 0)]%Q))]]%string).
Proof.
  split; [exact (proj1 halfs_ok)|]. split; [exact (proj2 halfs_ok)|]. split; [exact x22_ok|]. split; [exact planq_resolves|].
  split; [exact planq_ok|]. split; [exact planq_pr|]. split; [reflexivity|vm_compute; reflexivity].
Qed.

Theorem C73_mran_dwt : forall (C : CRing) fuel junk half sq2 isq2 (data : sarr C) w m level axes plan B l,
  sarr_ok C data -> 1 <= ndim data <= 64 -> plan <> [] ->
  resolves C (ndim data) w m (default_axes (ndim data) axes) plan ->
  plan_good C fuel B (sshape data) plan -> (forall s, In s plan -> pr_wavelet (st_w C s)) ->
  check_level (level_pairs C (sshape data) plan) level = Ok l ->
  (forall s, In s plan -> levels_ok (st_m C s) (dec_len (st_w C s)) (Z.to_nat l) (nthz (st_ax C s) (sshape data))) ->
  exists cA out, mran fuel junk half sq2 isq2 data w level axes TDwt m = Ok (cA, out) /\
    sarr_ok C cA /\ sshape cA = sshape data /\ List.length out = Z.to_nat l /\
    (forall d, In d out -> map fst d = tl (ad_keys (List.length plan)) /\ forall k v, In (k, v) d -> sarr_ok C v /\ sshape v = sshape data) /\
    forall idx, valid (sshape data) idx ->
      ndget (val C cA) idx [+] psum C (fun '(_, v) => ndget (val C v) idx) (concat out) = ndget (val C data) idx.
Proof. exact mran_dwt. Qed.
Print Assumptions C73_mran_dwt.
Example C73_mran_dwt_ex : sarr_ok Zring xt /\ plan_good Zring 99 [16; 16] (sshape xt) [st0; st1] /\
  resolves Zring (ndim xt) ew em (default_axes (ndim xt) (Some [0; -1])) [st0; st1] /\
  (forall s, In s [st0; st1] -> pr_wavelet (st_w Zring s)) /\
  check_level (level_pairs Zring (sshape xt) [st0; st1]) (Some 2) = Ok 2 /\
  (forall s, In s [st0; st1] -> levels_ok (st_m Zring s) (dec_len (st_w Zring s)) (Z.to_nat 2) (nthz (st_ax Zring s) (sshape xt))) /\
  match mran 99 jk 0 0 0 xt ew (Some 2) (Some [0; -1]) TDwt em with
  | Ok (a, [[("ad", p); ("da", q); ("dd", r)]; [("ad", p'); ("da", q'); ("dd", r')]])%string =>
      map (fun a => ndata (val Zring a)) [a; p; q; r; p'; q'; r'] = [[6776; -10164; -6776; 10164; -6776; 10164];
        [-7260; 10890; 7260; -10890; 7260; -10890]; [-8512; 12768; 8512; -12768; 4256; -6384];
        [9120; -13680; -9120; 13680; -4560; 6840]; [-129; 172; 129; -172; -189; 252];
        [-156; 234; 78; -117; -240; 360]; [162; -216; -81; 108; 252; -336]]
  | _ => False
  end.
Proof.
  split; [exact xt_ok|]. split; [exact plan_good_ex|]. split; [exact ex_resolves|].
  split; [intros s [<-|[<-|[]]]; [exact zbank2_pr|exact zbank_pr]|]. split; [reflexivity|]. split; [exact ex_levels|].
  vm_compute. reflexivity.
Qed.

Theorem C73_mra2_swt : forall (C : CRing) fuel junk half sq2 isq2 (data : sarr C) w level axes plan,
  half [+] half = r1 -> sq2 [*] isq2 = r1 -> sarr_ok C data -> 2 <= ndim data <= 64 -> 1 <= level -> List.length plan = 2%nat ->
  swt_resolves (ndim data) w axes plan ->
  swt_plan_ok fuel level (sshape data) plan -> (forall p, In p plan -> pr_wavelet (snd p)) ->
  exists cA out, mra2 fuel junk half sq2 isq2 data w (Some level) axes TSwt (One PERIODIZATION) = Ok (cA, out) /\
    sarr_ok C cA /\ sshape cA = sshape data /\ List.length out = Z.to_nat level /\
    (forall d, In d out -> List.length d = 3%nat /\ forall v, In v d -> sarr_ok C v /\ sshape v = sshape data) /\
    forall idx, valid (sshape data) idx ->
      ndget (val C cA) idx [+] psum C (fun v => ndget (val C v) idx) (concat out) = ndget (val C data) idx.
Proof. exact mra2_swt. Qed.
Print Assumptions C73_mra2_swt.
Example C73_mra2_swt_ex : sarr_ok QS2 x22 /\ swt_resolves 2 (One haar) [0; 1] planq /\ swt_plan_ok 99 1 [2; 2] planq /\
  show_2 (mra2 99 jq halfs sqrt2 isqrt2 x22 (One haar) (Some 1) [0; 1] TSwt (One PERIODIZATION))
  = Ok (([2; 2], [(9 # 4, 0); (9 # 4, 0); (9 # 4, 0); (9 # 4, 0)]%Q),
      [[([2; 2], [(- 1 # 4, 0); (- 1 # 4, 0); (1 # 4, 0); (1 # 4, 0)]%Q);
        ([2; 2], [(5 # 4, 0); (- 5 # 4, 0); (5 # 4, 0); (- 5 # 4, 0)]%Q);
        ([2; 2], [(- 1 # 4, 0); (1 # 4, 0); (1 # 4, 0); (- 1 # 4, 0)]%Q)]]).
Proof. split; [exact x22_ok|]. split; [exact planq_resolves|]. split; [exact planq_ok|vm_compute; reflexivity]. Qed.

Theorem C73_mra2_dwt : forall (C : CRing) fuel junk half sq2 isq2 (data : sarr C) w m level ax1 ax2 plan B l,
  sarr_ok C data -> 2 <= ndim data <= 64 -> List.length plan = 2%nat ->
  resolves C (ndim data) w m [ax1; ax2] plan ->
  plan_good C fuel B (sshape data) plan -> (forall s, In s plan -> pr_wavelet (st_w C s)) ->
  check_level (level_pairs C (sshape data) plan) level = Ok l ->
  (forall s, In s plan -> levels_ok (st_m C s) (dec_len (st_w C s)) (Z.to_nat l) (nthz (st_ax C s) (sshape data))) ->
  exists cA out, mra2 fuel junk half sq2 isq2 data w level [ax1; ax2] TDwt m = Ok (cA, out) /\
    sarr_ok C cA /\ sshape cA = sshape data /\ List.length out = Z.to_nat l /\
    (forall d, In d out -> List.length d = 3%nat /\ forall v, In v d -> sarr_ok C v /\ sshape v = sshape data) /\
    forall idx, valid (sshape data) idx ->
      ndget (val C cA) idx [+] psum C (fun v => ndget (val C v) idx) (concat out) = ndget (val C data) idx.
Proof. exact mra2_dwt. Qed.
Print Assumptions C73_mra2_dwt.
Example C73_mra2_dwt_ex : plan_good Zring 99 [16; 16] (sshape xt) [st0; st1] /\
  resolves Zring (ndim xt) ew em [0; -1] [st0; st1] /\
  match mra2 99 jk 0 0 0 xt ew (Some 2) [0; -1] TDwt em with
  | Ok (a, [[p; q; r]; [p'; q'; r']]) =>
      map (fun a => ndata (val Zring a)) [a; p; q; r; p'; q'; r'] = [[6776; -10164; -6776; 10164; -6776; 10164];
        [-8512; 12768; 8512; -12768; 4256; -6384]; [-7260; 10890; 7260; -10890; 7260; -10890];
        [9120; -13680; -9120; 13680; -4560; 6840]; [-156; 234; 78; -117; -240; 360];
        [-129; 172; 129; -172; -189; 252]; [162; -216; -81; 108; 252; -336]]
  | _ => False
  end.
Proof. split; [exact plan_good_ex|]. split; [exact ex_resolves|]. vm_compute. reflexivity. Qed.

(** C73: imran and imra2 on those terms, wherever they are stored, return the data. *)
Theorem C73_imran_of_terms : forall (C : CRing) (h : heap (C := C)) c0 (ds : list (dict nat)) (cA : sarr C) (out : list (dict (sarr C))) (data : sarr C),
  nth_error h c0 = Some (val C cA) -> Forall2 (Forall2 (at_heap C h c0)) ds out -> sshape cA = sshape data ->
  (forall d k v, In d out -> In (k, v) d -> sshape v = sshape data) ->
  (forall idx, valid (sshape data) idx ->
     ndget (val C cA) idx [+] psum C (fun '(_, v) => ndget (val C v) idx) (concat out) = ndget (val C data) idx) ->
  exists h' y, imran h c0 ds = Ok (h', c0) /\ nth_error h' c0 = Some y /\ nshape y = sshape data /\
    forall idx, valid (sshape data) idx -> ndget y idx = ndget (val C data) idx.
Proof. exact imran_of_terms. Qed.
Print Assumptions C73_imran_of_terms.
Example C73_imran_of_terms_ex : let a := of_nd (mkNd (C := Zring) [2] [1; 5]) in let d := of_nd (mkNd (C := Zring) [2] [2; -3]) in
  let h := [val Zring d; val Zring a] in
  Forall2 (Forall2 (at_heap Zring h 1)) [[("d", 0%nat)]%string] [[("d", d)]%string] /\
  imran h 1 [[("d", 0%nat)]%string] = Ok ([val Zring d; mkNd (C := Zring) [2] [3; 2]], 1%nat).
Proof. cbv zeta. split; [repeat constructor; discriminate|reflexivity]. Qed.

Theorem C73_imra2_of_terms : forall (C : CRing) (h : heap (C := C)) c0 (ds : list (list nat)) (cA : sarr C) (out : list (list (sarr C))) (data : sarr C),
  nth_error h c0 = Some (val C cA) -> Forall2 (Forall2 (at_heap2 C h c0)) ds out -> sshape cA = sshape data ->
  (forall d, In d out -> List.length d = 3%nat /\ forall v, In v d -> sshape v = sshape data) ->
  (forall idx, valid (sshape data) idx ->
     ndget (val C cA) idx [+] psum C (fun v => ndget (val C v) idx) (concat out) = ndget (val C data) idx) ->
  exists h' y, imra2 h c0 ds = Ok (h', c0) /\ nth_error h' c0 = Some y /\ nshape y = sshape data /\
    forall idx, valid (sshape data) idx -> ndget y idx = ndget (val C data) idx.
Proof. exact imra2_of_terms. Qed.
Print Assumptions C73_imra2_of_terms.
Example C73_imra2_of_terms_ex : let v x := of_nd (mkNd (C := Zring) [1; 1] [x]) in
  let h := map (val Zring) [v 1; v 2; v 4; v 8] in
  Forall2 (Forall2 (at_heap2 Zring h 0)) [[1; 2; 3]%nat] [[v 2; v 4; v 8]] /\
  imra2 h 0 [[1; 2; 3]%nat] = Ok (map (val Zring) [v 15; v 2; v 4; v 8], 0%nat).
Proof. cbv zeta. split; [repeat constructor; discriminate|reflexivity]. Qed.

Theorem C73_mran_rejects : forall (C : CRing) fuel junk half sq2 isq2 (data : sarr C) w level axes m,
  (forall r, mran fuel junk half sq2 isq2 data w level axes TOther m <> Ok r) /\
  (m <> One PERIODIZATION -> forall r, mran fuel junk half sq2 isq2 data w level axes TSwt m <> Ok r).
Proof. exact mran_rejects. Qed.
Print Assumptions C73_mran_rejects.
Theorem C73_mra2_rejects : forall (C : CRing) fuel junk half sq2 isq2 (data : sarr C) w level axes m,
  mra2 fuel junk half sq2 isq2 data w level axes TOther m = Err ValueError /\
  (m <> One PERIODIZATION -> mra2 fuel junk half sq2 isq2 data w level axes TSwt m = Err ValueError).
Proof. exact mra2_rejects. Qed.
Print Assumptions C73_mra2_rejects.
Example C73_rejects_ex : One SYMMETRIC <> One PERIODIZATION /\
  mran 99 jk 0 0 0 x23 (One zbank) (Some 1) None TSwt (One SYMMETRIC) = Err ValueError /\
  mra2 99 jk 0 0 0 x23 (One zbank) (Some 1) [0; 1] TOther (One PERIODIZATION) = Err ValueError.
Proof. split; [discriminate|split; reflexivity]. Qed.

(** C74: the default level looks at every axis of the data, also those not transformed. *)
Theorem C74_mran_refuted : exists (data : sarr QS2) w ax l, sarr_ok QS2 data /\ pr_wavelet w /\
  swt_max_level (nthz (Z.to_nat ax) (sshape data)) = Ok l /\ 1 <= l /\
  (exists r, mran 99 jq halfs sqrt2 isqrt2 data (One w) (Some l) (Some [ax]) TSwt (One PERIODIZATION) = Ok r) /\
  mran 99 jq halfs sqrt2 isqrt2 data (One w) None (Some [ax]) TSwt (One PERIODIZATION) = Err ValueError.
Proof. exact mran_default_bad. Qed.
Print Assumptions C74_mran_refuted.
Theorem C74_mra2_refuted : exists (data : sarr QS2) w ax1 ax2 l, sarr_ok QS2 data /\ pr_wavelet w /\
  swt_max_level (nthz (Z.to_nat ax1) (sshape data)) = Ok l /\ swt_max_level (nthz (Z.to_nat ax2) (sshape data)) = Ok l /\ 1 <= l /\
  (exists a d, mra2 99 jq halfs sqrt2 isqrt2 data (One w) (Some l) [ax1; ax2] TSwt (One PERIODIZATION) = Ok (a, [d])) /\
  exists a, mra2 99 jq halfs sqrt2 isqrt2 data (One w) None [ax1; ax2] TSwt (One PERIODIZATION) = Ok (a, []).
Proof. exact mra2_default_bad. Qed.
Print Assumptions C74_mra2_refuted.
(** What holds: the level is the largest l with 2^l dividing every size. *)
Theorem C74_mran_partial : forall (C : CRing) fuel junk half sq2 isq2 (data : sarr C) w axes l, common_depth (sshape data) l ->
  mran fuel junk half sq2 isq2 data w None axes TSwt (One PERIODIZATION) = mran fuel junk half sq2 isq2 data w (Some l) axes TSwt (One PERIODIZATION).
Proof. exact mran_default. Qed.
Print Assumptions C74_mran_partial.
Theorem C74_mra2_partial : forall (C : CRing) fuel junk half sq2 isq2 (data : sarr C) w axes l, common_depth (sshape data) l ->
  mra2 fuel junk half sq2 isq2 data w None axes TSwt (One PERIODIZATION) = mra2 fuel junk half sq2 isq2 data w (Some l) axes TSwt (One PERIODIZATION).
Proof. exact mra2_default. Qed.
Print Assumptions C74_mra2_partial.
Example C74_ex : common_depth [4; 6] 1.
Proof. exact depth_ex. Qed.
