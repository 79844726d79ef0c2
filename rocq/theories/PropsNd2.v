(** Properties of the multilevel n-D transforms. *)
From Coq Require Import Ascii String.
From Verif Require Import Base BaseLemmas CConv Spec Instances Lengths Dwt DwtProofs LengthsProofs Multilevel MultilevelProofs Swt Nd NdSpec Axis AxisProofs Multidim MultidimProofs MultidimFacts MultilevelNd MultilevelNdProofs MultilevelNdFacts ExBanks ExNd ExNd2.

(** C24. [level_pairs] are the (size, filter length) pairs of the transformed
    axes; [levels_ok] says that every level has the samples its mode needs. *)
Theorem C24_waverecn_wavedecn : forall (C : CRing) fuel junk (data : sarr C) w m level axes plan B l,
  sarr_ok C data -> 1 <= ndim data <= 64 -> plan <> [] ->
  resolves C (ndim data) w m (default_axes (ndim data) axes) plan ->
  plan_good C fuel B (sshape data) plan -> (forall s, In s plan -> pr_wavelet (st_w C s)) ->
  check_level (level_pairs C (sshape data) plan) level = Ok l ->
  (forall s, In s plan -> levels_ok (st_m C s) (dec_len (st_w C s)) (Z.to_nat l) (nthz (st_ax C s) (sshape data))) ->
  exists a ds r, wavedecn fuel junk data w m level axes = Ok (a, ds) /\ List.length ds = Z.to_nat l /\
    waverecn fuel junk (Some a) (map (map (fun '(k, v) => (k, Some v))) ds) w m axes = Ok (Some r) /\
    sshape r = (if l =? 0 then sshape data else odd_up (map (st_ax C) plan) (sshape data)) /\
    (forall idx, valid (sshape data) idx -> ndget (val C r) idx = ndget (val C data) idx).
Proof. exact waverecn_wavedecn. Qed.
Print Assumptions C24_waverecn_wavedecn.
Example C24_ex : sarr_ok Zring xt /\ plan_good Zring 99 [16; 16] (sshape xt) [st0; st1] /\
  resolves Zring (ndim xt) ew em (default_axes (ndim xt) (Some [0; -1])) [st0; st1] /\
  (forall s, In s [st0; st1] -> pr_wavelet (st_w Zring s)) /\
  check_level (level_pairs Zring (sshape xt) [st0; st1]) (Some 2) = Ok 2 /\
  (forall s, In s [st0; st1] -> levels_ok (st_m Zring s) (dec_len (st_w Zring s)) (Z.to_nat 2) (nthz (st_ax Zring s) (sshape xt))) /\
  match wavedecn 99 jk xt ew em (Some 2) (Some [0; -1]) with
  | Ok (a, ds) => val Zring a = mkNd (C := Zring) [1; 1] [1694] /\ List.length ds = 2%nat /\
      waverecn 99 jk (Some a) (map (map (fun '(k, v) => (k, Some v))) ds) ew em (Some [0; -1])
      = Ok (Some (of_nd (mkNd (C := Zring) [4; 2] [1; 4; 2; 5; 3; 6; 3; 6])))
  | _ => False
  end.
Proof.
  split; [exact xt_ok|]. split; [exact plan_good_ex|]. split; [exact ex_resolves|].
  split; [intros s [<-|[<-|[]]]; [exact zbank2_pr|exact zbank_pr]|]. split; [reflexivity|]. split; [exact ex_levels|].
  vm_compute. repeat split.
Qed.

(** C24: the coefficients are those of dwtn applied to the iterated
    approximation ([appr] iterates the all-'a' sub-band, [det] are the others). *)
Theorem C24_wavedecn_bands : forall (C : CRing) fuel junk (data : sarr C) w m level axes plan B l,
  sarr_ok C data -> 1 <= ndim data <= 64 -> plan <> [] ->
  resolves C (ndim data) w m (default_axes (ndim data) axes) plan ->
  plan_good C fuel B (sshape data) plan ->
  check_level (level_pairs C (sshape data) plan) level = Ok l ->
  (forall s, In s plan -> levels_ok (st_m C s) (dec_len (st_w C s)) (Z.to_nat l) (nthz (st_ax C s) (sshape data))) ->
  exists a, wavedecn fuel junk data w m level axes
    = Ok (a, map (fun j => det C plan (appr C plan j (val C data))) (rev (seq 0 (Z.to_nat l)))) /\
    sarr_ok C a /\ val C a = appr C plan (Z.to_nat l) (val C data).
Proof. exact wavedecn_spec. Qed.
Print Assumptions C24_wavedecn_bands.
Example C24_bands_ex : appr Zring [st0; st1] 1 (val Zring xt) = mkNd (C := Zring) [2; 1] [-62; -90] /\
  det Zring [st0; st1] (appr Zring [st0; st1] 1 (val Zring xt))
  = map (fun '(k, v) => (k, of_nd (mkNd (C := Zring) [1; 1] [v]))) [("ad", 1210); ("da", 1064); ("dd", 760)]%string.
Proof. split; vm_compute; reflexivity. Qed.

(** C14, n-D part *)
Theorem C14_dwtn_max_level : forall sh lens axes (L : list (nat * Z)), 1 <= zlen sh -> L <> [] ->
  norm_axes (zlen sh) (default_axes (zlen sh) axes) = map (fun p => Z.of_nat (fst p)) L ->
  objs_per_axis lens (List.length L) = Ok (map snd L) -> NoDup (map fst L) ->
  (forall p, In p L -> (fst p < List.length sh)%nat) ->
  exists l, dwtn_max_level sh lens axes = Ok l /\
    (exists ax F, In (ax, F) L /\ l = dwt_max_level_c (nthz ax sh) F) /\
    (forall ax F, In (ax, F) L -> l <= dwt_max_level_c (nthz ax sh) F).
Proof. exact dwtn_max_level_spec. Qed.
Print Assumptions C14_dwtn_max_level.
Theorem C14_wavedecn_default_level : forall (C : CRing) fuel junk (data : sarr C) w m axes l,
  dwtn_max_level (sshape data) (lens_of w) axes = Ok l -> 0 <= l ->
  wavedecn fuel junk data w m None axes = wavedecn fuel junk data w m (Some l) axes.
Proof. exact wavedecn_default_level. Qed.
Print Assumptions C14_wavedecn_default_level.
Example C14_dwtn_ex : let L := [(1%nat, 4); (0%nat, 16)] in
  norm_axes (zlen [64; 8]) (default_axes (zlen [64; 8]) (Some [-1; 0])) = map (fun p => Z.of_nat (fst p)) L /\
  dwtn_max_level [64; 8] (Seq [4; 16]) (Some [-1; 0]) = Ok 1 /\ dwt_max_level_c 64 16 = 2 /\ dwt_max_level_c 8 4 = 1 /\
  dwtn_max_level (sshape xt) (lens_of ew) None = Ok 0.
Proof. repeat split; vm_compute; reflexivity. Qed.

(** C27 *)
Theorem C27_shapes_explicit_level_partial : forall (C : CRing) fuel junk (data : sarr C) w m level axes plan B,
  sarr_ok C data -> 1 <= ndim data <= 64 -> plan <> [] ->
  resolves C (ndim data) w m (default_axes (ndim data) axes) plan ->
  plan_good C fuel B (sshape data) plan -> 0 <= level ->
  (forall s, In s plan -> levels_ok (st_m C s) (dec_len (st_w C s)) (Z.to_nat level) (nthz (st_ax C s) (sshape data))) ->
  exists a ds, wavedecn fuel junk data w m (Some level) axes = Ok (a, ds) /\
    wavedecn_shapes (sshape data) (lens_of w) m (Some level) axes
    = Ok (sshape a, map (fun d => map (fun '(k, v) => (k, sshape v)) d) ds).
Proof. exact wavedecn_shapes_spec. Qed.
Print Assumptions C27_shapes_explicit_level_partial.
Theorem C27_size_partial : forall a ds,
  wavedecn_size a ds = prodZ a + sum_list (map (fun kv => prodZ (snd kv)) (List.concat ds)).
Proof. exact wavedecn_size_spec. Qed.
Print Assumptions C27_size_partial.
Theorem C27_default_level_partial : forall sh F axes ax sizes m modes, 2 <= F ->
  prep_axes sh axes = Ok (ax, sizes) -> sizes <> [] -> objs_per_axis m (List.length ax) = Ok modes ->
  exists l, dwtn_max_level sh (One F) axes = Ok l /\ 0 <= l /\
  wavedecn_shapes sh (One F) m None axes = wavedecn_shapes sh (One F) m (Some l) axes.
Proof. exact shapes_default_level. Qed.
Print Assumptions C27_default_level_partial.
Theorem C27_default_level_refuted : exists sh lens m,
  dwtn_max_level sh lens None = Ok 2 /\ wavedecn_shapes sh lens m None None = wavedecn_shapes sh lens m (Some 0) None /\
  wavedecn_shapes sh lens m (Some 0) None <> wavedecn_shapes sh lens m (Some 2) None.
Proof. exact shapes_default_bad. Qed.
Print Assumptions C27_default_level_refuted.
Example C27_ex : 
  wavedecn_shapes [3; 2] (lens_of ew) em (Some 2) (Some [0; -1])
  = Ok ([1; 1], [[("ad", [1; 1]); ("da", [1; 1]); ("dd", [1; 1])]; [("ad", [2; 1]); ("da", [2; 1]); ("dd", [2; 1])]]%string) /\
  wavedecn_size [1; 1] [[("ad", [1; 1]); ("da", [1; 1]); ("dd", [1; 1])]; [("ad", [2; 1]); ("da", [2; 1]); ("dd", [2; 1])]]%string = 10 /\
  dwtn_max_level [64; 32] (One 4) None = Ok 3.
Proof. repeat split; vm_compute; reflexivity. Qed.

(** C49: [ren] picks (da, ad, dd) out of a dictionary. *)
Theorem C49_wavedec2_is_wavedecn : forall (C : CRing) fuel junk (data : sarr C) w m level ax1 ax2, 2 <= ndim data ->
  wavedec2 fuel junk data w m level [ax1; ax2]
  = ('(a, ds) <- wavedecn fuel junk data w m level (Some [ax1; ax2]) ;;
     ts <- mapM (fun d => da <- dgetE d "da"%string ;; ad <- dgetE d "ad"%string ;; dd <- dgetE d "dd"%string ;; Ok (da, ad, dd)) ds ;;
     Ok (a, ts)).
Proof. exact wavedec2_wavedecn. Qed.
Print Assumptions C49_wavedec2_is_wavedecn.
Theorem C49_waverec2_is_waverecn_partial : forall (C : CRing) fuel junk (a : sarr C) (ts : list (triple (C := C))) w m ax1 ax2,
  Forall (fun t => let '(h, v, d) := t in sshape v = sshape h /\ sshape d = sshape h /\ ndim h = ndim a) ts ->
  match ts with [] => True | (h, _, _) :: _ => sshape a = sshape h end ->
  (ts = [] -> ax1 <> ax2) ->
  waverec2 fuel junk (Some a) (map (fun t => let '(h, v, d) := t in (Some h, Some v, Some d)) ts) w m [ax1; ax2]
  = waverecn fuel junk (Some a)
      (map (fun t => map (fun '(k, v) => (k, Some v)) (let '(h, v, d) := t in [("ad", v); ("da", h); ("dd", d)]%string)) ts)
      w m (Some [ax1; ax2]).
Proof. exact waverec2_waverecn. Qed.
Print Assumptions C49_waverec2_is_waverecn_partial.
Theorem C49_oversized_approximation_refuted : exists (a d : sarr Zring) w m, sarr_ok Zring a /\ sarr_ok Zring d /\ pr_wavelet w /\
  (exists r, waverec2 99 jk (Some a) [(Some d, Some d, Some d)] (One w) (One m) [0; 1] = Ok r) /\
  waverecn 99 jk (Some a) [[("ad", Some d); ("da", Some d); ("dd", Some d)]%string] (One w) (One m) (Some [0; 1]) = Err ValueError.
Proof. exact waverec2_crop_bad. Qed.
Print Assumptions C49_oversized_approximation_refuted.
Example C49_ex : 2 <= ndim xt /\
  match wavedec2 99 jk xt ew em (Some 2) [0; -1] with
  | Ok (a, ts) => map (fun '(h, v, d) => (ndata (val Zring h), ndata (val Zring v), ndata (val Zring d))) ts
      = [([1064], [1210], [760]); ([-39; -60], [-43; -63], [-27; -42])] /\
      waverec2 99 jk (Some a) (map (fun t => let '(h, v, d) := t in (Some h, Some v, Some d)) ts) ew em [0; -1]
      = Ok (Some (of_nd (mkNd (C := Zring) [4; 2] [1; 4; 2; 5; 3; 6; 3; 6])))
  | _ => False
  end.
Proof. split; [vm_compute; congruence|]. vm_compute. split; reflexivity. Qed.

(** C57: the uniqueness check of the axes compares them before negative ones
    are resolved: axes=(0, -2) of a 2-D array transforms axis 0 twice. *)
Theorem C57_unique_axes_refuted : exists (data : sarr Zring) w m ax1 ax2 r,
  sarr_ok Zring data /\ pr_wavelet w /\ norm_axes (ndim data) [ax1; ax2] = [0; 0] /\
  wavedecn 99 jk data (One w) (One m) (Some 1) (Some [ax1; ax2]) = Ok r.
Proof.
  exact (ex_intro _ x23 (ex_intro _ zbank2 (ex_intro _ SYMMETRIC (ex_intro _ 0 (ex_intro _ (-2) (ex_intro _ _ (conj x23_ok (conj zbank2_pr (conj eq_refl eq_refl))))))))).
Qed.
Print Assumptions C57_unique_axes_refuted.
Theorem C57_repeated_axes_rejected_partial : forall (C : CRing) fuel junk (data : sarr C) w m level axes,
  1 <= ndim data -> ~ NoDup axes -> wavedecn fuel junk data w m level (Some axes) = Err ValueError.
Proof. exact wavedecn_repeated. Qed.
Print Assumptions C57_repeated_axes_rejected_partial.
Example C57_ex : wavedecn 99 jk x23 (One zbank2) (One SYMMETRIC) (Some 1) (Some [1; 1]) = Err ValueError.
Proof. reflexivity. Qed.
