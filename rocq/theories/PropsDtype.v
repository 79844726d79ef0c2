(** Properties of the element types of the results and of conversions (C95-C98). *)
From Coq Require Import Ascii String QArith Qcanon ZArith List. Import ListNotations. Local Open Scope Z_scope.
From Verif Require Import Base CConv Lengths Dwt Swt Nd NdSpec Axis Multidim MultilevelNd SwtNd Packing Instances ExCwt Dtype DtypeSpec DtypeProofs DtypeValues ExDtype.

(** C95: the results have the supported type nearest to the type of the data; a
    result made of several arrays is complex if and only if one of them is. *)
Theorem C95_dwt : forall d, exists t, dwt_dtype (Arr d) = Ok t /\ nearest d t.
Proof. exact dwt_dtype_array. Qed.
Print Assumptions C95_dwt.
Theorem C95_nearest_unique : forall d t u, nearest d t -> nearest d u -> t = u.
Proof. exact nearest_unique. Qed.
Print Assumptions C95_nearest_unique.
Theorem C95_supported_kept : forall d, supported d -> nearest d d.
Proof. exact nearest_supported. Qed.
Print Assumptions C95_supported_kept.
Example C95_dwt_ex : dwt_dtype (Arr Half) = Ok Single /\ dwt_dtype (Arr Int) = Ok Double /\ dwt_dtype (Arr CLong) = Ok CDouble /\ dwt_dtype (Arr CSingle) = Ok CSingle /\
  nearest Half Single /\ ~ nearest Half Double /\ nearest LongDouble Double /\ supported CSingle.
Proof.
  repeat (split; [reflexivity|]). split; [exact (nearest_check Half)|]. split; [intros N; discriminate (nearest_unique Half _ _ N (nearest_check Half))|].
  split; [exact (nearest_check LongDouble)|cbv; tauto].
Qed.

Theorem C95_idwt : forall a d, a <> None \/ d <> None ->
  exists t, idwt_dtype (option_map Arr a) (option_map Arr d) = Ok t /\ joint (present [a; d]) t.
Proof. exact idwt_dtype_joint. Qed.
Print Assumptions C95_idwt.
Example C95_idwt_ex : idwt_dtype (Some (Arr Single)) (Some (Arr CSingle)) = Ok CDouble /\ idwt_dtype None (Some (Arr Single)) = Ok Single /\
  idwt_dtype (Some (Arr Half)) (Some (Arr Single)) = Ok Single.
Proof. repeat split. Qed.

Theorem C95_wavedec : forall level x, (1 <= level)%nat ->
  exists t, nearest (asarray x) t /\ wavedec_dtypes level x = Ok (repeat t (S level)).
Proof. exact wavedec_dtypes_nearest. Qed.
Print Assumptions C95_wavedec.
Theorem C95_waverec : forall a d ds, a <> None \/ d <> None ->
  exists t, waverec_dtype (a :: d :: ds) = Ok (Some t) /\ joint (present (a :: d :: ds)) t.
Proof. exact waverec_dtype_joint. Qed.
Print Assumptions C95_waverec.
Theorem C95_round_trip : forall level x, (1 <= level)%nat ->
  exists t, nearest (asarray x) t /\ (cs <- wavedec_dtypes level x ;; waverec_dtype (map Some cs)) = Ok (Some t).
Proof. exact waverec_wavedec_dtype. Qed.
Print Assumptions C95_round_trip.
Example C95_waverec_ex : wavedec_dtypes 2 (Lst Int) = Ok [Double; Double; Double] /\
  waverec_dtype [Some Single; None; Some CSingle; Some Single] = Ok (Some CDouble) /\ waverec_dtype [None; Some Half; Some Single] = Ok (Some Single).
Proof. repeat split. Qed.

Theorem C95_dwtn : forall n x, (1 <= n)%nat -> nearest (asarray x) (dwtn_dtype n x).
Proof. exact dwtn_dtype_nearest. Qed.
Print Assumptions C95_dwtn.
Theorem C95_idwtn : forall n bands, (1 <= n)%nat -> (exists k d, ad_key n k /\ bands k = Some d) ->
  exists t, idwtn_dtype n "" bands = Some t /\ joint (fun d => exists k, ad_key n k /\ bands k = Some d) t.
Proof. exact idwtn_dtype_joint. Qed.
Print Assumptions C95_idwtn.
(** idwt_axis reads both arrays as arrays of the type of its output. *)
Theorem C95_idwt_axis_safe : forall l h x y z, idwtn_pair l h = Some (x, y, z) -> x = z /\ y = z /\ supported z.
Proof. exact idwtn_pair_safe. Qed.
Print Assumptions C95_idwt_axis_safe.
(** By itself it converts two real or two complex arrays to the wider type, but
    it can read an array as one of another type if only one of them is complex;
    idwt and idwtn convert before. *)
Theorem C95_idwt_axis_kind_partial : forall a d, (complex a <-> complex d) -> exists z, idwt_axis_dtypes (Some a) (Some d) = Some (z, z, z) /\ supported z /\ (complex z <-> complex a) /\
  (forall u v, nearest a u -> nearest d v -> ~ integral a -> ~ integral d -> width z = Z.max (width u) (width v)).
Proof. exact idwt_axis_kind. Qed.
Print Assumptions C95_idwt_axis_kind_partial.
Theorem C95_idwt_axis_mixed_refuted : exists a d x y z, supported a /\ supported d /\ idwt_axis_dtypes (Some a) (Some d) = Some (x, y, z) /\ y <> z.
Proof. exact idwt_axis_mixed. Qed.
Print Assumptions C95_idwt_axis_mixed_refuted.
Example C95_idwt_axis_kind_partial_ex : idwt_axis_dtypes (Some Half) (Some LongDouble) = Some (Double, Double, Double) /\ idwt_axis_dtypes (Some CDouble) (Some CSingle) = Some (CDouble, CDouble, CDouble) /\
  idwt_axis_dtypes (Some Single) (Some CSingle) = Some (CSingle, CSingle, CSingle) /\ idwt_axis_dtypes (Some CSingle) (Some Double) = Some (CSingle, Double, CSingle).
Proof. repeat split. Qed.
Example C95_idwtn_ex : dwtn_dtype 2 (Lst CDouble) = CDouble /\
  idwtn_dtype 2 "" (fun k => if String.eqb k "aa" then Some Single else if String.eqb k "dd" then Some CSingle else None) = Some CDouble /\
  idwtn_dtype 2 "" (fun k => if String.eqb k "aa" then Some Half else if String.eqb k "dd" then Some Half else None) = Some Single /\
  idwtn_pair (Some Double) (Some CSingle) = Some (CDouble, CDouble, CDouble).
Proof. repeat split. Qed.

Theorem C95_iswt : forall a ds, exists t, iswt_dtype a ds = Ok t /\ joint (fun d => In d (a :: ds)) t.
Proof. exact iswt_dtype_joint. Qed.
Print Assumptions C95_iswt.
Theorem C95_cwt : forall cplx d, exists t, cwt_dtype cplx (Arr d) = Ok t /\ supported t /\
  (complex t <-> cplx = true \/ complex d) /\ (forall u, nearest d u -> width t = width u).
Proof. exact cwt_dtype_spec. Qed.
Print Assumptions C95_cwt.
Example C95_iswt_ex : iswt_dtype Single [Single; CSingle; Single] = Ok CDouble /\ cwt_dtype true (Arr Half) = Ok CSingle /\ cwt_dtype false (Arr CLong) = Ok CDouble.
Proof. repeat split. Qed.

(** A list of complex numbers is refused by dwt, idwt and cwt, while dwtn and wavedec accept it. *)
Theorem C95_complex_list_refuted : exists x, dwt_dtype x = Err TypeError /\ idwt_dtype (Some x) None = Err TypeError /\ cwt_dtype false x = Err TypeError /\
  nearest (asarray x) (dwtn_dtype 1 x) /\ wavedec_dtypes 1 x = Ok [CDouble; CDouble].
Proof. exact complex_list. Qed.
Print Assumptions C95_complex_list_refuted.
(** With level=0 wavedec returns the data in whatever type it has. *)
Theorem C95_level0_refuted : exists x t, wavedec_dtypes 0 x = Ok [t] /\ ~ supported t.
Proof. exact level0_unsupported. Qed.
Print Assumptions C95_level0_refuted.
(** idwt and idwtn disagree on a half precision and a single precision array. *)
Theorem C95_idwt_idwtn_refuted : exists a d t u, idwt_dtype (Some (Arr a)) (Some (Arr d)) = Ok t /\
  idwtn_dtype 1 "" (fun k => if String.eqb k "a" then Some a else if String.eqb k "d" then Some d else None) = Some u /\ t <> u.
Proof. exact half_single. Qed.
Print Assumptions C95_idwt_idwtn_refuted.

(** C96: if the approximation is complex, or no level without complex details
    follows one with, then iswtn and iswt2 compute the inverse transform of the
    values. Otherwise imaginary parts are dropped on the way. *)
Theorem C96_iswtn_partial : forall (C : CRing) trunc truth fuel junk half (cs : list (titem C)) w axes norm,
  (forall it, In it cs -> dict_ok it) ->
  (forall nt trim a, match rev cs with it :: _ => key_length (untype C it) = Ok nt | [] => True end -> approx_of nt cs = Some (trim, a) ->
     no_loss (fst a) (details_of trim nt cs)) ->
  (r <- iswtn_t C trunc truth fuel junk half cs w axes norm ;; Ok (of_nd (snd r)))
  = snd (iswtn fuel junk half (map (untype C) cs) w axes norm).
Proof. exact @iswtn_untype. Qed.
Print Assumptions C96_iswtn_partial.
Example C96_iswtn_ex : (forall it, In it lossless -> dict_ok it) /\ approx_of 1 lossless = Some (true, (Double, r4)) /\ no_loss Double (details_of true 1 lossless) /\
  show_t (iswtn_t Qcring qtrunc qtruth 99 gjunk ghalf lossless (One ghaar) None None)
  = Ok (CDouble, ([4], [(3 # 4, 2); (3 # 4, -2); (3 # 4, 0); (3 # 4, 0)]%Q)).
Proof.
  split. { intros it [<- | [<- | [<- | []]]]; cbn; repeat constructor; cbn; tauto. }
  split; [reflexivity|]. split; [|vm_compute; reflexivity].
  right. intros i j di dj L A B (k & t & I & K). destruct i as [| [| i]]; [|destruct j as [| [| j]]; [lia| |]; cbn in A, B; try discriminate|cbn in A; destruct i; discriminate].
  - cbn in A. injection A as <-. destruct I as [I | []]. injection I as <- <-. cbn in K. intuition discriminate.
  - injection B as <-. exists "d"%string, (CDouble, i4). split; [left; reflexivity|cbv; tauto].
  - destruct j; discriminate.
Qed.
Theorem C96_iswt2_partial : forall (C : CRing) trunc truth fuel junk half (cs : list (titem2 C)) w norm axes,
  (forall a, approx2_of cs = Some a -> no_loss (fst a) (details2_of cs)) ->
  (r <- iswt2_t C trunc truth fuel junk half cs w norm axes ;; Ok (of_nd (snd r)))
  = iswt2 fuel junk half (map (untype2 C) cs) w norm axes.
Proof. exact @iswt2_untype. Qed.
Print Assumptions C96_iswt2_partial.
Example C96_iswt2_ex : approx2_of (TA2 Qcring (CDouble, z44) :: tl lossy2) = Some (CDouble, z44) /\ no_loss CDouble (details2_of (TA2 Qcring (CDouble, z44) :: tl lossy2)) /\
  (x <- iswt2_t Qcring qtrunc qtruth 99 gjunk ghalf (TA2 Qcring (CDouble, z44) :: tl lossy2) (One ghaar) None [-2; -1] ;; Ok (fst x, head_im (ndata (snd x)) 1))
  = Ok (CDouble, true).
Proof. split; [reflexivity|]. split; [left; cbv; tauto|vm_compute; reflexivity]. Qed.
Theorem C96_iswtn_refuted : exists (cs : list (titem Qcring)) w half y z,
  half [+] half = (r1 : Cplx Qcring) /\ (forall it, In it cs -> dict_ok it) /\
  iswtn_t Qcring qtrunc qtruth 99 gjunk half cs w None None = Ok (Double, y) /\
  snd (iswtn 99 gjunk half (map (untype Qcring) cs) w None None) = Ok z /\ of_nd y <> z /\
  real_values (ndata y) /\ exists v, In v (smem z) /\ snd v = Q2Qc 1.
Proof. exact iswtn_real_lost. Qed.
Print Assumptions C96_iswtn_refuted.
Theorem C96_iswt2_refuted : exists (cs : list (titem2 Qcring)) w half y z,
  half [+] half = (r1 : Cplx Qcring) /\
  iswt2_t Qcring qtrunc qtruth 99 gjunk half cs w None [-2; -1] = Ok (Double, y) /\
  iswt2 99 gjunk half (map (untype2 Qcring) cs) w None [-2; -1] = Ok z /\ of_nd y <> z /\
  real_values (ndata y) /\ exists v, In v (smem z) /\ snd v = Q2Qc 1.
Proof. exact iswt2_real_lost. Qed.
Print Assumptions C96_iswt2_refuted.

(** C97: packing keeps the values if the details fit the type of the approximation;
    an approximation of an integer type truncates them. *)
Theorem C97_coeffs_to_array_partial : forall (C : CRing) trunc truth junkl (cs : list (pitem C)) padding axes, all_fit cs ->
  (forall d p, padding = Some (d, p) -> fits d (pdtype C cs)) ->
  coeffs_to_array_t C trunc truth junkl cs padding axes = coeffs_to_array (Cplx C) junkl (map (pconv C snd) cs) (option_map snd padding) axes.
Proof. exact @coeffs_to_array_fits. Qed.
Print Assumptions C97_coeffs_to_array_partial.
Theorem C97_ravel_coeffs_partial : forall (C : CRing) trunc truth junk (cs : list (pitem C)) axes, all_fit cs ->
  ravel_coeffs_t C trunc truth junk cs axes = ravel_coeffs (Cplx C) junk (map (pconv C snd) cs) axes.
Proof. exact @ravel_coeffs_fits. Qed.
Print Assumptions C97_ravel_coeffs_partial.
Example C97_ex : all_fit floats /\ (x <- coeffs_to_array_t Qcring qtrunc qtruth gjunkl floats None None ;; Ok (gshow (fst x)))
    = Ok ([4], [(1, 0); (2, 0); (1 # 2, 0); (7 # 2, 0)]%Q) /\
  (x <- coeffs_to_array_t Qcring qtrunc qtruth gjunkl ints None None ;; Ok (gshow (fst x))) = Ok ([4], [(1, 0); (2, 0); (0, 0); (3, 0)]%Q).
Proof.
  split; [|split; vm_compute; reflexivity]. intros x [<- | []]. cbn. split; [cbv; intuition discriminate|]. split; [cbv; intuition discriminate|discriminate].
Qed.
Theorem C97_coeffs_to_array_refuted : exists (cs : list (pitem Qcring)) arr sl out,
  coeffs_to_array_t Qcring qtrunc qtruth gjunkl cs None None = Ok (arr, sl) /\
  array_to_coeffs (Cplx Qcring) arr sl FWavedec = Ok out /\ out <> map (pconv Qcring snd) cs.
Proof. exact ints_truncated. Qed.
Print Assumptions C97_coeffs_to_array_refuted.
Theorem C97_ravel_coeffs_refuted : exists (cs : list (pitem Qcring)) arr sl sh out,
  ravel_coeffs_t Qcring qtrunc qtruth gjunk cs None = Ok (arr, sl, sh) /\
  unravel_coeffs (Cplx Qcring) arr sl sh FWavedec = Ok out /\ out <> map (pconv Qcring snd) cs.
Proof. exact ints_raveled. Qed.
Print Assumptions C97_ravel_coeffs_refuted.

(** C98: an array assigned to a packet node keeps its values; a list or a node
    keeps them if they are real, and loses the imaginary parts. *)
Theorem C98_array : forall (C : CRing) trunc truth d (v : nd (Cplx C)),
  nearest d (fst (assigned C trunc truth (SrcArr C (d, v)))) /\ snd (assigned C trunc truth (SrcArr C (d, v))) = v.
Proof. exact @assigned_array. Qed.
Print Assumptions C98_array.
Theorem C98_other_real_partial : forall (C : CRing) trunc truth s d (v : nd (Cplx C)),
  s = SrcLst C (d, v) \/ s = SrcNode C (d, v) -> ~ complex d -> assigned C trunc truth s = (Double, v).
Proof. exact @assigned_other. Qed.
Print Assumptions C98_other_real_partial.
Theorem C98_other_complex : forall (C : CRing) trunc truth s d (v : nd (Cplx C)),
  s = SrcLst C (d, v) \/ s = SrcNode C (d, v) -> complex d ->
  assigned C trunc truth s = (Double, mkNd (C := Cplx C) (nshape v) (map (fun z : Cplx C => (fst z, @r0 C) : Cplx C) (ndata v))).
Proof. exact @assigned_complex. Qed.
Print Assumptions C98_other_complex.
Example C98_ex : complex CSingle /\ ~ complex Single /\
  gshow (snd (assigned Qcring qtrunc qtruth (SrcArr Qcring (CSingle, cnode)))) = ([2], [(1, 2); (3, -1)]%Q) /\
  gshow (snd (assigned Qcring qtrunc qtruth (SrcNode Qcring (CSingle, cnode)))) = ([2], [(1, 0); (3, 0)]%Q).
Proof. split; [cbv; tauto|]. split; [cbv; intuition discriminate|]. split; vm_compute; reflexivity. Qed.
Theorem C98_node_refuted : exists v : nd (Cplx Qcring), forall s, s = SrcNode Qcring (CDouble, v) \/ s = SrcLst Qcring (CDouble, v) ->
  assigned Qcring qtrunc qtruth (SrcArr Qcring (CDouble, v)) = (CDouble, v) /\
  fst (assigned Qcring qtrunc qtruth s) = Double /\ snd (assigned Qcring qtrunc qtruth s) <> v.
Proof. exact node_real_lost. Qed.
Print Assumptions C98_node_refuted.
