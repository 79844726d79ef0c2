(** Properties of the packing of coefficient lists into one array. *)
From Coq Require Import Ascii String Sorted Permutation.
From Verif Require Import Base BaseLemmas CConv Spec Instances Lengths Dwt DwtProofs Multilevel MultilevelProofs Swt Nd NdSpec Axis AxisProofs Multidim MultidimProofs MultilevelNd MultilevelNdProofs SwtNd PackSpec Packing PackRavel PackRavelFacts PackBox PackArray PackArrayFacts PackLink ExBanks ExNd ExNd2 ExPack.

(** C25. [packing_ok] says of the returned array and slices: array_to_coeffs
    gives the coefficients back, no element is selected by two slices, without
    padding every element is selected by one, and with padding all others hold
    the padding value. The result does not depend on the content of np.empty. *)
Theorem C25_round_trip : forall (C : CRing) axes (a : nd C) axs ls junk padding arr sls, nd_wf a -> details_ok C axes a axs ls ->
  coeffs_to_array C junk (IArr a :: dicts C (map snd ls)) padding axes = Ok (arr, sls) ->
  packing_ok C a (IArr a :: dicts C (map snd ls)) FWavedecn padding arr sls /\
  forall junk', coeffs_to_array C junk' (IArr a :: dicts C (map snd ls)) padding axes = Ok (arr, sls).
Proof. exact pack_wavedecn_format. Qed.
Print Assumptions C25_round_trip.
Theorem C25_padded : forall (C : CRing) junk axes (a : nd C) axs ls p, nd_wf a -> details_ok C axes a axs ls ->
  exists arr sls, coeffs_to_array C junk (IArr a :: dicts C (map snd ls)) (Some p) axes = Ok (arr, sls).
Proof. exact pack_padded. Qed.
Print Assumptions C25_padded.
(** Without padding: accepted exactly if the array has as many elements as there
    are coefficients. *)
Theorem C25_tight : forall (C : CRing) junk axes (a : nd C) axs ls p arr sls, nd_wf a -> details_ok C axes a axs ls ->
  coeffs_to_array C junk (IArr a :: dicts C (map snd ls)) (Some p) axes = Ok (arr, sls) ->
  if prodZ (nshape arr) =? zlen (ndata a) + zlen (flat_map (fun d => elements (map snd d)) (map snd ls))
  then exists arr', coeffs_to_array C junk (IArr a :: dicts C (map snd ls)) None axes = Ok (arr', sls) /\ nshape arr' = nshape arr
  else coeffs_to_array C junk (IArr a :: dicts C (map snd ls)) None axes = Err ValueError.
Proof. exact pack_tight. Qed.
Print Assumptions C25_tight.
Theorem C25_shape : forall (C : CRing) junk axes (a : nd C) axs ls padding arr sls, nd_wf a -> details_ok C axes a axs ls ->
  coeffs_to_array C junk (IArr a :: dicts C (map snd ls)) padding axes = Ok (arr, sls) ->
  List.length (nshape arr) = List.length (nshape a) /\
  (forall k, In k axs -> nthz k (nshape arr) = nthz k (nshape a) + fold_right Z.add 0 (map (fun l => nthz k (fst l)) ls)) /\
  (forall k, ~ In k axs -> nthz k (nshape arr) = nthz k (nshape a)).
Proof. exact pack_shape. Qed.
Print Assumptions C25_shape.
Example C25_ex : nd_wf pa /\ details_ok Zring (Some [0; -1]) pa [0%nat; 1%nat] pls /\
  exists sls, (forall junk, coeffs_to_array Zring junk (IArr pa :: dicts Zring (map snd pls)) (Some (-9)) (Some [0; -1]) = Ok (parr, sls)) /\
  (forall junk, coeffs_to_array Zring junk (IArr pa :: dicts Zring (map snd pls)) None (Some [0; -1]) = Err ValueError).
Proof. exact (conj pa_wf (conj pls_ok parr_ok)). Qed.

(** C25: the formats of wavedec2 and wavedec. *)
Theorem C25_wavedec2 : forall (C : CRing) axes (a : nd C) axs (ls : list (list Z * (nd C * nd C * nd C))) junk padding arr sls, nd_wf a ->
  details_ok C axes a axs (map (fun l => (fst l, let '(da, ad, dd) := snd l in [("ad", ad); ("da", da); ("dd", dd)]%string)) ls) ->
  coeffs_to_array C junk (IArr a :: triples C (map snd ls)) padding axes = Ok (arr, sls) ->
  packing_ok C a (IArr a :: triples C (map snd ls)) FWavedec2 padding arr sls /\
  forall junk', coeffs_to_array C junk' (IArr a :: triples C (map snd ls)) padding axes = Ok (arr, sls).
Proof. exact pack_wavedec2_format. Qed.
Print Assumptions C25_wavedec2.
Example C25_wavedec2_ex : exists sls,
  coeffs_to_array Zring (fun _ => 7) (IArr pa :: triples Zring [(pband [1; 2] 200, pband [1; 2] 100, pband [1; 2] 300)]) None None
  = Ok (mkNd (C := Zring) [2; 4] [1; 2; 100; 101; 200; 201; 300; 301], sls) /\
  array_to_coeffs Zring (mkNd (C := Zring) [2; 4] [1; 2; 100; 101; 200; 201; 300; 301]) sls FWavedec2
  = Ok (IArr pa :: triples Zring [(pband [1; 2] 200, pband [1; 2] 100, pband [1; 2] 300)]).
Proof. eexists. split; vm_compute; reflexivity. Qed.
Theorem C25_wavedec : forall (C : CRing) junk padding axes (a : nd C) n0 ds, nd_wf a -> nshape a = [n0] ->
  axes = None \/ axes = Some [0] \/ axes = Some [-1] -> fit1 C n0 ds ->
  exists arr sls, coeffs_to_array C junk (IArr a :: map (@IArr C) ds) padding axes = Ok (arr, sls) /\
  nshape arr = [n0 + zlen (elements ds)] /\
  packing_ok C a (IArr a :: map (@IArr C) ds) FWavedec padding arr sls /\
  (forall idx, Nd.valid (nshape arr) idx -> exists s, In s (all_slices sls) /\ selects s (nshape arr) idx).
Proof. exact pack_wavedec_format. Qed.
Print Assumptions C25_wavedec.

(** C25: every result of wavedec and wavedecn can be packed. *)
Theorem C25_of_wavedecn : forall (C : CRing) fuel junk (data : sarr C) w m level axes plan B l,
  sarr_ok C data -> 1 <= ndim data <= 64 -> plan <> [] ->
  resolves C (ndim data) w m (default_axes (ndim data) axes) plan ->
  plan_good C fuel B (sshape data) plan ->
  check_level (level_pairs C (sshape data) plan) level = Ok l ->
  (forall s, In s plan -> levels_ok (st_m C s) (dec_len (st_w C s)) (Z.to_nat l) (nthz (st_ax C s) (sshape data))) ->
  exists a ds, wavedecn fuel junk data w m level axes = Ok (a, ds) /\
    (forall junk' p, exists r, coeffs_to_array C junk' (coeff_list a ds) (Some p) axes = Ok r) /\
    forall junk' padding arr sls, coeffs_to_array C junk' (coeff_list a ds) padding axes = Ok (arr, sls) ->
      packing_ok C (val C a) (coeff_list a ds) FWavedecn padding arr sls.
Proof. exact wavedecn_packs. Qed.
Print Assumptions C25_of_wavedecn.
Example C25_of_wavedecn_ex : sarr_ok Zring xt /\ plan_good Zring 99 [16; 16] (sshape xt) [st0; st1] /\
  resolves Zring (ndim xt) ew em (default_axes (ndim xt) (Some [0; -1])) [st0; st1] /\
  check_level (level_pairs Zring (sshape xt) [st0; st1]) (Some 2) = Ok 2 /\
  (forall s, In s [st0; st1] -> levels_ok (st_m Zring s) (dec_len (st_w Zring s)) (Z.to_nat 2) (nthz (st_ax Zring s) (sshape xt))) /\
  match wavedecn 99 jk xt ew em (Some 2) (Some [0; -1]) with
  | Ok (a, ds) => match coeffs_to_array Zring (fun _ => 7) (coeff_list a ds) (Some 0) (Some [0; -1]) with
      Ok (arr, _) => arr = mkNd (C := Zring) [4; 3] [1694; 1210; -43; 1064; 760; -63; -39; 0; -27; -60; 0; -42] | _ => False end
  | _ => False
  end.
Proof.
  split; [exact xt_ok|]. split; [exact plan_good_ex|]. split; [exact ex_resolves|]. split; [reflexivity|]. split; [exact ex_levels|].
  vm_compute. reflexivity.
Qed.
Theorem C25_of_wavedec : forall (C : CRing) fuel junk (x : list C) w m level padding axes,
  wf_bank w -> 1 <= zlen x -> 0 <= level -> levels_ok m (dec_len w) (Z.to_nat level) (zlen x) ->
  resources fuel (zlen x) (dec_len w) -> axes = None \/ axes = Some [0] \/ axes = Some [-1] ->
  exists cs, wavedec fuel x w m (Some level) = Ok cs /\
  exists arr sls, coeffs_to_array C junk (vec_list cs) padding axes = Ok (arr, sls) /\
    nshape arr = [fold_right Z.add 0 (map zlen cs)] /\
    packing_ok C (vec (hd [] cs)) (vec_list cs) FWavedec padding arr sls /\
    (forall idx, Nd.valid (nshape arr) idx -> exists s, In s (all_slices sls) /\ selects s (nshape arr) idx).
Proof. exact wavedec_packs. Qed.
Print Assumptions C25_of_wavedec.
Example C25_of_wavedec_ex : wf_bank zbank2 /\ levels_ok SYMMETRIC (dec_len zbank2) 2 5 /\ resources 99 5 (dec_len zbank2) /\
  match wavedec (C := Zring) 99 [1; 2; 3; 4; 5] zbank2 SYMMETRIC (Some 2) with
  | Ok cs => exists sls, coeffs_to_array Zring (fun _ => 7) (vec_list cs) None (Some [-1]) = Ok (vec (C := Zring) (List.concat cs), sls) /\
      all_slices sls = [[SRange 0 2]; [SRange 2 4]; [SRange 4 7]]
  | _ => False
  end.
Proof.
  split; [repeat split; vm_compute; congruence|]. split; [apply levels_ok_intro; vm_compute; intuition congruence|]. split; [vm_compute; intuition congruence|].
  vm_compute. eexists. split; reflexivity.
Qed.

(** C26. The order of the keys is sorted; the vector is the concatenation of all
    arrays in that order. *)
Theorem C26_round_trip : forall (C : CRing) junk axes (a : nd C) ds, nd_wf a -> Forall dict_wf ds -> keys_fit C axes a ds ->
  exists es arr sls shs, Forall2 same_items es ds /\ Forall (fun e => Sorted (fun x y => String.leb (fst x) (fst y) = true) e) es /\
    ravel_coeffs C junk (IArr a :: dicts C ds) axes = Ok (arr, sls, shs) /\
    arr = ndata a ++ flat_map (fun e => elements (map snd e)) es /\
    unravel_coeffs C arr sls shs FWavedecn = Ok (IArr a :: dicts C es).
Proof. exact ravel_dicts_round. Qed.
Print Assumptions C26_round_trip.
Example C26_ex : Forall dict_wf (map snd pls) /\ keys_fit Zring None pa (map snd pls) /\
  match ravel_coeffs Zring (fun _ => 7) (IArr pa :: dicts Zring (map snd pls)) None with
  | Ok (arr, sls, shs) => arr = [1; 2; 100; 101; 200; 201; 300; 301; 500; 501; 502; 510; 511; 512; 400; 401; 402; 410; 411; 412; 600; 601; 602; 610; 611; 612] /\
      unravel_coeffs Zring arr sls shs FWavedecn = Ok (IArr pa :: dicts Zring (map ssort (map snd pls)))
  | _ => False
  end.
Proof.
  split; [|split; [do 3 eexists; split; reflexivity|vm_compute; split; reflexivity]].
  destruct (proj2 pls_ok) as (L1 & L2 & _). constructor; [apply L1|]. constructor; [apply L2|]. constructor.
Qed.
Theorem C26_wavedec : forall (C : CRing) junk axes (a : nd C) ds, nd_wf a -> Forall (fun x => nd_wf x /\ zlen (nshape x) = 1) ds ->
  (ds <> [] -> axes_fit axes 1 (List.length (nshape a))) ->
  exists sls shs, ravel_coeffs C junk (IArr a :: map (@IArr C) ds) axes = Ok (ndata a ++ elements ds, sls, shs) /\
    unravel_coeffs C (ndata a ++ elements ds) sls shs FWavedec = Ok (IArr a :: map (@IArr C) ds).
Proof. exact ravel_1d_round. Qed.
Print Assumptions C26_wavedec.
Theorem C26_wavedec2 : forall (C : CRing) junk axes (a : nd C) ds, nd_wf a -> Forall (fun '(da, ad, dd) => nd_wf da /\ nd_wf ad /\ nd_wf dd) ds ->
  (ds <> [] -> axes_fit axes 2 (List.length (nshape a))) ->
  exists sls shs, let arr := ndata a ++ flat_map (fun '(da, ad, dd) => ndata ad ++ ndata da ++ ndata dd) ds in
    ravel_coeffs C junk (IArr a :: triples C ds) axes = Ok (arr, sls, shs) /\
    unravel_coeffs C arr sls shs FWavedec2 = Ok (IArr a :: triples C ds).
Proof. exact ravel_2d_round. Qed.
Print Assumptions C26_wavedec2.
Example C26_formats_ex :
  match ravel_coeffs Zring (fun _ => 7) (IArr (vec (C := Zring) [1; 2]) :: map (@IArr Zring) [vec (C := Zring) [3]; vec (C := Zring) [4; 5; 6]]) None with
  | Ok (arr, sls, _) => arr = [1; 2; 3; 4; 5; 6] /\ sls = (0, 2, [[("d"%string, (2, 3))]; [("d"%string, (3, 6))]])
  | _ => False
  end /\
  match ravel_coeffs Zring (fun _ => 7) (IArr pa :: triples Zring [(pband [1; 1] 200, pband [1; 2] 100, pband [1; 2] 300)]) None with
  | Ok (arr, sls, shs) => arr = [1; 2; 100; 101; 200; 300; 301] /\
      unravel_coeffs Zring arr sls shs FWavedec2 = Ok (IArr pa :: triples Zring [(pband [1; 1] 200, pband [1; 2] 100, pband [1; 2] 300)])
  | _ => False
  end.
Proof. vm_compute. repeat split. Qed.

(** C64: missing coefficients are never packed, and ravel_coeffs reports them as
    documented; coeffs_to_array fails earlier, with an AttributeError. *)
Theorem C64_ravel_missing_partial : forall (C : CRing) junk axes (a : nd C) ds,
  match ds with d :: _ => exists k x t, d = (k, x) :: t /\ axes_fit axes (String.length k) (List.length (nshape a)) | [] => False end ->
  (exists d k, In d ds /\ In (k, None) d) ->
  ravel_coeffs C junk (IArr a :: map (@IDict C) ds) axes = Err ValueError.
Proof. exact ravel_missing. Qed.
Print Assumptions C64_ravel_missing_partial.
Theorem C64_array_missing_partial : forall (C : CRing) junk padding axes (a : nd C) ds,
  match ds with d :: _ => exists k x t, d = (k, x) :: t /\ axes_fit axes (String.length k) (List.length (nshape a)) | [] => False end ->
  (exists d k, In d ds /\ In (k, None) d) ->
  forall r, coeffs_to_array C junk (IArr a :: map (@IDict C) ds) padding axes <> Ok r.
Proof. exact array_missing. Qed.
Print Assumptions C64_array_missing_partial.
Theorem C64_array_missing_refuted : exists (a : nd Zring) (ds : list (dict (option (nd Zring)))),
  nd_wf a /\ first_key Zring None a ds /\ missing Zring ds /\
  (forall junk padding, coeffs_to_array Zring junk (IArr a :: odicts Zring ds) padding None = Err AttributeError) /\
  ravel_coeffs Zring (fun _ => 7) (IArr a :: odicts Zring ds) None = Err ValueError.
Proof. exact array_missing_bad. Qed.
Print Assumptions C64_array_missing_refuted.
Example C64_ex : coeffs_to_array Zring (fun _ => 7) [IArr pa; IDict [("da"%string, Some pa); ("dd"%string, Some pa); ("ad"%string, None)]] (Some 0) None = Err AttributeError /\
  ravel_coeffs Zring (fun _ => 7) [IArr pa; IDict [("da"%string, Some pa); ("dd"%string, Some pa); ("ad"%string, None)]] None = Err ValueError.
Proof. split; reflexivity. Qed.
