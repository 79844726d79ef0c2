(** Property theorems for nodes without data (C118) and for refused arguments. *)
From Coq Require Import QArith Ascii String.
From Verif Require Import Base BaseLemmas CConv Spec Instances Lengths Dwt DwtProofs Multilevel MultilevelProofs Swt Nd NdSpec Axis AxisProofs Multidim MultidimProofs MultidimFacts MultilevelNd MultilevelNdProofs SwtNd.
From Verif Require Import Packets PacketsInv PacketsPath PacketsClasses PacketsFacts PacketsFacts3 ExBanks ExNd ExPackets ExPackets2 PacketsEmpty Packing Mra Fsw FswSpec ExFsw EmptyArgs ExEmpty.
Open Scope string_scope. Open Scope list_scope. Open Scope Z_scope.

(** C118 *)
Theorem C118_one_dim : forall (C : CRing) fuel (junk : Z -> C) w m axis (h : nheap (nd C)) n x M h1, let K := wp1 fuel junk w m axis in
  nth_error h n = Some x -> ndat x = None -> maxlevel K n h = (h1, Ok (Some M)) -> nlevel x < M ->
  exists h' y, decompose K n h = (h', Ok tt) /\ nth_error h' n = Some y /\ (forall k z, k <> n -> nth_error h k = Some z -> nth_error h' k = Some z) /\
    (forall part c, dget (nkids x) part = Some c -> dget (nkids y) part = Some c) /\
    (forall part, In part ["a"; "d"] -> dget (nkids x) part = None ->
       exists c, (List.length h <= c)%nat /\ dget (nkids y) part = Some c /\ nth_error h' c = Some (bare n x part M)).
Proof. exact @decompose_empty_1d. Qed.
Print Assumptions C118_one_dim.
Example C118_one_dim_ex : option_map nkids (nth_error he1 0) = Some [("d", 1%nat)] /\ option_map ndat (nth_error he1 0) = Some None /\ snd (maxlevel K5 0 he1) = Ok (Some 2) /\
  snd (decompose K5 0 he1) = Ok tt /\ option_map nkids (nth_error (fst (decompose K5 0 he1)) 0) = Some [("d", 1%nat); ("a", 2%nat)] /\
  nth_error (fst (decompose K5 0 he1)) 1 = nth_error he1 1.
Proof. repeat split; vm_compute; reflexivity. Qed.

Theorem C118_two_dim_partial : forall (C : CRing) fuel (junk : Z -> C) w m axes (h : nheap (nd C)) n x M h1, let K := wp2 fuel junk w m axes in
  nth_error h n = Some x -> ndat x = None -> maxlevel K n h = (h1, Ok (Some M)) -> nlevel x < M ->
  exists h' y, decompose K n h = (h', Ok tt) /\ nth_error h' n = Some y /\ (forall k z, k <> n -> nth_error h k = Some z -> nth_error h' k = Some z) /\
    (forall part, In part ["a"; "h"; "v"; "d"] -> exists c, (List.length h <= c)%nat /\ dget (nkids y) part = Some c /\ nth_error h' c = Some (bare n x part M)).
Proof. exact @decompose_empty_2d. Qed.
Print Assumptions C118_two_dim_partial.
Example C118_two_dim_partial_ex : option_map nkids (nth_error he2 0) = Some [("a", 1%nat)] /\ option_map ndat (nth_error he2 0) = Some None /\ snd (maxlevel K33 0 he2) = Ok (Some 2) /\
  snd (decompose K33 0 he2) = Ok tt /\ option_map nkids (nth_error (fst (decompose K33 0 he2)) 0) = Some [("a", 2%nat); ("h", 3%nat); ("v", 4%nat); ("d", 5%nat)].
Proof. repeat split; vm_compute; reflexivity. Qed.

Theorem C118_n_dim_partial : forall (C : CRing) fuel (junk : Z -> C) w m axes (h : nheap (nd C)) n x M h1, let K := wpn fuel junk w m axes in
  nth_error h n = Some x -> ndat x = None -> maxlevel K n h = (h1, Ok (Some M)) -> nlevel x < M ->
  exists h' y, decompose K n h = (h', Ok tt) /\ nth_error h' n = Some y /\ (forall k z, k <> n -> nth_error h k = Some z -> nth_error h' k = Some z) /\
    (forall part, In part (ad_keys (List.length axes)) -> exists c, (List.length h <= c)%nat /\ dget (nkids y) part = Some c /\ nth_error h' c = Some (bare n x part M)).
Proof. exact @decompose_empty_nd. Qed.
Print Assumptions C118_n_dim_partial.
Example C118_n_dim_partial_ex : option_map nkids (nth_error hen 0) = Some [("da", 1%nat)] /\ option_map ndat (nth_error hen 0) = Some None /\ snd (maxlevel Kn 0 hen) = Ok (Some 2) /\
  snd (decompose Kn 0 hen) = Ok tt /\ option_map nkids (nth_error (fst (decompose Kn 0 hen)) 0) = Some [("da", 4%nat); ("aa", 2%nat); ("ad", 3%nat); ("dd", 5%nat)].
Proof. repeat split; vm_compute; reflexivity. Qed.

(** The data of the subnode is lost: reconstruct worked before. *)
Theorem C118_lost_refuted : exists (K : wpclass (nd Zring)) h h' v, K = wp2 99 jk zbank2 SYMMETRIC [0; 1] /\ setitem K 0 "a" pk33 [root_node K None (Some 2)] = (h, Ok tt) /\
  snd (reconstruct K 0 false h) = Ok (Some v) /\ decompose K 0 h = (h', Ok tt) /\ snd (reconstruct K 0 false h') = Err ValueError.
Proof. exact lost_subnode. Qed.
Print Assumptions C118_lost_refuted.

Theorem C118_refused : forall (D : Type) (K : wpclass D) h n x h1, nth_error h n = Some x ->
  (forall m, maxlevel K n h = (h1, Ok (Some m)) -> m <= nlevel x -> decompose K n h = (h1, Err ValueError)) /\
  (maxlevel K n h = (h1, Ok None) -> nth_error h1 n = Some x -> decompose K n h = (h1, Err TypeError) /\ forall f level freq dec, get_level K f n level freq dec h = (h1, Err TypeError)).
Proof. exact @decompose_refused. Qed.
Print Assumptions C118_refused.
Example C118_refused_ex : maxlevel K5 0 [root_node K5 None None] = ([root_node K5 None None], Ok None) /\ snd (decompose K5 0 [root_node K5 None None]) = Err TypeError /\
  snd (decompose K5 0 [root_node K5 (Some pk5) (Some 0)]) = Err ValueError.
Proof. repeat split; vm_compute; reflexivity. Qed.

(** C26: lists of slices and of shapes of different lengths. *)
Theorem C26_lengths : forall (C : CRing) (arr : list C) slices shapes f, List.length (snd shapes) <> List.length (snd slices) -> unravel_coeffs C arr slices shapes f = Err ValueError.
Proof. exact unravel_lengths. Qed.
Print Assumptions C26_lengths.
Example C26_lengths_ex : unravel_coeffs Zring [1; 2] ((0, 1), [[("d", (1, 2))]]) ([1], []) FWavedec = Err ValueError.
Proof. reflexivity. Qed.

(** C28: the setter of all coefficients. *)
Theorem C28_set_all : forall (C : CRing) (r : fsw (C := C)) (c : nd C),
  (nshape c = nshape (fs_coeffs r) -> exists r', set_coeffs r c = Ok r' /\ fs_coeffs r' = c /\ fs_slices r' = fs_slices r /\ fs_wavelets r' = fs_wavelets r /\ fs_modes r' = fs_modes r /\ fs_axes r' = fs_axes r) /\
  (nshape c <> nshape (fs_coeffs r) -> set_coeffs r c = Err ValueError).
Proof. exact set_coeffs_spec. Qed.
Print Assumptions C28_set_all.
Example C28_set_all_ex : (exists r', set_coeffs fs_ex (ndtab (C := Zring) (nshape (fs_coeffs fs_ex)) (fun _ => 5)) = Ok r' /\ fs_coeffs r' <> fs_coeffs fs_ex) /\ set_coeffs fs_ex (mkNd (C := Zring) [2] [1; 2]) = Err ValueError.
Proof. split; [eexists; split; [reflexivity|vm_compute; congruence]|reflexivity]. Qed.

(** C41, C65: empty lists. *)
Theorem C41_imra_nothing : forall (C : CRing) (h : heap (C := C)), imra h [] = Err TypeError.
Proof. exact imra_nothing. Qed.
Print Assumptions C41_imra_nothing.
Example C41_imra_nothing_ex : imra (C := Zring) [] [] = Err TypeError.
Proof. reflexivity. Qed.
Theorem C65_nothing : forall (C : CRing) fuel (junk : Z -> C) w m axis, py_waverec fuel junk [] w m axis = Err ValueError.
Proof. exact waverec_nothing. Qed.
Print Assumptions C65_nothing.
Example C65_nothing_ex : py_waverec 99 jk [] zbank2 SYMMETRIC 0 = Err ValueError.
Proof. reflexivity. Qed.
