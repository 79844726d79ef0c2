(** Property theorems for copies and pickles (C99). *)
From Coq Require Import String QArith.
From Verif Require Import Base BaseLemmas CConv Spec Instances Lengths Dwt DwtProofs FilterSpec Filters FiltersFacts Names Nd NdSpec Packets.
From Verif Require Import Cwt Wavefun WavefunSpec WavefunProofs WavefunMain Pickle PickleProofs Tables TablesProofs ExBanks ExBanks2 ExNd ExPackets ExWavefun ExFilters.
Open Scope string_scope. Open Scope list_scope. Open Scope Z_scope.

(** A copy has the name and the filters of the original, hence the same
    transforms; copying a copy changes nothing any more. *)
Theorem C99_filters : forall (C : CRing) (o : wobj C), wf_bank (w_bank (o_wave o)) ->
  exists o', wavelet_copy o = Ok o' /\ o_name o' = o_name o /\ w_bank (o_wave o') = w_bank (o_wave o) /\ wavelet_copy o' = Ok o'.
Proof. exact @copy_filters. Qed.
Print Assumptions C99_filters.
Example C99_filters_ex : wf_bank (w_bank W4) /\ wf_bank (w_bank W6).
Proof. split; [exact W4_wf|exact W6_wf]. Qed.

Theorem C99_custom : forall (C : CRing) name filters (o : wobj C), custom_obj name filters = Ok o -> wavelet_copy o = Ok o.
Proof. exact @copy_custom. Qed.
Print Assumptions C99_custom.
Example C99_custom_ex : exists o, custom_obj (C := Zring) "mine" [[1; 2; 3]; [4; 5; 6]; [7; 8; 9]; [1; 1; 1]] = Ok o /\
  rec_lo (w_bank (o_wave o)) = [7; 8; 9; 0].
Proof. eexists. split; [vm_compute; reflexivity|reflexivity]. Qed.

(** Every built-in wavelet loses its number, family, flags and moments. *)
Theorem C99_builtin : forall (C : CRing) fuel (T : tables C) s o, tables_ok T -> 22 < Z.of_nat fuel -> wavelet_obj fuel T s = Ok o ->
  w_biorthogonal (o_wave o) = true /\ (exists n, o_number o = Some n) /\ (exists f, o_family o = Some f) /\
  exists o', wavelet_copy o = Ok o' /\ o_name o' = o_name o /\ w_bank (o_wave o') = w_bank (o_wave o) /\
    o_number o' = None /\ o_family o' = None /\ w_orthogonal (o_wave o') = false /\ w_biorthogonal (o_wave o') = false /\
    w_psi (o_wave o') = 0 /\ w_phi (o_wave o') = 0.
Proof. exact @copy_builtin. Qed.
Print Assumptions C99_builtin.
Example C99_builtin_ex : tables_ok builtin /\ exists o, wavelet_obj 40 builtin "DB2" = Ok o /\ o_name o = "db2" /\ o_number o = Some 2 /\ o_family o = Some DB.
Proof. split; [exact builtin_ok|exact db2_obj]. Qed.

(** wavefun of a copy: another kind of result for an orthogonal wavelet, wavelet
    functions of the other sign if the number of vanishing moments of a
    biorthogonal one is not 1 modulo 4. *)
Theorem C99_wavefun : forall (C : CRing) fuel (s : C) o o' level,
  wf_bank (w_bank (o_wave o)) -> 1 <= level -> wf_res fuel (dec_len (w_bank (o_wave o))) level ->
  wavelet_copy o = Ok o' ->
  (w_orthogonal (o_wave o) = true -> exists phi psi x phi_d psi_d phi_r psi_r x',
     wavefun fuel s (o_wave o) level = Ok (WfOrth phi psi x) /\
     wavefun fuel s (o_wave o') level = Ok (WfBior phi_d psi_d phi_r psi_r x')) /\
  (w_orthogonal (o_wave o) = false -> w_biorthogonal (o_wave o) && negb (w_psi (o_wave o) mod 4 =? 1) = false ->
     wavefun fuel s (o_wave o') level = wavefun fuel s (o_wave o) level) /\
  (w_orthogonal (o_wave o) = false -> w_biorthogonal (o_wave o) && negb (w_psi (o_wave o) mod 4 =? 1) = true ->
     exists phi_d psi_d phi_r psi_r x psi_d' psi_r' x',
     wavefun fuel s (o_wave o) level = Ok (WfBior phi_d psi_d phi_r psi_r x) /\
     wavefun fuel s (o_wave o') level = Ok (WfBior phi_d psi_d' phi_r psi_r' x') /\
     psi_d' = map ropp psi_d /\ psi_r' = map ropp psi_r).
Proof. exact @copy_wavefun. Qed.
Print Assumptions C99_wavefun.
Example C99_wavefun_ex : wf_bank (w_bank W6) /\ wf_res 60 (dec_len (w_bank W6)) 2 /\
  w_orthogonal W6 = false /\ w_biorthogonal W6 && negb (w_psi W6 mod 4 =? 1) = true.
Proof. split; [exact W6_wf|]. split; [apply res6; lia|]. split; reflexivity. Qed.
Theorem C99_wavefun_refuted : exists (o o' : wobj QS2) phi psi x r,
  wf_bank (w_bank (o_wave o)) /\ wavelet_copy o = Ok o' /\
  wavefun 60 sqrt2 (o_wave o) 2 = Ok (WfOrth phi psi x) /\ wavefun 60 sqrt2 (o_wave o') 2 = Ok r /\
  (forall phi psi x, r <> WfOrth phi psi x).
Proof. exact wavefun_copy_differs. Qed.
Print Assumptions C99_wavefun_refuted.

(** Continuous wavelets are kept, except for what was set afterwards. *)
Theorem C99_continuous_partial : forall name single o, continuous_obj name single = Ok o -> continuous_copy o = Ok o.
Proof. exact copy_continuous. Qed.
Print Assumptions C99_continuous_partial.
Example C99_continuous_partial_ex : exists o, continuous_obj "Fbsp2-1.0-0.5" true = Ok o /\ c_order (co_wave o) = Some 2.
Proof. eexists. split; [vm_compute; reflexivity|reflexivity]. Qed.
Theorem C99_continuous_refuted : exists o o', continuous_obj "cmor1.5-1.0" false = Ok o /\ continuous_copy (set_center o 2) = Ok o' /\
  c_center (co_wave o') = Some (10 # 10)%Q /\ c_center (co_wave (set_center o 2)) = Some 2%Q.
Proof. exact continuous_copy_differs. Qed.
Print Assumptions C99_continuous_refuted.

(** Packets: the copy holds the current data and maxlevel, no subnodes, and
    works along the last axis (axes). *)
Theorem C99_packet : forall (C : CRing) fuel (junk : Z -> C) K w (h : nheap (nd C)) x d m,
  nth_error h 0 = Some x -> ndat x = Some d -> nmaxl x = Some m -> 0 < zlen (nshape d) ->
  packet1_copy fuel junk K w h =
  Ok (zlen (nshape d) - 1, [mkNode None EmptyString 0 (Some d) (Some (nshape d)) (Some m) []]).
Proof. exact @copy_packet1. Qed.
Print Assumptions C99_packet.
Example C99_packet_ex : exists h x, packet1 99 jk (Some pk42) zbank2 None 0 = Ok (0, h) /\ nth_error h 0 = Some x /\
  ndat x = Some pk42 /\ nmaxl x = Some 2.
Proof. eexists. eexists. split; [vm_compute; reflexivity|]. split; [reflexivity|]. split; reflexivity. Qed.
Theorem C99_packet_2d : forall (C : CRing) fuel (junk : Z -> C) K w (h : nheap (nd C)) x d m,
  nth_error h 0 = Some x -> ndat x = Some d -> nmaxl x = Some m -> 2 <= zlen (nshape d) ->
  packet2_copy fuel junk K w h = Ok [mkNode None EmptyString 0 (Some d) (Some (nshape d)) (Some m) []].
Proof. exact @copy_packet2. Qed.
Print Assumptions C99_packet_2d.
Example C99_packet_2d_ex : exists h x, packet2 99 jk (Some pk42) zbank2 None [0; 1] = Ok h /\ nth_error h 0 = Some x /\
  ndat x = Some pk42 /\ nmaxl x = Some 1.
Proof. eexists. eexists. split; [vm_compute; reflexivity|]. split; [reflexivity|]. split; reflexivity. Qed.
Theorem C99_packet_fresh_partial : forall (C : CRing) fuel (junk : Z -> C) K data w maxl axis ax h,
  0 < zlen (nshape data) -> packet1 fuel junk (Some data) w maxl axis = Ok (ax, h) ->
  ax = zlen (nshape data) - 1 -> packet1_copy fuel junk K w h = Ok (ax, h).
Proof. exact @fresh_packet1. Qed.
Print Assumptions C99_packet_fresh_partial.
Example C99_packet_fresh_partial_ex : exists h, packet1 99 jk (Some pk42) zbank2 None (-1) = Ok (zlen (nshape pk42) - 1, h).
Proof. eexists. vm_compute. reflexivity. Qed.
Theorem C99_packet_axis_refuted : exists (data : nd Zring) w m h h',
  packet1 99 jk (Some data) w None 0 = Ok (0, h) /\ pr_wavelet w /\ nd_wf data /\
  packet1_copy 99 jk (wp1 99 jk w m 0) w h = Ok (1, h') /\
  exists a b, data_at (wp1 99 jk w m 0) "a" h = Some a /\ data_at (wp1 99 jk w m 1) "a" h' = Some b /\ a <> b.
Proof. exact packet_axis_lost. Qed.
Print Assumptions C99_packet_axis_refuted.
Theorem C99_packet_nodes_refuted : exists (data X : nd Zring) w m h h',
  packet1 99 jk (Some data) w None (-1) = Ok (0, h) /\ pr_wavelet w /\ nd_wf data /\
  let K := wp1 99 jk w m 0 in let h1 := run K h [OGet 0 "a"; OSet 0 "d" X] in
  packet1_copy 99 jk K w h1 = Ok (0, h') /\
  data_at K "d" h1 = Some X /\ (exists Y, data_at K "d" h' = Some Y /\ Y <> X) /\
  exists r r', snd (root_reconstruct K (Some (nshape data)) 0 false h1) = Ok (Some r) /\
               snd (root_reconstruct K (Some (nshape data)) 0 false h') = Ok (Some r') /\ r <> r'.
Proof. exact packet_nodes_lost. Qed.
Print Assumptions C99_packet_nodes_refuted.
