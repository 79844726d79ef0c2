(** What copies keep and what they lose. *)
From Coq Require Import String QArith.
From Verif Require Import Base BaseLemmas CConv Spec Instances Lengths Dwt DwtProofs Swt FilterSpec Filters FiltersProofs FiltersFacts Names NamesProofs.
From Verif Require Import Nd NdSpec Axis AxisProofs Multidim MultidimProofs MultilevelNd Packets Cwt Wavefun WavefunSpec WavefunProofs WavefunMain Pickle.
From Verif Require Import Tables TablesProofs ExBanks ExNd ExPackets ExBanks2 ExWavefun ExFilters PacketsSpec.
Open Scope string_scope. Open Scope list_scope. Open Scope Z_scope.

Section Wavelets.
Context {C : CRing}.
Add Ring cpick : (rth C).
Implicit Types o : wobj C.

Lemma custom_bank (w : wavelet C) : wf_bank w -> custom_wavelet (filter_bank w) = Ok w.
Proof.
  intros (H1 & H2 & H3 & H4 & H5). unfold dec_len in *.
  destruct (custom_spec C (filter_bank w)) as [(F & HF & dl & dh & rl & rh & E & L1 & L2 & L3 & L4 & E2 & _)|(_ & E)].
  - unfold filter_bank in E. injection E as <- <- <- <-. cbv zeta in E2. rewrite E2. rewrite <- L1.
    replace (zlen (dec_lo w) mod 2) with 0 by lia. change (repeat r0 (Z.to_nat 0)) with (@nil C). rewrite !app_nil_r. destruct w; reflexivity.
  - exfalso. apply E. exists (zlen (dec_lo w)). unfold filter_bank.
    split; [lia|]. split; [reflexivity|]. intros f Hf. cbn [In] in Hf. destruct Hf as [<-|[<-|[<-|[<-|[]]]]]; lia.
Qed.

Theorem copy_spec o : wf_bank (w_bank (o_wave o)) ->
  wavelet_copy o = Ok (mkWobj (o_name o) None None (mkDwave (w_bank (o_wave o)) false false 0 0)).
Proof. intros H. unfold wavelet_copy, wavelet_reduce, custom_obj. rewrite custom_bank by exact H. reflexivity. Qed.

Theorem copy_filters o : wf_bank (w_bank (o_wave o)) ->
  exists o', wavelet_copy o = Ok o' /\ o_name o' = o_name o /\ w_bank (o_wave o') = w_bank (o_wave o) /\ wavelet_copy o' = Ok o'.
Proof. intros H. eexists. split; [apply copy_spec, H|]. split; [reflexivity|]. split; [reflexivity|]. rewrite copy_spec by exact H. reflexivity. Qed.

Theorem copy_custom name filters o : custom_obj name filters = Ok o -> wavelet_copy o = Ok o.
Proof.
  unfold custom_obj. destruct (custom_spec C filters) as [(F & HF & dl & dh & rl & rh & E & L1 & L2 & L3 & L4 & E2 & W)|(E & _)].
  - cbv zeta in E2, W. rewrite E2. cbn [bind]. intros Ho. injection Ho as <-. rewrite copy_spec by exact W. reflexivity.
  - rewrite E. discriminate.
Qed.

Lemma builtin_flag fuel (T : tables C) s w : tables_ok T -> 22 < Z.of_nat fuel -> wavelet_new fuel T s = Ok w ->
  exists f n, wname_to_code (lower s) = Ok (f, n) /\ wf_bank (w_bank w) /\ w_biorthogonal w = true.
Proof.
  intros HT Hf H. destruct (wavelet_new_spec C fuel T HT Hf s) as [(f & n & w' & Hv & Hd & Hn & E & D & W)|(_ & E)]; [|rewrite E in H; discriminate].
  assert (w' = w) by congruence. subst w'. exists f, n. split; [rewrite Hn; apply code_of_name; auto|]. split; [exact W|].
  pose proof (valid_range f n Hv) as Hr. assert (Hu : uint_range n) by (unfold uint_range; lia). clear -D HT Hf Hu Hd.
  destruct f; try discriminate Hd.
  - rewrite haar_structure, db_structure in D by (auto; vm_compute; split; congruence). cbn in D. injection D as <-. reflexivity.
  - rewrite rbio_structure in D by auto. rewrite bior_structure in D by auto. destruct (lookup n); [|discriminate]. injection D as <-. reflexivity.
  - rewrite db_structure in D by auto. destruct (_ && _); [|discriminate]. injection D as <-. reflexivity.
  - rewrite sym_structure in D by auto. destruct (_ && _); [|discriminate]. injection D as <-. reflexivity.
  - rewrite coif_structure in D by auto. destruct (_ && _); [|discriminate]. injection D as <-. reflexivity.
  - rewrite bior_structure in D by auto. destruct (lookup n); [|discriminate]. injection D as <-. reflexivity.
  - rewrite dmey_structure in D by auto. injection D as <-. reflexivity.
Qed.

Theorem copy_builtin fuel (T : tables C) s o : tables_ok T -> 22 < Z.of_nat fuel -> wavelet_obj fuel T s = Ok o ->
  w_biorthogonal (o_wave o) = true /\ (exists n, o_number o = Some n) /\ (exists f, o_family o = Some f) /\
  exists o', wavelet_copy o = Ok o' /\ o_name o' = o_name o /\ w_bank (o_wave o') = w_bank (o_wave o) /\
    o_number o' = None /\ o_family o' = None /\ w_orthogonal (o_wave o') = false /\ w_biorthogonal (o_wave o') = false /\
    w_psi (o_wave o') = 0 /\ w_phi (o_wave o') = 0.
Proof.
  intros HT Hf. unfold wavelet_obj. destruct (wavelet_new fuel T s) as [w| | |] eqn:E; try discriminate. cbn [bind].
  destruct (builtin_flag fuel T s w HT Hf E) as (f & n & Hc & W & B). rewrite Hc. cbn [bind]. intros H. injection H as <-.
  split; [exact B|]. split; [eexists; reflexivity|]. split; [eexists; reflexivity|].
  eexists. split; [apply copy_spec, W|]. cbn. auto 10.
Qed.

(** wavefun of the copy. *)
Theorem copy_wavefun fuel (s : C) o o' level : wf_bank (w_bank (o_wave o)) -> 1 <= level -> wf_res fuel (dec_len (w_bank (o_wave o))) level ->
  wavelet_copy o = Ok o' ->
  (w_orthogonal (o_wave o) = true -> exists phi psi x phi_d psi_d phi_r psi_r x',
     wavefun fuel s (o_wave o) level = Ok (WfOrth phi psi x) /\
     wavefun fuel s (o_wave o') level = Ok (WfBior phi_d psi_d phi_r psi_r x')) /\
  (w_orthogonal (o_wave o) = false -> w_biorthogonal (o_wave o) && negb (w_psi (o_wave o) mod 4 =? 1) = false ->
     wavefun fuel s (o_wave o') level = wavefun fuel s (o_wave o) level) /\
  (w_orthogonal (o_wave o) = false -> w_biorthogonal (o_wave o) && negb (w_psi (o_wave o) mod 4 =? 1) = true ->
     exists phi_d psi_d phi_r psi_r x psi_d' psi_r' x',
     wavefun fuel s (o_wave o) level = Ok (WfBior phi_d psi_d phi_r psi_r x) /\
     wavefun fuel s (o_wave o') level = Ok (WfBior phi_d psi_d' phi_r psi_r' x') /\
     psi_d' = map ropp psi_d /\ psi_r' = map ropp psi_r).
Proof.
  intros W Hl Hr Hc. rewrite copy_spec in Hc by exact W. injection Hc as <-. cbn [o_wave].
  set (o'' := mkDwave (w_bank (o_wave o)) false false 0 0).
  destruct (wavefun_bior C fuel s o'' level W eq_refl Hl Hr) as (a & b & c & d & x & E & La & Lb & Lc & Ld & Lx & Pa & Pb & Pc & Pd & _).
  split; [|split].
  - intros O. destruct (wavefun_orth C fuel s (o_wave o) level W O Hl Hr) as (phi & psi & x0 & E0 & _).
    exists phi, psi, x0, a, b, c, d, x. auto.
  - intros O B. unfold wavefun. cbn [w_orthogonal w_biorthogonal w_bank w_psi o'']. rewrite O, B. reflexivity.
  - intros O B. destruct (wavefun_bior C fuel s (o_wave o) level W O Hl Hr) as (a0 & b0 & c0 & d0 & x0 & E0 & La0 & Lb0 & Lc0 & Ld0 & Lx0 & Pa0 & Pb0 & Pc0 & Pd0 & _).
    exists a0, b0, c0, d0, x0, b, d, x. split; [exact E0|].
    cbn [w_orthogonal w_biorthogonal w_bank w_psi o'' andb] in *. rewrite B in Pb0, Pd0.
    assert (a = a0). { apply list_ext; [lia|]. intros i _. rewrite Pa, Pa0. reflexivity. }
    assert (c = c0). { apply list_ext; [lia|]. intros i _. rewrite Pc, Pc0. reflexivity. }
    subst a c. split; [exact E|]. 
    assert (Z0 : ropp r0 = r0 :> C) by ring.
    split; apply list_ext; rewrite ?zlen_map; try lia; intros i Hi; rewrite (gz_map ropp) by exact Z0;
      [rewrite Pb, Pb0|rewrite Pd, Pd0]; ring.
Qed.
End Wavelets.

(** * Continuous wavelets *)
Theorem copy_continuous name single o : continuous_obj name single = Ok o -> continuous_copy o = Ok o.
Proof.
  unfold continuous_obj, continuous_copy. destruct (continuous_new name) as [w| | |] eqn:E; try discriminate.
  cbn [bind]. intros H. injection H as <-. cbn [co_name co_single]. unfold continuous_obj. rewrite continuous_new_lower, E. cbn [bind].
  rewrite lower_idem. reflexivity.
Qed.
Theorem copy_continuous_changed name single o v : continuous_obj name single = Ok o ->
  continuous_copy (set_center o v) = Ok o /\ continuous_copy (set_band o v) = Ok o.
Proof. intros H. split; exact (copy_continuous name single o H). Qed.

(** * Packets *)
Section Packet.
Context {C : CRing}.
Variable fuel : nat.
Variable junk : Z -> C.

(** The copy is the packet of the current data and the current maxlevel along
    the last axis (the last two axes), without subnodes. *)
Theorem copy_packet1 K w (h : nheap (nd C)) x d m : nth_error h 0 = Some x -> ndat x = Some d -> nmaxl x = Some m -> 0 < zlen (nshape d) ->
  packet1_copy fuel junk K w h =
  Ok (zlen (nshape d) - 1, [mkNode None EmptyString 0 (Some d) (Some (nshape d)) (Some m) []]).
Proof.
  intros Hx Hd Hm Hn. unfold packet1_copy, packet_reduce, bindM, get, maxlevel. rewrite Hx. unfold bindM, get. rewrite Hx, Hm. cbn [snd bind ret].
  rewrite Hd. unfold packet1. change (-1 <? 0) with true. cbn iota.
  destruct (Z.leb_spec 0 (-1 + zlen (nshape d))); [|lia]. destruct (Z.ltb_spec (-1 + zlen (nshape d)) (zlen (nshape d))); [|lia].
  cbn [negb andb bind]. do 2 f_equal. lia.
Qed.

Theorem fresh_packet1 K data w maxl axis ax h : 0 < zlen (nshape data) -> packet1 fuel junk (Some data) w maxl axis = Ok (ax, h) ->
  ax = zlen (nshape data) - 1 -> packet1_copy fuel junk K w h = Ok (ax, h).
Proof.
  intros Hn. unfold packet1. set (a := if axis <? 0 then _ else _). destruct (negb _); [discriminate|].
  destruct (match maxl with Some l => Ok l | None => _ end) as [l| | |]; try discriminate. cbn [bind]. intros H Ha. injection H as <- <-.
  rewrite Ha. erewrite copy_packet1; [reflexivity|reflexivity|reflexivity|reflexivity|exact Hn].
Qed.

Theorem copy_packet2 K w (h : nheap (nd C)) x d m : nth_error h 0 = Some x -> ndat x = Some d -> nmaxl x = Some m -> 2 <= zlen (nshape d) ->
  packet2_copy fuel junk K w h = Ok [mkNode None EmptyString 0 (Some d) (Some (nshape d)) (Some m) []].
Proof.
  intros Hx Hd Hm Hn. unfold packet2_copy, packet_reduce, bindM, get, maxlevel. rewrite Hx. unfold bindM, get. rewrite Hx, Hm. cbn [snd bind ret].
  rewrite Hd. unfold packet2. change (negb (Nat.eqb (distinct [-2; -1]) 2)) with false. cbn iota.
  destruct (Z.ltb_spec (zlen (nshape d)) 2); [lia|]. cbn [mapM].
  assert (I : forall k, k = -2 \/ k = -1 -> exists v, py_index (nshape d) k = Ok v).
  { intros k Hk. unfold py_index. cbv zeta. destruct (Z.ltb_spec k (- zlen (nshape d))); [lia|].
    destruct (Z.leb_spec (zlen (nshape d)) k); [lia|]. cbn [orb]. eexists; reflexivity. }
  destruct (I (-2)) as (v1 & ->); [auto|]. cbn [bind]. destruct (I (-1)) as (v2 & ->); [auto|]. reflexivity.
Qed.
End Packet.

(** * Concrete losses *)
Definition pk42 : nd Zring := mkNd (C := Zring) [4; 2] [1; 2; 3; 5; 8; 13; 21; 34].
Lemma pk42_wf : nd_wf pk42. Proof. split; [repeat constructor; cbn; lia|reflexivity]. Qed.

Lemma packet_axis_lost : exists (data : nd Zring) w m h h',
  packet1 99 jk (Some data) w None 0 = Ok (0, h) /\ pr_wavelet w /\ nd_wf data /\
  packet1_copy 99 jk (wp1 99 jk w m 0) w h = Ok (1, h') /\
  exists a b, data_at (wp1 99 jk w m 0) "a" h = Some a /\ data_at (wp1 99 jk w m 1) "a" h' = Some b /\ a <> b.
Proof.
  exists pk42, zbank2, SYMMETRIC. eexists. eexists. split; [vm_compute; reflexivity|]. split; [exact zbank2_pr|]. split; [exact pk42_wf|].
  split; [vm_compute; reflexivity|]. eexists. eexists. split; [vm_compute; reflexivity|]. split; [vm_compute; reflexivity|]. discriminate.
Qed.

Lemma packet_nodes_lost : exists (data X : nd Zring) w m h h',
  packet1 99 jk (Some data) w None (-1) = Ok (0, h) /\ pr_wavelet w /\ nd_wf data /\
  let K := wp1 99 jk w m 0 in let h1 := run K h [OGet 0 "a"; OSet 0 "d" X] in
  packet1_copy 99 jk K w h1 = Ok (0, h') /\
  data_at K "d" h1 = Some X /\ (exists Y, data_at K "d" h' = Some Y /\ Y <> X) /\
  exists r r', snd (root_reconstruct K (Some (nshape data)) 0 false h1) = Ok (Some r) /\
               snd (root_reconstruct K (Some (nshape data)) 0 false h') = Ok (Some r') /\ r <> r'.
Proof.
  exists pk5, (pk [7; 7; 7]), zbank2, SYMMETRIC. eexists. eexists. split; [vm_compute; reflexivity|]. split; [exact zbank2_pr|]. split; [exact pk5_wf|].
  cbv zeta. split; [vm_compute; reflexivity|]. split; [vm_compute; reflexivity|].
  split; [eexists; split; [vm_compute; reflexivity|discriminate]|].
  eexists. eexists. split; [vm_compute; reflexivity|]. split; [vm_compute; reflexivity|]. discriminate.
Qed.

Lemma wavefun_copy_differs : exists (o o' : wobj QS2) phi psi x r,
  wf_bank (w_bank (o_wave o)) /\ wavelet_copy o = Ok o' /\
  wavefun 60 sqrt2 (o_wave o) 2 = Ok (WfOrth phi psi x) /\ wavefun 60 sqrt2 (o_wave o') 2 = Ok r /\
  (forall phi psi x, r <> WfOrth phi psi x).
Proof.
  pose (o := mkWobj (C := QS2) "w4" (Some 2) (Some DB) W4).
  destruct (copy_filters o W4_wf) as (o' & E & _).
  destruct (copy_wavefun 60 sqrt2 o o' 2 W4_wf ltac:(lia) (res4 2 ltac:(lia)) E) as (A & _).
  destruct (A eq_refl) as (phi & psi & x & a & b & c & d & x' & E1 & E2).
  exists o, o', phi, psi, x, (WfBior a b c d x'). split; [exact W4_wf|]. split; [exact E|]. split; [exact E1|]. split; [exact E2|]. discriminate.
Qed.

Lemma continuous_copy_differs : exists o o', continuous_obj "cmor1.5-1.0" false = Ok o /\ continuous_copy (set_center o 2) = Ok o' /\
  c_center (co_wave o') = Some (10 # 10)%Q /\ c_center (co_wave (set_center o 2)) = Some 2%Q.
Proof. eexists. eexists. split; [vm_compute; reflexivity|]. split; [vm_compute; reflexivity|]. split; reflexivity. Qed.

Lemma db2_obj : exists o, wavelet_obj 40 builtin "DB2" = Ok o /\ o_name o = "db2" /\ o_number o = Some 2 /\ o_family o = Some DB.
Proof.
  eexists. split.
  - unfold wavelet_obj, wavelet_new. change (wname_to_code (lower "DB2")) with (Ok (DB, 2)). cbn [bind is_discrete_wavelet].
    rewrite db_structure by (exact builtin_ok || (vm_compute; split; congruence)). cbn [Z.leb Z.compare Pos.compare Pos.compare_cont andb bind].
    reflexivity.
  - split; [reflexivity|]. split; reflexivity.
Qed.
