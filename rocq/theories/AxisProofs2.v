(** The axis transforms of the Cython layer compute the line-by-line transforms
    of NdSpec.v, for any layout of the inputs. *)
From Verif Require Import Base BaseLemmas CConv Spec UpConv Lengths LengthsProofs Dwt DwtProofs Swt SwtSpec SwtProofs Nd NdSpec Axis AxisProofs.

Section AP3.
Variable C : CRing.
Add Ring Cring_ring_ax2 : (rth C).
Variable fuel : nat.

Definition idwt_pre (w : wavelet C) (m : mode) (n : Z) : Prop :=
  wf_bank w /\ resources fuel n (dec_len w) /\ 1 <= n /\ 0 <= rec_len m n (dec_len w).

Lemma up_step (c g z : list C) m w n : idwt_pre w m n -> zlen c = n -> zlen g = dec_len w ->
  zlen z = rec_len m n (dec_len w) ->
  ignore_code z (upsampling_convolution_valid_sf fuel c g z m) = Ok (tab (zlen z) (fun i => gz z i [+] gz (synthesis m g c) i)).
Proof.
  intros ((H1 & H2 & H3 & H4 & H5) & (Hr & Ha) & Hn & Hrec) Hc Hg Hz.
  destruct (Z.eq_dec (zlen z) 0) as [e|ne].
  - assert (z = []) by (apply zlen_nil_inv; auto). subst z.
    assert (Hm : m <> PERIODIZATION) by (intros ->; cbn [rec_len] in Hz; lia).
    assert (Hz' : 0 = 2 * n - dec_len w + 2) by (rewrite <- e, Hz; destruct m; reflexivity || congruence).
    assert (E : upsampling_convolution_valid_sf fuel c g [] m = Err (-1)).
    { unfold upsampling_convolution_valid_sf. rewrite Hc, Hg.
      replace (negb (dec_len w mod 2 =? 0) || (n <? dec_len w / 2)) with true by lia.
      destruct m; reflexivity || congruence. }
    rewrite E. reflexivity.
  - rewrite upsampling_convolution_valid_sf_spec; try lia; try (rewrite ?Hc, ?Hg; auto).
    intros Hm. assert (rec_len m n (dec_len w) = 2 * n - dec_len w + 2) by (destruct m; reflexivity || congruence). lia.
Qed.

(** Rows combined by the synthesis. *)
Definition syn_rows (w : wavelet C) (m : mode) (ha hd_ : bool) (rows : list (list C)) : list C :=
  match ha, hd_, rows with
  | true, true, ra :: rd_ :: _ => vadd (synthesis m (rec_lo w) ra) (synthesis m (rec_hi w) rd_)
  | true, false, ra :: _ => synthesis m (rec_lo w) ra
  | false, true, rd_ :: _ => synthesis m (rec_hi w) rd_
  | _, _, _ => []
  end.

Lemma syn_len w m n (c g : list C) : idwt_pre w m n -> zlen c = n -> zlen g = dec_len w ->
  zlen (synthesis m g c) = rec_len m n (dec_len w).
Proof. intros ((H1 & H2 & H3 & H4 & H5) & Hr & Hn & Hrec) Hc Hg. rewrite zlen_synthesis; rewrite Hc, Hg; auto. Qed.

Definition isS {A} (o : option A) : bool := match o with Some _ => true | None => false end.
Definition opt_list {A} (o : option A) : list A := match o with Some x => [x] | None => [] end.

Lemma idwt_kernel_ok w m n (a d : option (sarr C)) (rows : list (list C)) (row0 : list C) :
  idwt_pre w m n -> isS a || isS d = true ->
  map zlen rows = map (fun _ => n) (opt_list a ++ opt_list d) -> zlen row0 = rec_len m n (dec_len w) ->
  (let z := repeat r0 (length row0) in
   let '(ra, rows') := match a with Some _ => (Some (hd [] rows), tl rows) | None => (None, rows) end in
   let rd_ := match d with Some _ => Some (hd [] rows') | None => None end in
   r <- match ra with
        | Some c => ignore_code z (upsampling_convolution_valid_sf fuel c (rec_lo w) z m)
        | None => Ok z
        end ;;
   match rd_ with
   | Some c => ignore_code r (upsampling_convolution_valid_sf fuel c (rec_hi w) r m)
   | None => Ok r
   end) = Ok (syn_rows w m (isS a) (isS d) rows) /\
  zlen (syn_rows w m (isS a) (isS d) rows) = rec_len m n (dec_len w).
Proof.
  intros Hp Hs Hr H0. pose proof Hp as ((H1 & H2 & H3 & H4 & H5) & _ & Hn & Hrec). cbv zeta.
  assert (Hz : zlen (repeat (r0 : C) (length row0)) = rec_len m n (dec_len w)) by (rewrite zlen_repeat; exact H0).
  set (z := repeat r0 (length row0)) in *. set (K := rec_len m n (dec_len w)) in *.
  assert (Hgz : forall i, gz z i = r0) by (intros; apply gz_repeat0).
  destruct a as [a|]; destruct d as [d|]; cbn in Hs, Hr; try discriminate; cbn [isS].
  - destruct rows as [|ra [|rd_ [|? ?]]]; cbn in Hr; try discriminate. injection Hr as Ha Hd. cbn [hd tl bind].
    rewrite (up_step _ _ _ m w n) by auto. cbn [bind].
    rewrite (up_step _ _ _ m w n) by (auto; rewrite zlen_tab; lia).
    unfold syn_rows. rewrite zlen_tab by lia. rewrite Hz.
    assert (L0 : zlen (synthesis m (rec_lo w) ra) = K) by (apply (syn_len w); auto).
    assert (L1 : zlen (synthesis m (rec_hi w) rd_) = K) by (apply (syn_len w); auto).
    rewrite zlen_vadd by lia. split; [|lia]. f_equal. apply list_ext.
    + rewrite zlen_tab, zlen_vadd; lia.
    + intros i Hi. rewrite zlen_tab in Hi by lia. rewrite !gz_tab by lia. rewrite gz_vadd by lia. rewrite Hgz. ring.
  - destruct rows as [|ra [|? ?]]; cbn in Hr; try discriminate. injection Hr as Ha. cbn [hd tl bind].
    rewrite (up_step _ _ _ m w n) by auto. cbn [bind syn_rows].
    assert (L0 : zlen (synthesis m (rec_lo w) ra) = K) by (apply (syn_len w); auto).
    split; auto. f_equal. rewrite <- (tab_gz (synthesis m (rec_lo w) ra)), L0, Hz.
    apply tab_ext. intros i Hi. rewrite Hgz. rewrite gz_tab by lia. ring.
  - destruct rows as [|ra [|? ?]]; cbn in Hr; try discriminate. injection Hr as Ha. cbn [hd tl bind].
    rewrite (up_step _ _ _ m w n) by auto. cbn [bind syn_rows].
    assert (L0 : zlen (synthesis m (rec_hi w) ra) = K) by (apply (syn_len w); auto).
    split; auto. f_equal. rewrite <- (tab_gz (synthesis m (rec_hi w) ra)), L0, Hz.
    apply tab_ext. intros i Hi. rewrite Hgz. rewrite gz_tab by lia. ring.
Qed.

(** idwt_axis of the C layer for arbitrary layouts. [sh] is the common shape of
    the inputs. *)
Theorem c_idwt_axis_spec junk (a d : option (sarr C)) (out : sarr C) w axis m sh :
  let n := nthz axis sh in
  let inputs := opt_list a ++ opt_list d in
  isS a || isS d = true -> (forall x, In x inputs -> sarr_ok C x /\ sshape x = sh) ->
  sarr_ok C out -> no_overlap C out -> (axis < length sh)%nat -> idwt_pre w m n ->
  sshape out = setn axis (rec_len m n (dec_len w)) sh ->
  exists mem, c_idwt_axis fuel junk a d out w axis m = Ok mem /\ zlen mem = zlen (smem out) /\
    (forall idx, valid (sshape out) idx ->
       gz mem (sbase out + dot idx (sstrides out))
       = gz (syn_rows w m (isS a) (isS d) (map (fun x => line (val C x) axis idx) inputs)) (nthz axis idx)) /\
    (forall q, (forall idx, valid (sshape out) idx -> q <> sbase out + dot idx (sstrides out)) ->
       gz mem q = gz (smem out) q).
Proof.
  intros n inputs Hs Hin Ho Hno Hax Hpre Hsh. unfold c_idwt_axis.
  change (match a with Some a0 => [a0] | None => [] end) with (opt_list a).
  change (match d with Some a0 => [a0] | None => [] end) with (opt_list d). fold inputs.
  pose proof Hpre as ((H1 & H2 & H3 & H4 & H5) & (Hr & Ha) & Hn & Hrec).
  assert (Hlen : length (sshape out) = length sh) by (rewrite Hsh, setn_length; auto).
  assert (HF : rec_flen w = dec_len w) by (unfold rec_flen; lia).
  assert (HK : rec_len m n (dec_len w) < max_alloc) by (destruct m; cbn [rec_len] in *; lia).
  destruct inputs as [|first rest] eqn:Ei.
  { exfalso. subst inputs. destruct a, d; discriminate. }
  rewrite <- Ei in *.
  replace (forallb _ inputs) with true.
  2: { symmetry. apply forallb_forall. intros x Hx. destruct (Hin x Hx) as (_ & ->). rewrite Hlen. apply Nat.eqb_refl. }
  cbn [negb]. destruct (Nat.leb_spec (length (sshape out)) axis); [lia|].
  replace (forallb _ inputs) with true.
  2: { symmetry. apply forallb_forall. intros x Hx. destruct (Hin x Hx) as (_ & ->).
       destruct (Hin first) as (_ & ->); [rewrite Ei; left; auto|]. apply Z.eqb_refl. }
  cbn [negb].
  rewrite (mapM_ok _ (fun _ => tt)).
  2: { intros x Hx. destruct (Hin x Hx) as (_ & ->). rewrite Hsh. apply check_shapes_setn; auto.
       fold n. rewrite HF, idwt_buffer_ok by lia. rewrite Z.eqb_refl. reflexivity. }
  cbn [bind].
  rewrite (mapM_ok _ (fun x => if make_temp x axis then tab n junk else [])).
  2: { intros x Hx. destruct (Hin x Hx) as (_ & ->). fold n. destruct (make_temp x axis); auto.
       unfold malloc_row. replace (n <? max_alloc) with true by lia. reflexivity. }
  cbn [bind].
  assert (X2 : exists t : list C, (if make_temp out axis then malloc_row junk (nthz axis (sshape out)) 2 else Ok ([] : list C)) = Ok t /\
     (make_temp out axis = true -> zlen t = nthz axis (sshape out))).
  { destruct (make_temp out axis); [|eexists; split; [reflexivity|discriminate]].
    rewrite Hsh, nthz_setn by auto.
    destruct (malloc_row_ok C junk (rec_len m n (dec_len w)) 2) as (t2 & E2 & L2); [lia|]. eauto. }
  destruct X2 as (t2 & -> & Lt2). cbn [bind].
  match goal with |- exists mem, axis_loop _ _ _ ?k _ = _ /\ _ =>
    destruct (axis_loop_spec C axis inputs out k (syn_rows w m (isS a) (isS d))) with (temp := t2) as (mem & E & Hl & Hv & Hu) end.
  - lia.
  - auto.
  - auto.
  - intros x Hx. destruct (Hin x Hx) as (Hok & Hsx). split; auto. rewrite Hsh, setn_setn, Hsx, setn_nthz. auto.
  - intros rows row0 Hrows H0. rewrite Hsh, nthz_setn in * by auto. apply idwt_kernel_ok; auto.
    rewrite Hrows. apply map_ext_in. intros x Hx. destruct (Hin x Hx) as (_ & ->). reflexivity.
  - auto.
  - exists mem. split; [exact E|]. split; [auto|]. split; auto.
Qed.

(** ** The Cython layer *)

Lemma with_mem_of_nd sh (f : list Z -> C) m0 :
  with_mem (mkSarr m0 0 sh (c_strides sh)) (ndata (ndtab sh f)) = of_nd (ndtab sh f).
Proof. reflexivity. Qed.

(** A memory holding [f idx] at every index of a contiguous array. *)
Lemma contig_mem sh (f : list Z -> C) (mem : list C) : shape_ok sh -> zlen mem = prodZ sh ->
  (forall idx, valid sh idx -> gz mem (0 + dot idx (c_strides sh)) = f idx) -> mem = ndata (ndtab sh f).
Proof.
  intros Hs Hm Hv. unfold ndtab. cbn [ndata]. rewrite <- (tab_gz mem), Hm. apply tab_ext. intros i Hi.
  pose proof (unravel_valid sh Hs i Hi) as V. rewrite <- Hv by auto. f_equal.
  rewrite dot_c_strides by (apply valid_len; auto). rewrite ravel_unravel; auto.
Qed.

Lemma downcoef_axis_fresh junk (inp : sarr C) w axis (approx : bool) m level tr :
  let n := nthz axis (sshape inp) in
  let sh := setn axis (axis_len C w m tr n) (sshape inp) in
  sarr_ok C inp -> (axis < length (sshape inp))%nat -> axis_pre C fuel w m level tr n -> prodZ sh < max_alloc ->
  let out := mkSarr (tab (prodZ sh) junk) 0 sh (c_strides sh) in
  downcoef_axis fuel junk inp out w axis approx m level tr
  = Ok (ndata (along axis (axis_len C w m tr n) (axis_kernel C w approx m level tr) (val C inp))).
Proof.
  intros n sh Hi Hax Hpre Hp out. destruct (axis_len_bound C fuel w m level tr n Hpre) as (Hn & Hb).
  assert (Hs : shape_ok sh) by (apply shape_ok_setn; [apply Hi|lia]).
  assert (Hz : zlen (tab (prodZ sh) junk) = prodZ sh) by (apply zlen_tab; apply prodZ_nonneg; auto).
  destruct (downcoef_axis_spec C fuel junk inp out w axis approx m level tr) as (mem & E & Hl & Hv & _); auto.
  - apply contig_ok; auto.
  - apply contig_no_overlap.
  - rewrite E. f_equal. unfold along. rewrite nshape_val. fold sh. apply contig_mem; auto.
    cbn [out smem] in Hl. lia.
Qed.

Theorem dwt_axis_spec junk (s : sarr C) w m axis :
  let n := nthz axis (sshape s) in
  sarr_ok C s -> (axis < length (sshape s))%nat -> wf_bank w -> min_len m <= n -> resources fuel n (dec_len w) ->
  prodZ (setn axis (coeff_len m n (dec_len w)) (sshape s)) < max_alloc ->
  dwt_axis fuel junk s w m axis = Ok (of_nd (dax axis m (dec_lo w) (val C s)), of_nd (dax axis m (dec_hi w) (val C s))).
Proof.
  intros n Hok Hax Hw Hmin Hr Hp. unfold dwt_axis. destruct (Nat.leb_spec (length (sshape s)) axis); [lia|].
  pose proof Hw as (H1 & H2 & H3 & H4 & H5). fold n.
  assert (Hn : 1 <= n) by (destruct m; cbn in Hmin; lia).
  replace ((n =? 1) && _) with false.
  2: { destruct m; cbn in Hmin; try (rewrite andb_false_r; reflexivity); replace (n =? 1) with false by lia; reflexivity. }
  unfold dwt_coeff_len. replace (n <? 1) with false by lia. replace (dec_len w <? 1) with false by lia. cbn [bind].
  rewrite coeff_len_buffer by lia. rewrite np_empty_ok by auto. cbn [bind].
  assert (Hpre : axis_pre C fuel w m 0 DWT_TRANSFORM n) by (repeat split; auto; apply Hr).
  pose proof (downcoef_axis_fresh junk s w axis true m 0 DWT_TRANSFORM Hok Hax Hpre Hp) as Ea.
  pose proof (downcoef_axis_fresh junk s w axis false m 0 DWT_TRANSFORM Hok Hax Hpre Hp) as Ed.
  cbv zeta in Ea, Ed. cbn [axis_len] in Ea, Ed. fold n in Ea, Ed. rewrite Ea, Ed. cbn [as_runtime bind].
  f_equal. f_equal.
  unfold dax. rewrite H1. reflexivity.
Qed.

Theorem idwt_axis_spec junk (a d : option (sarr C)) w m axis sh :
  let n := nthz axis sh in
  (forall x, In x (opt_list a ++ opt_list d) -> sarr_ok C x /\ sshape x = sh) ->
  (axis < length sh)%nat -> idwt_pre w m n -> prodZ (setn axis (rec_len m n (dec_len w)) sh) < max_alloc ->
  idwt_axis fuel junk a d w m axis
  = Ok (option_map of_nd (sax2 axis m (rec_lo w) (rec_hi w) (option_map (val C) a) (option_map (val C) d))).
Proof.
  intros n Hin Hax Hpre Hp.
  pose proof Hpre as ((H1 & H2 & H3 & H4 & H5) & (Hr & Ha) & Hn & Hrec).
  assert (HF : rec_flen w = dec_len w) by (unfold rec_flen; lia).
  assert (HK : rec_len m n (dec_len w) < max_alloc) by (destruct m; cbn [rec_len] in *; lia).
  set (sh' := setn axis (rec_len m n (dec_len w)) sh) in *.
  destruct (isS a || isS d) eqn:Hs.
  2: { destruct a, d; try discriminate. reflexivity. }
  assert (Hany : exists x, In x (opt_list a ++ opt_list d)).
  { destruct a as [a|]; [exists a; left; auto|]. destruct d as [d|]; [exists d; left; auto|discriminate]. }
  assert (Hsok : shape_ok sh) by (destruct Hany as (x & Hx); destruct (Hin x Hx) as ((? & _) & <-); auto).
  assert (Hs' : shape_ok sh') by (apply shape_ok_setn; auto).
  assert (Hfirst : exists first, (match a with Some x => Some x | None => d end) = Some first /\ sshape first = sh).
  { destruct a as [a|]; [exists a; split; auto; apply Hin; left; auto|].
    destruct d as [d|]; [exists d; split; auto; apply Hin; left; auto|discriminate]. }
  destruct Hfirst as (first & E1 & E2). unfold idwt_axis. rewrite E1, E2.
  destruct (Nat.leb_spec (length sh) axis); [lia|]. fold n. rewrite HF, idwt_buffer_ok by lia. fold sh'.
  rewrite np_empty_ok by auto. cbn [bind].
  set (out := mkSarr (tab (prodZ sh') junk) 0 sh' (c_strides sh')).
  assert (Hz : zlen (tab (prodZ sh') junk) = prodZ sh') by (apply zlen_tab; apply prodZ_nonneg; auto).
  destruct (c_idwt_axis_spec junk a d out w axis m sh) as (mem & E & Hl & Hv & _); auto.
  { apply contig_ok; auto. }
  { apply contig_no_overlap. }
  rewrite E. cbn [as_runtime bind]. cbn [out smem] in Hl. rewrite Hz in Hl.
  cbn [sshape sbase sstrides out] in Hv.
  assert (Hval : forall x, In x (opt_list a ++ opt_list d) -> nshape (val C x) = sh) by (intros x Hx; apply Hin; auto).
  f_equal. clear E E1.
  rewrite (contig_mem sh' (fun idx => gz (syn_rows w m (isS a) (isS d)
      (map (fun x => line (val C x) axis idx) (opt_list a ++ opt_list d))) (nthz axis idx)) mem) by auto.
  unfold out. rewrite with_mem_of_nd.
  destruct a as [a|]; destruct d as [d|]; try discriminate; cbn [option_map sax2 opt_list app map isS syn_rows]; f_equal; f_equal.
  - unfold ndadd, sax, along. cbn [nshape ndtab].
    rewrite (Hval a) by (left; auto). rewrite (Hval d) by (right; left; auto). fold n.
    rewrite H2, H3. fold sh'. apply ndtab_ext; auto. intros idx Hi. rewrite !ndget_ndtab by auto.
    assert (La : zlen (line (val C a) axis idx) = n) by (rewrite zlen_line; [rewrite Hval by (left; auto); auto|apply val_wf, Hin; left; auto]).
    assert (Ld : zlen (line (val C d) axis idx) = n) by (rewrite zlen_line; [rewrite Hval by (right; left; auto); auto|apply val_wf, Hin; right; left; auto]).
    apply gz_vadd. rewrite !(syn_len w m n); auto.
  - unfold sax, along. rewrite (Hval a) by (left; auto). fold n. rewrite H2. reflexivity.
  - unfold sax, along. rewrite (Hval d) by (left; auto). fold n. rewrite H3. reflexivity.
Qed.

(** ** Stationary transform along an axis *)

Fixpoint ndswt_approx (ax : nat) (h0 : list C) (s : Z) (n : nat) (x : nd C) : nd C :=
  match n with O => x | S n' => wax ax (s + Z.of_nat n) h0 (ndswt_approx ax h0 s n' x) end.
Definition ndswt_detail (ax : nat) (h0 h1 : list C) (s : Z) (n : nat) (x : nd C) : nd C :=
  wax ax (s + Z.of_nat n) h1 (ndswt_approx ax h0 s (n - 1) x).
Definition ndswt_item (trim : bool) ax h0 h1 s (x : nd C) (j : nat) : swt_item (sarr C) :=
  if trim then SArr (of_nd (ndswt_detail ax h0 h1 s j x))
  else SPair (of_nd (ndswt_approx ax h0 s j x)) (of_nd (ndswt_detail ax h0 h1 s j x)).
Definition ndswt_out (trim : bool) ax h0 h1 s n (x : nd C) : list (swt_item (sarr C)) :=
  (if trim then [SArr (of_nd (ndswt_approx ax h0 s n x))] else []) ++ map (ndswt_item trim ax h0 h1 s x) (rev (seq 1 n)).

Lemma ndswt_shape ax h0 s n (x : nd C) : nshape (ndswt_approx ax h0 s n x) = nshape x.
Proof.
  induction n as [|n IH]; cbn [ndswt_approx]; auto. unfold wax. rewrite along_shape, setn_nthz. auto.
Qed.
Lemma ndswt_wf ax h0 s n (x : nd C) : nd_wf x -> nd_wf (ndswt_approx ax h0 s n x).
Proof.
  intros H. induction n as [|n IH]; cbn [ndswt_approx]; auto. apply along_wf; auto. apply shape_ok_nth. apply IH.
Qed.

Lemma swt_axis_step junk (s : sarr C) w axis level :
  let n := nthz axis (sshape s) in
  sarr_ok C s -> (axis < length (sshape s))%nat -> axis_pre C fuel w PERIODIZATION level SWT_TRANSFORM n -> prodZ (sshape s) < max_alloc ->
  let out := mkSarr (tab (prodZ (sshape s)) junk) 0 (sshape s) (c_strides (sshape s)) in
  downcoef_axis fuel junk s out w axis true PERIODIZATION level SWT_TRANSFORM = Ok (ndata (wax axis level (dec_lo w) (val C s))) /\
  downcoef_axis fuel junk s out w axis false PERIODIZATION level SWT_TRANSFORM = Ok (ndata (wax axis level (dec_hi w) (val C s))).
Proof.
  intros n Hok Hax Hpre Hp out. subst n.
  pose proof (downcoef_axis_fresh junk s w axis true PERIODIZATION level SWT_TRANSFORM Hok Hax Hpre) as Ea.
  pose proof (downcoef_axis_fresh junk s w axis false PERIODIZATION level SWT_TRANSFORM Hok Hax Hpre) as Ed.
  cbv zeta in Ea, Ed. cbn [axis_len] in Ea, Ed. rewrite setn_nthz in Ea, Ed. unfold out. rewrite Ea, Ed by auto. split; reflexivity.
Qed.

Lemma swt_axis_loop_spec junk w s axis (x : nd C) trim : nd_wf x -> wf_bank w -> (axis < length (nshape x))%nat ->
  let N := nthz axis (nshape x) in 1 <= N -> 0 <= s -> prodZ (nshape x) < max_alloc ->
  forall n k ret data, sarr_ok C data -> sshape data = nshape x -> val C data = ndswt_approx axis (dec_lo w) s k x ->
  (2 ^ (s + Z.of_nat (k + n)) | N) -> swt_resources fuel N (dec_len w) (s + Z.of_nat (k + n)) ->
  (n = 0%nat -> data = of_nd (val C data)) ->
  swt_axis_loop fuel junk data w axis (s + Z.of_nat k + 1) n trim ret =
  Ok (ret ++ map (ndswt_item trim axis (dec_lo w) (dec_hi w) s x) (seq (S k) n), of_nd (ndswt_approx axis (dec_lo w) s (k + n) x)).
Proof.
  intros Hx Hw Hax N HN Hs Hp. pose proof Hw as (H1 & H2 & H3 & H4 & H5).
  induction n as [|n IH]; intros k ret data Hok Hsh Hval Hd Hr H0; cbn [swt_axis_loop].
  - cbn [seq map]. rewrite app_nil_r, Nat.add_0_r. rewrite <- Hval, <- (H0 eq_refl). reflexivity.
  - rewrite Hsh. rewrite np_empty_ok by auto. cbn [bind].
    assert (Hd' : (2 ^ (s + Z.of_nat k + 1) | N)).
    { apply Z.divide_trans with (2 ^ (s + Z.of_nat (k + S n))); auto. apply pow2_div; lia. }
    assert (Hr' : swt_resources fuel N (dec_len w) (s + Z.of_nat k + 1)).
    { apply swt_resources_le with (s + Z.of_nat (k + S n)); auto; lia. }
    assert (Hpre : axis_pre C fuel w PERIODIZATION (s + Z.of_nat k + 1) SWT_TRANSFORM (nthz axis (sshape data))).
    { rewrite Hsh. fold N. split; auto. split; [apply Hr'|]. repeat split; auto; try lia; apply Hr'. }
    destruct (swt_axis_step junk data w axis (s + Z.of_nat k + 1)) as (Ea & Ed); auto; try (rewrite Hsh; auto).
    rewrite Hsh in Ea, Ed. rewrite Ea, Ed. cbn [as_runtime bind].
    assert (Ws : nshape (wax axis (s + Z.of_nat k + 1) (dec_lo w) (val C data)) = nshape x).
    { unfold wax. rewrite along_shape, setn_nthz. auto. }
    assert (Ws1 : nshape (wax axis (s + Z.of_nat k + 1) (dec_hi w) (val C data)) = nshape x).
    { unfold wax. rewrite along_shape, setn_nthz. auto. }
    assert (Wa : with_mem (mkSarr (tab (prodZ (nshape x)) junk) 0 (nshape x) (c_strides (nshape x)))
        (ndata (wax axis (s + Z.of_nat k + 1) (dec_lo w) (val C data))) = of_nd (wax axis (s + Z.of_nat k + 1) (dec_lo w) (val C data))).
    { unfold of_nd. rewrite Ws. reflexivity. }
    assert (Wd : with_mem (mkSarr (tab (prodZ (nshape x)) junk) 0 (nshape x) (c_strides (nshape x)))
        (ndata (wax axis (s + Z.of_nat k + 1) (dec_hi w) (val C data))) = of_nd (wax axis (s + Z.of_nat k + 1) (dec_hi w) (val C data))).
    { unfold of_nd. rewrite Ws1. reflexivity. }
    rewrite Wa, Wd.
    assert (Wf : nd_wf (wax axis (s + Z.of_nat k + 1) (dec_lo w) (val C data))).
    { apply along_wf; [apply val_wf; auto|]. rewrite nshape_val, Hsh. fold N. lia. }
    replace (s + Z.of_nat k + 1 + 1) with (s + Z.of_nat (S k) + 1) by lia.
    rewrite IH; auto.
    + replace (k + S n)%nat with (S k + n)%nat by lia. f_equal. f_equal. rewrite <- app_assoc. f_equal.
      cbn [seq map app]. f_equal. unfold ndswt_item, ndswt_detail. cbn [ndswt_approx].
      replace (S k - 1)%nat with k by lia. rewrite <- Hval.
      replace (s + Z.of_nat (S k)) with (s + Z.of_nat k + 1) by lia. reflexivity.
    + apply of_nd_ok. auto.
    + rewrite val_of_nd by auto. cbn [ndswt_approx]. rewrite <- Hval.
      replace (s + Z.of_nat (S k)) with (s + Z.of_nat k + 1) by lia. reflexivity.
    + replace (S k + n)%nat with (k + S n)%nat by lia. auto.
    + replace (S k + n)%nat with (k + S n)%nat by lia. auto.
    + intros _. rewrite val_of_nd by auto. reflexivity.
Qed.

Theorem swt_axis_spec junk (data : sarr C) w level s axis trim :
  let N := nthz axis (sshape data) in
  sarr_ok C data -> (axis < length (sshape data))%nat -> wf_bank w -> 1 <= N -> 0 <= s -> 1 <= level ->
  (2 ^ (s + level) | N) -> swt_resources fuel N (dec_len w) (s + level) -> prodZ (sshape data) < max_alloc ->
  swt_axis fuel junk data w level s axis trim
  = Ok (ndswt_out trim axis (dec_lo w) (dec_hi w) s (Z.to_nat level) (val C data)).
Proof.
  intros N Hok Hax Hw HN Hs HL Hd Hr Hp. unfold swt_axis.
  destruct (Nat.leb_spec (length (sshape data)) axis); [lia|]. fold N.
  assert (Heven : N mod 2 = 0).
  { apply Z.mod_divide; [lia|]. apply Z.divide_trans with (2 ^ (s + level)); auto.
    change 2 with (2 ^ 1) at 1. apply pow2_div. lia. }
  rewrite Heven. cbn [Z.eqb negb]. replace (N <? 1) with false by lia. replace (level <? 1) with false by lia.
  replace (s <? 0) with false by lia.
  destruct (swt_max_level_spec N HN) as (j & Hj & Hj0 & _). rewrite Hj. cbn [bind].
  assert (s + level <= j) by (apply (swt_max_level_iff N j _ HN Hj); auto; lia).
  replace (j <=? s) with false by lia. replace (j <? s + level) with false by lia.
  assert (HH := swt_axis_loop_spec junk w s axis (val C data) trim (val_wf C data Hok) Hw).
  rewrite nshape_val in HH. specialize (HH Hax HN Hs Hp (Z.to_nat level) 0%nat [] data Hok eq_refl eq_refl).
  cbn [Nat.add app] in HH. rewrite Z2Nat.id in HH by lia. replace (s + Z.of_nat 0) with s in HH by lia.
  rewrite HH; auto; [|lia]. cbn [bind]. f_equal. unfold ndswt_out. destruct trim.
  - rewrite rev_app_distr. cbn [rev app]. f_equal. rewrite map_rev. reflexivity.
  - rewrite map_rev. reflexivity.
Qed.

End AP3.
