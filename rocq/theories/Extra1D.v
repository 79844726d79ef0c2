(** Further facts on the 1-D layer: divergence of downcoef, rejection of short
    coefficient arrays, complex data. *)
From Verif Require Import Base BaseLemmas CConv Spec ExtLemmas Instances Lengths Dwt DwtProofs PR Linear Multilevel MultilevelProofs.

(** ** Divergence *)
Lemma while_stuck {S} (P : S -> Prop) (c : S -> bool) (b : S -> res S) :
  (forall s, P s -> c s = true /\ (b s = Fuel \/ exists s', b s = Ok s' /\ P s')) ->
  forall fuel s, P s -> while fuel c b s = Fuel.
Proof.
  intros H fuel. induction fuel as [|n IH]; intros s Hs; [reflexivity|].
  cbn [while]. destruct (H s Hs) as (-> & [->|(s' & -> & Hs')]); [reflexivity|]. cbn [bind]. apply IH, Hs'.
Qed.

Section Div.
Variable C : CRing.

Lemma while_false {S} n (c : S -> bool) b s : c s = false -> while n c b s = Ok s \/ while n c b s = Fuel.
Proof. intros H. destruct n; [right; reflexivity|left]. cbn [while]. rewrite H. reflexivity. Qed.

Lemma seg_none {A} fuel d k0 kmax more upd (js : Z * A) : kmax <= k0 ->
  seg fuel d k0 kmax more upd js = Ok js \/ seg fuel d k0 kmax more upd js = Fuel.
Proof.
  intros H. unfold seg. destruct (while_false fuel (fun '(k, j, s) => (k <? kmax) && more j)
    (fun '(k, j, s) => s' <- upd j k s;; Ok (k + d, j + d, s')) (k0, fst js, snd js)) as [E|E].
  - replace (k0 <? kmax) with false by lia. reflexivity.
  - left. rewrite E. cbn. destruct js; reflexivity.
  - right. rewrite E. reflexivity.
Qed.

Lemma right_ext_stuck fuel m (inp flt : list C) i s : m = REFLECT \/ m = ANTIREFLECT -> zlen inp = 1 -> 1 <= i ->
  right_ext fuel m inp flt i (0, s) = Fuel.
Proof.
  intros Hm Hx Hi. destruct Hm as [-> | ->]; cbn [right_ext]; rewrite Hx.
  - apply (while_stuck (fun '(j, s) => j = 0)); [|reflexivity].
    intros [j s'] ->. split; [lia|].
    destruct (seg_none fuel 1 1 1 (fun j => 1 <=? i - j) (fun j k s => acc flt inp (i - 1 - j) (1 - 1 - k) s) (0, s')) as [E|E];
      [lia| |left; rewrite E; reflexivity].
    rewrite E. cbn [bind].
    destruct (seg_none fuel 1 1 1 (fun j => 1 <=? i - j) (fun j k s => acc flt inp (i - 1 - j) k s) (0, s')) as [E'|E'];
      [lia| |left; rewrite E'; reflexivity].
    right. eexists. split; [exact E'|reflexivity].
  - rewrite rd_ok by lia. cbn [bind fst snd].
    match goal with |- bind ?w _ = _ => assert (E : w = Fuel) end.
    + apply (while_stuck (fun '(j, s, re, tmp) => j = 0)); [|reflexivity].
      intros [[[j s'] re] tmp] ->. split; [lia|].
      match goal with |- context [seg fuel 1 1 1 ?mo ?u ?js] =>
        destruct (seg_none fuel 1 1 1 mo u js) as [E|E]; [lia| |left; rewrite E; reflexivity] end.
      rewrite E. cbn [bind].
      match goal with |- context [seg fuel 1 1 1 ?mo ?u ?js] =>
        destruct (seg_none fuel 1 1 1 mo u js) as [E'|E']; [lia| |left; rewrite E'; reflexivity] end.
      rewrite E'. cbn [bind]. right. eexists. split; reflexivity.
    + rewrite E. reflexivity.
Qed.

Theorem downsampling_diverges fuel m (x h out : list C) :
  m = REFLECT \/ m = ANTIREFLECT -> zlen x = 1 -> 2 <= zlen h ->
  downsampling_convolution fuel x h out 2 m = Fuel.
Proof.
  intros Hm Hx Hh.
  assert (E : downsampling_convolution fuel x h out 2 m =
    (st <- while fuel (fun '(i, o, out) => (i <? zlen h) && (i <? zlen x))
    (fun '(i, o, out) =>
       '(j, s) <- forj fuel 1 (fun j => j <=? i) (fun j s => acc h x j (i - j) s) (0, r0) ;;
       '(j, s) <- left_ext fuel m x h (j, s) ;;
       out <- wr out o s ;; Ok (i + 2, o + 1, out)) (2 - 1, 0, out) ;;
  st <- while fuel (fun '(i, o, out) => i <? zlen x)
    (fun '(i, o, out) =>
       '(j, s) <- forj fuel 1 (fun j => j <? zlen h) (fun j s => acc h x j (i - j) s) (0, r0) ;;
       out <- wr out o s ;; Ok (i + 2, o + 1, out)) st ;;
  st <- while fuel (fun '(i, o, out) => i <? zlen h)
    (fun '(i, o, out) =>
       '(j, s) <- right_ext fuel m x h i (0, r0) ;;
       '(j, s) <- forj fuel 1 (fun j => j <=? i) (fun j s => acc h x j (i - j) s) (j, s) ;;
       '(j, s) <- left_ext fuel m x h (j, s) ;;
       out <- wr out o s ;; Ok (i + 2, o + 1, out)) st ;;
  '(_, _, out) <- while fuel (fun '(i, o, out) => i <? zlen x + zlen h - 1)
    (fun '(i, o, out) =>
       '(j, s) <- right_ext fuel m x h i (0, r0) ;;
       '(j, s) <- forj fuel 1 (fun j => j <? zlen h) (fun j s => acc h x j (i - j) s) (j, s) ;;
       out <- wr out o s ;; Ok (i + 2, o + 1, out)) st ;;
  Ok out)).
  { destruct Hm as [-> | ->]; reflexivity. }
  rewrite E. clear E.
  match goal with |- bind ?w _ = _ => destruct (while_false fuel
     (fun '(i, o, out) => (i <? zlen h) && (i <? zlen x)) (fun '(i, o, out) =>
       '(j, s) <- forj fuel 1 (fun j => j <=? i) (fun j s => acc h x j (i - j) s) (0, r0) ;;
       '(j, s) <- left_ext fuel m x h (j, s) ;;
       out <- wr out o s ;; Ok (i + 2, o + 1, out)) (2 - 1, 0, out)) as [E|E] end; [lia| |rewrite E; reflexivity].
  rewrite E. cbn [bind]. clear E.
  match goal with |- bind ?w _ = _ => destruct (while_false fuel
     (fun '(i, o, out) => i <? zlen x) (fun '(i, o, out) =>
       '(j, s) <- forj fuel 1 (fun j => j <? zlen h) (fun j s => acc h x j (i - j) s) (0, r0) ;;
       out <- wr out o s ;; Ok (i + 2, o + 1, out)) (2 - 1, 0, out)) as [E|E] end; [lia| |rewrite E; reflexivity].
  rewrite E. cbn [bind]. clear E.
  match goal with |- bind ?w _ = _ => assert (E : w = Fuel) end; [|rewrite E; reflexivity].
  destruct fuel as [|n]; [reflexivity|]. remember (S n) as fuel eqn:Ef. rewrite Ef at 1. cbn [while].
  replace (2 - 1 <? zlen h) with true by lia. rewrite right_ext_stuck by (auto; lia). reflexivity.
Qed.

(** downcoef on a single sample never returns, in the two reflection modes. *)
Theorem downcoef_diverges fuel b (x : list C) w m level :
  m = REFLECT \/ m = ANTIREFLECT -> zlen x = 1 -> wf_bank w -> 1 <= level ->
  dec_len w < max_alloc ->
  downcoef fuel b x w m level = Fuel.
Proof.
  intros Hm Hx Hw HL Ha. pose proof Hw as (H1 & H2 & H3 & H4 & H5).
  unfold downcoef. replace (level <? 1) with false by lia.
  destruct (Z.to_nat level) as [|n] eqn:E; [lia|]. cbn [downcoef_loop]. cbv zeta.
  rewrite coeff_len_buffer by lia. pose proof (coeff_len_bounds m (zlen x) (dec_len w) ltac:(lia) H5).
  replace (_ <? 1) with false by lia.
  destruct (np_zeros_ok C (coeff_len m (zlen x) (dec_len w))) as (z & -> & Hz & _); [lia|]. cbn [bind].
  unfold dec_a, dec_d. rewrite coeff_len_buffer, Hz, Z.eqb_refl by lia. unfold dec_len in H5.
  destruct (b || _); rewrite downsampling_diverges by (auto; unfold dec_len in *; lia); reflexivity.
Qed.

(** More generally: whenever an intermediate approximation has one sample. *)
Lemma downcoef_loop_diverges fuel b w m n : forall (x : list C),
  wf_bank w -> 1 <= zlen x -> ~ levels_ok m (dec_len w) n (zlen x) -> resources fuel (zlen x) (dec_len w) ->
  downcoef_loop fuel b x w m n = Fuel.
Proof.
  induction n as [|n IH]; intros x Hw HN Hl Hr.
  - exfalso. apply Hl. intros j Hj. lia.
  - pose proof Hw as (H1 & H2 & H3 & H4 & H5).
    destruct (Z_le_gt_dec (min_len m) (zlen x)) as [Hx|Hx].
    + assert (Hn : (1 <= n)%nat).
      { destruct n; [|lia]. exfalso. apply Hl. intros j Hj. replace j with O by lia. exact Hx. }
      destruct n as [|n']; [lia|]. remember (S n') as n eqn:En.
      cbn [downcoef_loop]. cbv zeta. rewrite coeff_len_buffer by lia.
      pose proof (coeff_len_bounds m (zlen x) (dec_len w) ltac:(lia) H5).
      replace (_ <? 1) with false by lia.
      destruct (np_zeros_ok C (coeff_len m (zlen x) (dec_len w))) as (z & -> & Hz & _); [unfold resources in Hr; lia|].
      cbn [bind]. replace (b || match n with O => false | _ => true end) with true by (subst n; destruct b; reflexivity).
      rewrite dec_a_ok by auto. cbn [as_runtime bind].
      assert (Hza : zlen (analysis m (dec_lo w) x) = coeff_len m (zlen x) (dec_len w)) by (apply zlen_analysis; unfold dec_len in *; lia).
      apply IH; auto; try lia.
      * rewrite Hza. intros Hl'. apply Hl. intros [|j] Hj; [exact Hx|]. rewrite <- approx_len_S. apply Hl'. lia.
      * rewrite Hza. apply resources_le with (zlen x); auto.
    + assert (Hx1 : zlen x = 1) by (destruct m; cbn in Hx; lia).
      assert (Hm : m = REFLECT \/ m = ANTIREFLECT) by (destruct m; cbn in Hx; auto; lia).
      pose proof (downcoef_diverges fuel b x w m (Z.of_nat (S n)) Hm Hx1 Hw ltac:(lia)) as Hd.
      unfold downcoef in Hd. replace (Z.of_nat (S n) <? 1) with false in Hd by lia.
      rewrite Nat2Z.id in Hd. apply Hd. unfold resources in Hr. lia.
Qed.

Theorem downcoef_diverges_level fuel b (x : list C) w m level :
  wf_bank w -> 1 <= zlen x -> 1 <= level -> ~ levels_ok m (dec_len w) (Z.to_nat level) (zlen x) ->
  resources fuel (zlen x) (dec_len w) -> downcoef fuel b x w m level = Fuel.
Proof.
  intros. unfold downcoef. replace (level <? 1) with false by lia. apply downcoef_loop_diverges; auto.
Qed.

(** ** Too short coefficient arrays *)
Theorem idwt_short fuel (cA cD : list C) w m :
  zlen cA = zlen cD -> rec_len m (zlen cA) (rec_flen w) < 1 -> rec_flen w < max_alloc ->
  idwt fuel (Some cA) (Some cD) w m = Err ValueError \/ idwt fuel (Some cA) (Some cD) w m = Err MemoryError.
Proof.
  intros Hl Hs HF. cbn [idwt]. unfold idwt_single. rewrite Hl, Z.eqb_refl. cbn [negb].
  pose proof (zlen_nonneg cD). assert (0 <= rec_flen w) by apply zlen_nonneg.
  unfold idwt_buffer_length. rewrite Hl in Hs. unfold max_alloc in *. unfold two64.
  assert (Hd : m = PERIODIZATION \/ m <> PERIODIZATION) by (destruct m; auto; right; discriminate).
  destruct Hd as [->|Hm].
  - cbn [rec_len] in Hs. left. replace (_ <? 1) with true by lia. reflexivity.
  - assert (Hs' : 2 * zlen cD - rec_flen w + 2 < 1) by (destruct m; cbn [rec_len] in Hs; lia || congruence).
    match goal with |- context [if ?t <? 1 then _ else _] => replace t with ((2 * zlen cD - rec_flen w + 2) mod 18446744073709551616) by (destruct m; reflexivity || congruence) end.
    destruct (Z.eq_dec (2 * zlen cD - rec_flen w + 2) 0) as [E|E].
    + left. rewrite E. reflexivity.
    + right. assert (Em : (2 * zlen cD - rec_flen w + 2) mod 18446744073709551616 = 2 * zlen cD - rec_flen w + 2 + 18446744073709551616) by lia.
      rewrite Em. replace (_ <? 1) with false by lia. unfold np_zeros, max_alloc.
      replace (_ <? 1152921504606846976) with false by lia. reflexivity.
Qed.
End Div.

(** ** Complex data *)
Section Cx.
Variable C : CRing.
Add Ring Cring_ring_cx : (rth C).
Definition cemb (a : C) : Cplx C := (a, r0).
Definition re_l (x : list (Cplx C)) : list C := map fst x.
Definition im_l (x : list (Cplx C)) : list C := map snd x.
(** numpy's [re + 1j*im]. *)
Definition cjoin (re im : list C) : list (Cplx C) := combine re im.
Definition cwave (w : wavelet C) : wavelet (Cplx C) :=
  mkWavelet (map cemb (dec_lo w)) (map cemb (dec_hi w)) (map cemb (rec_lo w)) (map cemb (rec_hi w)).

Lemma gz_re x i : fst (gz x i : Cplx C) = gz (re_l x) i.
Proof. unfold re_l. symmetry. apply (gz_map (C := Cplx C) (D := C) (fun a => fst a)). reflexivity. Qed.
Lemma gz_im x i : snd (gz x i : Cplx C) = gz (im_l x) i.
Proof. unfold im_l. symmetry. apply (gz_map (C := Cplx C) (D := C) (fun a => snd a)). reflexivity. Qed.
Lemma gz_emb (h : list C) i : gz (map cemb h : list (Cplx C)) i = cemb (gz h i).
Proof. apply (gz_map (C := C) (D := Cplx C) cemb). reflexivity. Qed.

Lemma sum_re a b (f : Z -> Cplx C) : fst (sumZ a b f) = sumZ a b (fun t => fst (f t)).
Proof. unfold sumZ. induction (Z.to_nat (b - a)) as [|n IH]; cbn [sumn]; [reflexivity|]. rewrite <- IH. reflexivity. Qed.
Lemma sum_im a b (f : Z -> Cplx C) : snd (sumZ a b f) = sumZ a b (fun t => snd (f t)).
Proof. unfold sumZ. induction (Z.to_nat (b - a)) as [|n IH]; cbn [sumn]; [reflexivity|]. rewrite <- IH. reflexivity. Qed.

Lemma iter_emb p : Pos.iter (radd (r1 : Cplx C)) r0 p = cemb (Pos.iter (radd r1) r0 p).
Proof.
  induction p using Pos.peano_ind; [|rewrite !Pos.iter_succ, IHp]; unfold cemb; cbn;
    unfold cadd; cbn; f_equal; ring.
Qed.
Lemma rz_emb z : (rz z : Cplx C) = cemb (rz z).
Proof.
  destruct z; cbn [rz]; [reflexivity| |]; rewrite iter_emb; [reflexivity|].
  unfold cemb. cbn. unfold copp. cbn. f_equal. ring.
Qed.

Lemma cplx_eq (z : Cplx C) a b : fst z = a -> snd z = b -> z = (a, b).
Proof. intros <- <-. destruct z; reflexivity. Qed.

Lemma fst_add (a b : Cplx C) : fst (a [+] b) = fst a [+] fst b. Proof. reflexivity. Qed.
Lemma snd_add (a b : Cplx C) : snd (a [+] b) = snd a [+] snd b. Proof. reflexivity. Qed.
Lemma fst_sub (a b : Cplx C) : fst (a [-] b) = fst a [-] fst b. Proof. reflexivity. Qed.
Lemma snd_sub (a b : Cplx C) : snd (a [-] b) = snd a [-] snd b. Proof. reflexivity. Qed.
Lemma fst_opp (a : Cplx C) : fst ([--] a) = [--] fst a. Proof. reflexivity. Qed.
Lemma snd_opp (a : Cplx C) : snd ([--] a) = [--] snd a. Proof. reflexivity. Qed.
Lemma fst_emul a (b : Cplx C) : fst ((cemb a : Cplx C) [*] b) = a [*] fst b. Proof. cbn. ring. Qed.
Lemma snd_emul a (b : Cplx C) : snd ((cemb a : Cplx C) [*] b) = a [*] snd b. Proof. cbn. ring. Qed.
Hint Rewrite fst_add snd_add fst_sub snd_sub fst_opp snd_opp fst_emul snd_emul rz_emb gz_re gz_im : cx.

Lemma zlen_re x : zlen (re_l x) = zlen x. Proof. apply zlen_map. Qed.
Lemma zlen_im x : zlen (im_l x) = zlen x. Proof. apply zlen_map. Qed.

Lemma ext_re m (x : list (Cplx C)) n : fst (ext m x n) = ext m (re_l x) n.
Proof.
  destruct m; unfold ext, pext; rewrite ?zlen_re; cbv zeta;
    repeat match goal with |- context [if ?c then _ else _] => destruct c end;
    autorewrite with cx; reflexivity.
Qed.
Lemma ext_im m (x : list (Cplx C)) n : snd (ext m x n) = ext m (im_l x) n.
Proof.
  destruct m; unfold ext, pext; rewrite ?zlen_im; cbv zeta;
    repeat match goal with |- context [if ?c then _ else _] => destruct c end;
    autorewrite with cx; reflexivity.
Qed.

Lemma conv_re (h : list C) (e : Z -> Cplx C) i : fst (conv (map cemb h : list (Cplx C)) e i) = conv h (fun n => fst (e n)) i.
Proof. unfold conv. rewrite sum_re, zlen_map. apply sumZ_ext. intros. rewrite gz_emb, fst_emul. reflexivity. Qed.
Lemma conv_im (h : list C) (e : Z -> Cplx C) i : snd (conv (map cemb h : list (Cplx C)) e i) = conv h (fun n => snd (e n)) i.
Proof. unfold conv. rewrite sum_im, zlen_map. apply sumZ_ext. intros. rewrite gz_emb, snd_emul. reflexivity. Qed.

Lemma conv_fext (h : list C) e e' i : (forall n, e n = e' n) -> conv h e i = conv h e' i.
Proof. intros H. unfold conv. apply sumZ_ext. intros. rewrite H. reflexivity. Qed.

Lemma combine_tab n (f g : Z -> C) : combine (tab n f) (tab n g) = tab n (fun i => (f i, g i)).
Proof. unfold tab. induction (seq 0 (Z.to_nat n)) as [|k l IH]; cbn; [reflexivity|]. f_equal. exact IH. Qed.

Theorem analysis_complex m (h : list C) (x : list (Cplx C)) :
  analysis m (map cemb h : list (Cplx C)) x = cjoin (analysis m h (re_l x)) (analysis m h (im_l x)).
Proof.
  unfold analysis, cjoin. rewrite zlen_re, zlen_im, zlen_map, combine_tab. apply tab_ext. intros k Hk.
  apply cplx_eq.
  - rewrite conv_re. apply conv_fext. intros. apply ext_re.
  - rewrite conv_im. apply conv_fext. intros. apply ext_im.
Qed.

Lemma up_conv_re (g : list C) (c : Z -> Cplx C) n : fst (up_conv (map cemb g : list (Cplx C)) c n) = up_conv g (fun k => fst (c k)) n.
Proof.
  unfold up_conv. rewrite sum_re, zlen_map. apply sumZ_ext. intros t Ht. destruct (_ =? 0); [|reflexivity].
  rewrite gz_emb, fst_emul. reflexivity.
Qed.
Lemma up_conv_im (g : list C) (c : Z -> Cplx C) n : snd (up_conv (map cemb g : list (Cplx C)) c n) = up_conv g (fun k => snd (c k)) n.
Proof.
  unfold up_conv. rewrite sum_im, zlen_map. apply sumZ_ext. intros t Ht. destruct (_ =? 0); [|reflexivity].
  rewrite gz_emb, snd_emul. reflexivity.
Qed.
Lemma up_conv_fext (h : list C) e e' i : (forall n, e n = e' n) -> up_conv h e i = up_conv h e' i.
Proof. intros H. unfold up_conv. apply sumZ_ext. intros. destruct (_ =? 0); rewrite ?H; reflexivity. Qed.

Theorem synthesis_complex m (g : list C) (c : list (Cplx C)) :
  synthesis m (map cemb g : list (Cplx C)) c = cjoin (synthesis m g (re_l c)) (synthesis m g (im_l c)).
Proof.
  destruct m; cbn [synthesis]; unfold cjoin; rewrite zlen_re, zlen_im, zlen_map, combine_tab; apply tab_ext; intros k Hk;
    apply cplx_eq;
    rewrite ?up_conv_re, ?up_conv_im; apply up_conv_fext; intros; rewrite ?gz_re, ?gz_im; reflexivity.
Qed.

Lemma wf_cwave w : wf_bank w -> wf_bank (cwave w).
Proof. unfold wf_bank, dec_len, cwave. cbn. rewrite !zlen_map. auto. Qed.

(** dwt of complex data equals re + i*im of the two real transforms
    (_dwt.py lines 163-166). *)
Theorem dwt_complex fuel (x : list (Cplx C)) (w : wavelet C) m :
  wf_bank w -> min_len m <= zlen x -> resources fuel (zlen x) (dec_len w) ->
  exists rA rD iA iD,
    dwt fuel (re_l x) w m = Ok (rA, rD) /\ dwt fuel (im_l x) w m = Ok (iA, iD) /\
    dwt fuel x (cwave w) m = Ok (cjoin rA iA, cjoin rD iD).
Proof.
  intros Hw Hx Hr. eexists _, _, _, _.
  split; [apply dwt_single_spec; rewrite ?zlen_re; auto|].
  split; [apply dwt_single_spec; rewrite ?zlen_im; auto|].
  unfold dwt. rewrite dwt_single_spec; auto using wf_cwave.
  - cbn [cwave dec_lo dec_hi]. rewrite !analysis_complex. reflexivity.
  - unfold dec_len, cwave. cbn. rewrite zlen_map. auto.
Qed.

Lemma re_vadd (a b : list (Cplx C)) : re_l (vadd a b) = vadd (re_l a) (re_l b).
Proof.
  unfold vadd, re_l. revert b. induction a as [|x a IH]; intros [|y b]; cbn; auto. f_equal. apply IH.
Qed.
Lemma im_vadd (a b : list (Cplx C)) : im_l (vadd a b) = vadd (im_l a) (im_l b).
Proof.
  unfold vadd, im_l. revert b. induction a as [|x a IH]; intros [|y b]; cbn; auto. f_equal. apply IH.
Qed.
Lemma cjoin_vadd (a b c d : list C) : zlen a = zlen b -> zlen c = zlen d -> 
  vadd (cjoin a b) (cjoin c d) = cjoin (vadd a c) (vadd b d).
Proof.
  unfold vadd, cjoin, zlen. revert b c d. induction a as [|x a IH]; intros [|y b] [|z c] [|u d] H1 H2; cbn in *; auto; try lia.
  f_equal. apply IH; lia.
Qed.

Theorem idwt_complex fuel (cA cD : list (Cplx C)) (w : wavelet C) m :
  wf_bank w -> zlen cA = zlen cD -> 1 <= zlen cA -> 1 <= rec_len m (zlen cA) (dec_len w) ->
  resources fuel (zlen cA) (dec_len w) ->
  exists r i,
    idwt fuel (Some (re_l cA)) (Some (re_l cD)) w m = Ok r /\
    idwt fuel (Some (im_l cA)) (Some (im_l cD)) w m = Ok i /\
    idwt fuel (Some cA) (Some cD) (cwave w) m = Ok (cjoin r i).
Proof.
  intros Hw Hl Hn Hrec Hr. pose proof Hw as (H1 & H2 & H3 & H4 & H5). eexists _, _.
  split; [apply idwt_single_spec; rewrite ?zlen_re; auto|].
  split; [apply idwt_single_spec; rewrite ?zlen_im; auto|].
  assert (Hd : dec_len (cwave w) = dec_len w) by (unfold dec_len, cwave; cbn; apply zlen_map).
  cbn [idwt]. rewrite idwt_single_spec; auto using wf_cwave; rewrite ?Hd; auto.
  cbn [cwave rec_lo rec_hi]. rewrite !synthesis_complex. rewrite cjoin_vadd; [reflexivity| |];
    rewrite !zlen_synthesis; rewrite ?zlen_re, ?zlen_im; auto; rewrite ?H2, ?H3, <- ?Hl; lia.
Qed.
End Cx.
