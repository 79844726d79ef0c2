(** Transforms of a signal read backwards. *)
From Verif Require Import Base BaseLemmas CConv Spec ExtLemmas Lengths Dwt DwtProofs PR Linear Multilevel MultilevelProofs Facts1 ReversalSpec.
Open Scope Z_scope.

Section Reversal.
Variable C : CRing.
Add Ring revring : (rth C).
Implicit Types (x y h g c : list C) (w : wavelet C).

Lemma gz_out c i : i < 0 \/ zlen c <= i -> gz c i = r0.
Proof.
  unfold gz, zlen. intros H. destruct (Z.leb_spec 0 i); [|reflexivity]. apply nth_overflow. lia.
Qed.
Lemma gz_rev_all c i : gz (rev c) i = gz c (zlen c - 1 - i).
Proof.
  destruct (Z.lt_ge_cases i 0); [rewrite !gz_out by (rewrite ?zlen_rev; lia); reflexivity|].
  destruct (Z.lt_ge_cases i (zlen c)); [apply gz_rev; lia|]. rewrite !gz_out by (rewrite ?zlen_rev; lia). reflexivity.
Qed.

Lemma mod_split n M q r : 0 <= r < M -> n = M * q + r -> n mod M = r /\ n / M = q.
Proof. intros H E. split; [symmetry; apply (Z.mod_unique_pos n M q r); lia|symmetry; apply (Z.div_unique_pos n M q r); lia]. Qed.

Lemma ext_rev m x n : min_len m <= zlen x -> (m = PERIODIZATION -> zlen x mod 2 = 0) -> ext m (rev x) n = ext m x (zlen x - 1 - n).
Proof.
  intros Hm Hp. assert (HN : 1 <= zlen x) by (destruct m; cbn in Hm; lia).
  destruct m.
  - unfold ext. rewrite zlen_rev, gz_rev_all.
    destruct (Z.leb_spec 0 n), (Z.ltb_spec n (zlen x)), (Z.leb_spec 0 (zlen x - 1 - n)), (Z.ltb_spec (zlen x - 1 - n) (zlen x)); cbn [andb]; try lia; reflexivity.
  - unfold ext. rewrite zlen_rev. set (N := zlen x) in *.
    pose proof (Z.div_mod n (2 * N) ltac:(lia)) as D. pose proof (Z.mod_pos_bound n (2 * N) ltac:(lia)) as B. set (r := n mod (2 * N)) in *. set (q := n / (2 * N)) in *.
    destruct (Z.ltb_spec r N).
    + destruct (mod_split (N - 1 - n) (2 * N) (- q) (N - 1 - r) ltac:(lia) ltac:(lia)) as (-> & _). replace (_ <? N) with true by lia. rewrite gz_rev_all. reflexivity.
    + destruct (mod_split (N - 1 - n) (2 * N) (- q - 1) (3 * N - 1 - r) ltac:(lia) ltac:(lia)) as (-> & _). replace (_ <? N) with false by lia. rewrite gz_rev_all. f_equal. fold N. lia.
  - unfold ext. rewrite zlen_rev. rewrite gz_rev_all. f_equal. lia.
  - unfold ext. rewrite zlen_rev. set (N := zlen x) in *. destruct (Z.ltb_spec N 2).
    + rewrite gz_rev_all. f_equal. fold N. lia.
    + rewrite !gz_rev_all. fold N.
      destruct (Z.ltb_spec n 0), (Z.ltb_spec n N), (Z.ltb_spec (N - 1 - n) 0), (Z.ltb_spec (N - 1 - n) N); try lia.
      * replace (N - 1 - n - (N - 1)) with (- n) by lia. replace (N - 1 - 0) with (N - 1) by lia. replace (N - 1 - 1) with (N - 2) by lia. reflexivity.
      * reflexivity.
      * replace (- (N - 1 - n)) with (n - (N - 1)) by lia. replace (N - 1 - (N - 1)) with 0 by lia. replace (N - 1 - (N - 2)) with 1 by lia. reflexivity.
  - unfold ext. rewrite zlen_rev. set (N := zlen x) in *. rewrite gz_rev_all. fold N. pose proof (Z.div_mod n N ltac:(lia)) as D. pose proof (Z.mod_pos_bound n N ltac:(lia)) as B.
    destruct (mod_split (N - 1 - n) N (- (n / N)) (N - 1 - n mod N) ltac:(lia) ltac:(lia)) as (-> & _). reflexivity.
  - rewrite !ext_per_even by (rewrite ?zlen_rev; auto). rewrite zlen_rev. set (N := zlen x) in *. rewrite gz_rev_all. fold N.
    pose proof (Z.div_mod n N ltac:(lia)) as D. pose proof (Z.mod_pos_bound n N ltac:(lia)) as B.
    destruct (mod_split (N - 1 - n) N (- (n / N)) (N - 1 - n mod N) ltac:(lia) ltac:(lia)) as (-> & _). reflexivity.
  - cbn [min_len] in Hm. unfold ext. rewrite zlen_rev. set (N := zlen x) in *. cbv zeta. set (L := N - 1) in *.
    pose proof (Z.div_mod n (2 * L) ltac:(lia)) as D. pose proof (Z.mod_pos_bound n (2 * L) ltac:(lia)) as B. set (r := n mod (2 * L)) in *. set (q := n / (2 * L)) in *.
    destruct (Z.leb_spec r L).
    + destruct (mod_split (L - n) (2 * L) (- q) (L - r) ltac:(lia) ltac:(lia)) as (-> & _). replace (_ <=? L) with true by lia. rewrite gz_rev_all. f_equal. 
    + destruct (mod_split (L - n) (2 * L) (- q - 1) (3 * L - r) ltac:(lia) ltac:(lia)) as (-> & _). replace (_ <=? L) with false by lia. rewrite gz_rev_all. f_equal. fold N. lia.
  - unfold ext. rewrite zlen_rev. set (N := zlen x) in *.
    pose proof (Z.div_mod n (2 * N) ltac:(lia)) as D. pose proof (Z.mod_pos_bound n (2 * N) ltac:(lia)) as B. set (r := n mod (2 * N)) in *. set (q := n / (2 * N)) in *.
    destruct (Z.ltb_spec r N).
    + destruct (mod_split (N - 1 - n) (2 * N) (- q) (N - 1 - r) ltac:(lia) ltac:(lia)) as (-> & _). replace (_ <? N) with true by lia. rewrite gz_rev_all. reflexivity.
    + destruct (mod_split (N - 1 - n) (2 * N) (- q - 1) (3 * N - 1 - r) ltac:(lia) ltac:(lia)) as (-> & _). replace (_ <? N) with false by lia. rewrite gz_rev_all. do 2 f_equal. fold N. lia.
  - cbn [min_len] in Hm. unfold ext. rewrite zlen_rev. set (N := zlen x) in *. cbv zeta. set (L := N - 1) in *.
    pose proof (Z.div_mod n (2 * L) ltac:(lia)) as D. pose proof (Z.mod_pos_bound n (2 * L) ltac:(lia)) as B. set (r := n mod (2 * L)) in *. set (q := n / (2 * L)) in *.
    rewrite !gz_rev_all. fold N. fold L. replace (L - L) with 0 by lia. rewrite Z.sub_0_r.
    destruct (Z.leb_spec r L).
    + destruct (mod_split (L - n) (2 * L) (- q) (L - r) ltac:(lia) ltac:(lia)) as (-> & ->). replace (L - r <=? L) with true by lia. 
      replace (2 * - q) with (- (2 * q)) by lia. rewrite rz_opp. ring.
    + destruct (mod_split (L - n) (2 * L) (- q - 1) (3 * L - r) ltac:(lia) ltac:(lia)) as (-> & ->). replace (3 * L - r <=? L) with false by lia. 
      replace (L - (2 * L - r)) with (2 * L - (3 * L - r)) by lia. replace (2 * (- q - 1)) with (- (2 * q) - 2) by lia.
      rewrite rz_sub, rz_opp. rewrite rz_2. ring.
Qed.

(** ** One level *)
Lemma conv_rev h (e f : Z -> C) i s : (forall n, e n = f (s - n)) -> conv (rev h) e i = conv h f (s - i + zlen h - 1).
Proof.
  intros H. unfold conv. rewrite zlen_rev. rewrite sumZ_rev. apply sumZ_ext. intros j Hj. rewrite gz_rev_all, H. do 2 f_equal; lia.
Qed.
Lemma analysis_rev m h x : min_len m <= zlen x -> zlen x mod 2 = 0 -> zlen h mod 2 = 0 -> 1 <= zlen h ->
  analysis m (rev h) (rev x) = rev (analysis m h x).
Proof.
  intros Hm Hx Hh H1. assert (HN : 1 <= zlen x) by (destruct m; cbn in Hm; lia).
  apply list_ext; [rewrite zlen_rev, !zlen_analysis by (rewrite ?zlen_rev; lia); rewrite !zlen_rev; reflexivity|].
  intros k. rewrite zlen_analysis by (rewrite ?zlen_rev; lia). rewrite !zlen_rev. intros Hk.
  rewrite gz_rev_all, zlen_analysis by lia. unfold analysis. rewrite !zlen_rev. rewrite !gz_tab by lia.
  rewrite (conv_rev h _ (ext m x) _ (zlen x - 1)) by (intros n; apply ext_rev; auto). f_equal.
  clear -Hk Hx Hh. pose proof (Z.div_mod (zlen h) 2). pose proof (Z.div_mod (zlen x) 2). destruct m; cbn [coeff_len first_pos] in *; lia.
Qed.
Lemma up_conv_rev g (c d : Z -> C) n s : zlen g mod 2 = 0 -> (forall k, c k = d (s - k)) -> up_conv (rev g) c n = up_conv g d (2 * s - n + zlen g - 1).
Proof.
  intros Hg H. unfold up_conv. rewrite zlen_rev, sumZ_rev. apply sumZ_ext. intros j Hj. rewrite gz_rev_all, H.
  replace ((n - (0 + zlen g - 1 - j)) mod 2) with ((2 * s - n + zlen g - 1 - j) mod 2) by lia.
  destruct (Z.eqb_spec ((2 * s - n + zlen g - 1 - j) mod 2) 0); [|reflexivity]. do 2 f_equal; lia.
Qed.
Lemma synthesis_rev m g c : zlen g mod 2 = 0 -> 1 <= zlen c -> 0 <= rec_len m (zlen c) (zlen g) -> synthesis m (rev g) (rev c) = rev (synthesis m g c).
Proof.
  intros Hg Hc HR. apply list_ext; [rewrite zlen_rev, !zlen_synthesis by (rewrite ?zlen_rev; lia); rewrite !zlen_rev; reflexivity|].
  intros n. rewrite zlen_synthesis by (rewrite ?zlen_rev; lia). rewrite !zlen_rev. intros Hn. rewrite gz_rev_all, zlen_synthesis by lia.
  assert (DM : m = PERIODIZATION \/ m <> PERIODIZATION) by (destruct m; auto; right; congruence). destruct DM as [->|Hm].
  - unfold synthesis. rewrite !zlen_rev. cbn [rec_len] in *. rewrite !gz_tab by lia.
    rewrite (up_conv_rev g _ (fun k => gz c (k mod zlen c)) _ (zlen c - 1)); [f_equal; lia|exact Hg|].
    intros k. rewrite gz_rev_all. f_equal. pose proof (Z.div_mod k (zlen c) ltac:(lia)). pose proof (Z.mod_pos_bound k (zlen c) ltac:(lia)).
    destruct (mod_split (zlen c - 1 - k) (zlen c) (- (k / zlen c)) (zlen c - 1 - k mod zlen c) ltac:(lia) ltac:(lia)) as (-> & _). reflexivity.
  - assert (E : forall g' c', synthesis m g' c' = tab (2 * zlen c' - zlen g' + 2) (fun n => up_conv g' (gz c') (n + zlen g' - 2))) by (intros; destruct m; reflexivity || congruence).
    assert (R : rec_len m (zlen c) (zlen g) = 2 * zlen c - zlen g + 2) by (destruct m; reflexivity || congruence). rewrite R in *.
    rewrite !E, !zlen_rev. rewrite !gz_tab by lia. rewrite (up_conv_rev g _ (gz c) _ (zlen c - 1)); [f_equal; lia|exact Hg|]. intros k. apply gz_rev_all.
Qed.
Lemma vadd_rev (a b : list C) : zlen a = zlen b -> vadd (rev a) (rev b) = rev (vadd a b).
Proof.
  intros H. apply list_ext; [rewrite zlen_rev, !zlen_vadd by (rewrite ?zlen_rev; lia); apply zlen_rev|]. intros i Hi.
  rewrite gz_vadd by (rewrite !zlen_rev; lia). rewrite !gz_rev_all, zlen_vadd, gz_vadd by lia. rewrite H. reflexivity.
Qed.
Lemma wf_rev w : wf_bank w -> wf_bank (rev_bank w).
Proof. unfold wf_bank, rev_bank, dec_len. cbn. rewrite !zlen_rev. auto. Qed.
Lemma dec_len_rev w : dec_len (rev_bank w) = dec_len w.
Proof. unfold dec_len, rev_bank. cbn. apply zlen_rev. Qed.

Theorem dwt_rev fuel x w m : wf_bank w -> min_len m <= zlen x -> zlen x mod 2 = 0 -> resources fuel (zlen x) (dec_len w) ->
  exists cA cD, dwt fuel x w m = Ok (cA, cD) /\ dwt fuel (rev x) (rev_bank w) m = Ok (rev cA, rev cD).
Proof.
  intros Hw Hm Hx Hr. pose proof Hw as (H1 & H2 & H3 & H4 & H5). eexists _, _. split; [apply dwt_single_spec; auto|].
  unfold dwt. rewrite dwt_single_spec by (rewrite ?zlen_rev, ?dec_len_rev; auto using wf_rev). unfold rev_bank. cbn [dec_lo dec_hi].
  rewrite !analysis_rev by (unfold dec_len in *; auto; lia). reflexivity.
Qed.
Theorem idwt_rev fuel (cA cD : list C) w m : wf_bank w -> zlen cA = zlen cD -> 1 <= zlen cA -> 1 <= rec_len m (zlen cA) (dec_len w) -> resources fuel (zlen cA) (dec_len w) ->
  exists x, idwt fuel (Some cA) (Some cD) w m = Ok x /\ idwt fuel (Some (rev cA)) (Some (rev cD)) (rev_bank w) m = Ok (rev x).
Proof.
  intros Hw Hl Hc Hn Hr. pose proof Hw as (H1 & H2 & H3 & H4 & H5). eexists. cbn [idwt]. split; [apply idwt_single_spec; auto|].
  rewrite idwt_single_spec by (rewrite ?zlen_rev, ?dec_len_rev; auto using wf_rev). unfold rev_bank. cbn [rec_lo rec_hi].
  rewrite !synthesis_rev by (rewrite ?H2, ?H3, <- ?Hl; auto; lia). f_equal. apply vadd_rev. rewrite !zlen_synthesis; rewrite ?H2, ?H3, <- ?Hl; auto; lia.
Qed.

(** ** Several levels *)
Lemma approx_rev m h n x : 1 <= zlen x -> 2 <= zlen h -> zlen h mod 2 = 0 ->
  (forall j, (j < n)%nat -> min_len m <= approx_len m (zlen h) j (zlen x) /\ approx_len m (zlen h) j (zlen x) mod 2 = 0) ->
  approx m (rev h) n (rev x) = rev (approx m h n x).
Proof.
  intros Hx Hh He. induction n as [|n IH]; intros H; cbn [approx]; [reflexivity|]. rewrite IH by (intros j Hj; apply H; lia).
  destruct (H n ltac:(lia)) as (A & B). apply analysis_rev; rewrite ?zlen_approx by lia; auto; lia.
Qed.
Theorem wavedec_rev fuel x w m level : wf_bank w -> 1 <= zlen x -> 0 <= level -> levels_ok m (dec_len w) (Z.to_nat level) (zlen x) ->
  (forall j, (j < Z.to_nat level)%nat -> approx_len m (dec_len w) j (zlen x) mod 2 = 0) -> resources fuel (zlen x) (dec_len w) ->
  exists cs, wavedec fuel x w m (Some level) = Ok cs /\ wavedec fuel (rev x) (rev_bank w) m (Some level) = Ok (map (@rev C) cs).
Proof.
  intros Hw Hx Hl Hlev He Hr. pose proof Hw as (H1 & H2 & H3 & H4 & H5). eexists. split; [apply wavedec_spec; auto|].
  rewrite wavedec_spec by (rewrite ?zlen_rev, ?dec_len_rev; auto using wf_rev). unfold rev_bank, multi_analysis. cbn [dec_lo dec_hi map]. f_equal. apply (f_equal2 cons).
  - apply approx_rev; auto.
  - rewrite map_map. apply map_ext_in. intros j Hj. apply in_rev, in_seq in Hj.
    assert (G : forall i, (i < j)%nat -> min_len m <= approx_len m (zlen (dec_lo w)) i (zlen x) /\ approx_len m (zlen (dec_lo w)) i (zlen x) mod 2 = 0)
      by (intros i Hi; split; [apply Hlev; lia|apply He; lia]).
    rewrite approx_rev by auto.
    assert (L : zlen (approx m (dec_lo w) j x) = approx_len m (dec_len w) j (zlen x)) by (apply zlen_approx; auto).
    apply analysis_rev; rewrite ?L; [apply Hlev; lia|apply He; lia|unfold dec_len in *; lia|unfold dec_len in *; lia].
Qed.

(** ** Linear phase *)
Lemma analysis_opp m h x : zlen (map ropp h) = zlen h -> analysis m (map ropp h) x = map ropp (analysis m h x).
Proof.
  intros L. unfold analysis. rewrite L. unfold tab. rewrite map_map. apply map_ext. intros k. unfold conv. rewrite L.
  rewrite (sumZ_ext _ _ _ _ (fun j => ([--] r1) [*] (gz h j [*] ext m x (2 * Z.of_nat k + first_pos m (zlen h) - j)))).
  - rewrite sumZ_scal. ring.
  - intros j Hj. assert (E : gz (map ropp h) j = [--] gz h j).
    { unfold gz. destruct (0 <=? j); [|ring]. replace (r0 : C) with ([--] r0 : C) at 1 by ring. apply (map_nth ropp). }
    rewrite E. ring.
Qed.
Lemma approx_rev_lp m h n x : rev h = h -> 1 <= zlen x -> 2 <= zlen h -> zlen h mod 2 = 0 ->
  (forall j, (j < n)%nat -> min_len m <= approx_len m (zlen h) j (zlen x) /\ approx_len m (zlen h) j (zlen x) mod 2 = 0) ->
  approx m h n (rev x) = rev (approx m h n x).
Proof. intros E A B D H. pose proof (approx_rev m h n x A B D H) as G. rewrite E in G. exact G. Qed.
Theorem wavedec_linear_phase fuel x w m level : wf_bank w -> linear_phase w -> 1 <= zlen x -> 0 <= level -> levels_ok m (dec_len w) (Z.to_nat level) (zlen x) ->
  (forall j, (j < Z.to_nat level)%nat -> approx_len m (dec_len w) j (zlen x) mod 2 = 0) -> resources fuel (zlen x) (dec_len w) ->
  exists cA ds, wavedec fuel x w m (Some level) = Ok (cA :: ds) /\ wavedec fuel (rev x) w m (Some level) = Ok (rev cA :: map (fun d => map ropp (rev d)) ds).
Proof.
  intros Hw (P0 & P1) Hx Hl Hlev He Hr. pose proof Hw as (H1 & H2 & H3 & H4 & H5). eexists _, _. split; [apply wavedec_spec; auto|].
  rewrite wavedec_spec by (rewrite ?zlen_rev; auto). unfold multi_analysis. do 2 f_equal.
  - apply approx_rev_lp; auto.
  - rewrite map_map. apply map_ext_in. intros j Hj. apply in_rev, in_seq in Hj.
    assert (G : forall i, (i < j)%nat -> min_len m <= approx_len m (zlen (dec_lo w)) i (zlen x) /\ approx_len m (zlen (dec_lo w)) i (zlen x) mod 2 = 0)
      by (intros i Hi; split; [apply Hlev; lia|apply He; lia]).
    rewrite approx_rev_lp by auto.
    assert (L : zlen (approx m (dec_lo w) j x) = approx_len m (dec_len w) j (zlen x)) by (apply zlen_approx; auto).
    rewrite <- analysis_rev by (rewrite ?L; first [apply Hlev; lia|apply He; lia|unfold dec_len in *; lia]).
    rewrite P1, analysis_opp by (rewrite zlen_map; reflexivity). rewrite map_map. rewrite <- (map_id (analysis _ _ _)) at 1. apply map_ext. intros. ring.
Qed.
End Reversal.
