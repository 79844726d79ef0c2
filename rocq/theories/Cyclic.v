(** In periodization mode dwt is also inverted from the other side: the
    coefficients of a reconstructed signal are those it was made from. The
    circular convolutions of a given length form a commutative ring, over which
    analysis and synthesis are 2x2 matrices. *)
From Coq Require Import Peano_dec.
From Verif Require Import Base BaseLemmas CConv Spec ExtLemmas Lengths Dwt DwtProofs PR Linear.

(** ** The ring of circular convolutions *)
Section Ring.
Variable C : CRing.
Add Ring Cring_ring_cyc : (rth C).
Variable n : nat.
Hypothesis Hn : (0 < n)%nat.
Local Notation N := (Z.of_nat n).

Definition cyc : Type := {l : list C | length l = n}.
Definition cv (a : cyc) : list C := proj1_sig a.
Lemma cyc_len f : length (tab N f : list C) = n.
Proof. clear Hn. unfold tab. rewrite map_length, seq_length. lia. Qed.
Definition cmk (f : Z -> C) : cyc := exist _ (tab N f) (cyc_len f).

Lemma zlen_cv a : zlen (cv a) = N.
Proof. clear Hn. destruct a as [l H]. unfold cv, zlen. cbn. lia. Qed.
Lemma cv_inj a b : cv a = cv b -> a = b.
Proof. destruct a as [l H], b as [l' H']. unfold cv. cbn. intros ->. f_equal. apply UIP_nat. Qed.
Lemma cyc_ext a b : (forall i, 0 <= i < N -> gz (cv a) i = gz (cv b) i) -> a = b.
Proof. intros H. apply cv_inj, list_ext; rewrite !zlen_cv; auto. Qed.
Lemma gz_cmk f i : 0 <= i < N -> gz (cv (cmk f)) i = f i.
Proof. intros. unfold cv, cmk. cbn [proj1_sig]. apply gz_tab. auto. Qed.

(** Periodic access. *)
Definition pe (a : cyc) (i : Z) : C := gz (cv a) (i mod N).
Lemma pe_in a i : 0 <= i < N -> pe a i = gz (cv a) i.
Proof. intros. unfold pe. rewrite Z.mod_small by lia. reflexivity. Qed.
Lemma pe_mod a i : pe a (i mod N) = pe a i.
Proof. unfold pe. rewrite Z.mod_mod by lia. reflexivity. Qed.
Lemma pe_per a i : pe a (i + N) = pe a i.
Proof. unfold pe. replace (i + N) with (i + 1 * N) by ring. rewrite Z_mod_plus_full. reflexivity. Qed.
Lemma pe_per' a i : pe a (i - N) = pe a i.
Proof. rewrite <- (pe_per a (i - N)). f_equal. ring. Qed.
Lemma pe_cmk f i : (forall j, f (j mod N) = f j) -> pe (cmk f) i = f i.
Proof. intros H. unfold pe. rewrite gz_cmk by (apply Z.mod_pos_bound; lia). apply H. Qed.
Lemma cyc_pe a b : (forall i, pe a i = pe b i) -> a = b.
Proof. intros H. apply cyc_ext. intros i Hi. rewrite <- !pe_in by auto. apply H. Qed.

Definition c0 : cyc := cmk (fun _ => r0).
Definition c1 : cyc := cmk (fun i => if i mod N =? 0 then r1 else r0).
Definition cadd (a b : cyc) : cyc := cmk (fun i => pe a i [+] pe b i).
Definition cmul (a b : cyc) : cyc := cmk (fun k => sumZ 0 N (fun i => pe a i [*] pe b (k - i))).
Definition copp (a : cyc) : cyc := cmk (fun i => [--] pe a i).
Definition csub (a b : cyc) : cyc := cmk (fun i => pe a i [-] pe b i).

Lemma pe_c0 i : pe c0 i = r0.
Proof. apply (pe_cmk (fun _ => r0)). reflexivity. Qed.
Lemma pe_c1 i : pe c1 i = if i mod N =? 0 then r1 else r0.
Proof. apply (pe_cmk (fun i => if i mod N =? 0 then r1 else r0)). intros. rewrite Z.mod_mod by lia. reflexivity. Qed.
Lemma pe_add a b i : pe (cadd a b) i = pe a i [+] pe b i.
Proof. apply (pe_cmk (fun i => pe a i [+] pe b i)). intros. rewrite !pe_mod. reflexivity. Qed.
Lemma pe_sub a b i : pe (csub a b) i = pe a i [-] pe b i.
Proof. apply (pe_cmk (fun i => pe a i [-] pe b i)). intros. rewrite !pe_mod. reflexivity. Qed.
Lemma pe_opp a i : pe (copp a) i = [--] pe a i.
Proof. apply (pe_cmk (fun i => [--] pe a i)). intros. rewrite !pe_mod. reflexivity. Qed.
Lemma pe_mul a b k : pe (cmul a b) k = sumZ 0 N (fun i => pe a i [*] pe b (k - i)).
Proof.
  apply (pe_cmk (fun k => sumZ 0 N (fun i => pe a i [*] pe b (k - i)))). intros j. apply sumZ_ext. intros t Ht. f_equal.
  rewrite <- (pe_mod b (j - t)), <- (pe_mod b (j mod N - t)). rewrite Zminus_mod_idemp_l. reflexivity.
Qed.

Lemma cmul_comm a b : cmul a b = cmul b a.
Proof.
  apply cyc_pe. intros k. rewrite !pe_mul.
  rewrite <- (sumZ_period C (fun i => pe b i [*] pe a (k - i)) N (k - N + 1)) by
    (try lia; intros t; rewrite pe_per; f_equal; replace (k - (t + N)) with (k - t - N) by ring; apply pe_per').
  rewrite sumZ_rev. apply sumZ_ext. intros t Ht.
  replace (0 + N - 1 - t) with (k - (t + (k - N + 1))) by ring.
  replace (k - (k - (t + (k - N + 1)))) with (t + (k - N + 1)) by ring. ring.
Qed.

Lemma cmul_assoc a b c : cmul a (cmul b c) = cmul (cmul a b) c.
Proof.
  apply cyc_pe. intros k. rewrite !pe_mul.
  rewrite (sumZ_ext _ 0 N (fun i => pe (cmul a b) i [*] pe c (k - i))
    (fun m => sumZ 0 N (fun i => pe a i [*] (pe b (m - i) [*] pe c (k - m))))).
  - rewrite sumZ_swap. apply sumZ_ext. intros i Hi. rewrite sumZ_scal. f_equal. rewrite pe_mul.
    rewrite <- (sumZ_period C (fun m => pe b (m - i) [*] pe c (k - m)) N i).
    + apply sumZ_ext. intros j Hj. f_equal; f_equal; ring.
    + lia.
    + intros t. f_equal; [replace (t + N - i) with (t - i + N) by ring; apply pe_per|].
      replace (k - (t + N)) with (k - t - N) by ring. apply pe_per'.
  - intros m Hm. rewrite pe_mul, <- sumZ_scal_r. apply sumZ_ext. intros. ring.
Qed.

Lemma cmul_1_l a : cmul c1 a = a.
Proof.
  apply cyc_pe. intros k. rewrite pe_mul. rewrite (sumZ_single _ 0 N 0) by
    (try lia; intros t Ht H0; rewrite pe_c1, Z.mod_small by lia; replace (t =? 0) with false by lia; ring).
  rewrite pe_c1, Z.mod_0_l by lia. cbn [Z.eqb]. rewrite Z.sub_0_r. ring.
Qed.

Lemma cmul_add_l a b c : cmul (cadd a b) c = cadd (cmul a c) (cmul b c).
Proof.
  apply cyc_pe. intros k. rewrite pe_add, !pe_mul, <- sumZ_add. apply sumZ_ext. intros. rewrite pe_add. ring.
Qed.

Lemma cyc_theory : ring_theory c0 c1 cadd cmul csub copp (@eq cyc).
Proof.
  constructor; intros.
  - apply cyc_pe. intros. rewrite pe_add, pe_c0. ring.
  - apply cyc_pe. intros. rewrite !pe_add. ring.
  - apply cyc_pe. intros. rewrite !pe_add. ring.
  - apply cmul_1_l.
  - apply cmul_comm.
  - apply cmul_assoc.
  - apply cmul_add_l.
  - apply cyc_pe. intros. rewrite pe_sub, pe_add, pe_opp. ring.
  - apply cyc_pe. intros. rewrite pe_add, pe_opp, pe_c0. ring.
Qed.
Definition Cyc : CRing := mkCRing cyc c0 c1 cadd cmul csub copp cyc_theory.
End Ring.

(** ** A left inverse of a 2x2 matrix is a right inverse *)
Section Matrix.
Variable C : CRing.
Add Ring Cring_ring_mat : (rth C).
Lemma matrix_inverse (a b c d e f g h : C) :
  a [*] e [+] b [*] g = r1 -> a [*] f [+] b [*] h = r0 -> c [*] e [+] d [*] g = r0 -> c [*] f [+] d [*] h = r1 ->
  e [*] a [+] f [*] c = r1 /\ e [*] b [+] f [*] d = r0 /\ g [*] a [+] h [*] c = r0 /\ g [*] b [+] h [*] d = r1.
Proof.
  intros H1 H2 H3 H4.
  set (D := e [*] h [-] f [*] g).
  assert (HD : (a [*] d [-] b [*] c) [*] D = r1).
  { transitivity ((a [*] e [+] b [*] g) [*] (c [*] f [+] d [*] h) [-] (a [*] f [+] b [*] h) [*] (c [*] e [+] d [*] g)); [unfold D; ring|].
    rewrite H1, H2, H3, H4. ring. }
  assert (Hd : D [*] d = e).
  { transitivity (e [*] (c [*] f [+] d [*] h) [-] f [*] (c [*] e [+] d [*] g)); [unfold D; ring|]. rewrite H3, H4. ring. }
  assert (Hb : [--] (D [*] b) = f).
  { transitivity (f [*] (a [*] e [+] b [*] g) [-] e [*] (a [*] f [+] b [*] h)); [unfold D; ring|]. rewrite H1, H2. ring. }
  assert (Hc : [--] (D [*] c) = g).
  { transitivity (g [*] (c [*] f [+] d [*] h) [-] h [*] (c [*] e [+] d [*] g)); [unfold D; ring|]. rewrite H3, H4. ring. }
  assert (Ha : D [*] a = h).
  { transitivity (h [*] (a [*] e [+] b [*] g) [-] g [*] (a [*] f [+] b [*] h)); [unfold D; ring|]. rewrite H1, H2. ring. }
  clearbody D. rewrite <- Hd, <- Hb, <- Hc, <- Ha. repeat split.
  - rewrite <- HD. ring.
  - ring.
  - ring.
  - rewrite <- HD. ring.
Qed.
End Matrix.

(** ** Analysis and synthesis as matrices *)
Section Both.
Variable C : CRing.
Add Ring Cring_ring_both : (rth C).
Variable n : nat.
Hypothesis Hn : (0 < n)%nat.
Local Notation N := (Z.of_nat n).
Local Notation V := (Cyc C n Hn).
Local Notation P := (pe C n).

(** The filter wrapped to 2n samples, tap [off] at 0. *)
Definition wrap (off : Z) (h : list C) (t : Z) : C :=
  sumZ 0 (zlen h) (fun j => if (j - off - t) mod (2 * N) =? 0 then gz h j else r0).
Lemma wrap_mod off h t q : wrap off h (t + q * (2 * N)) = wrap off h t.
Proof.
  unfold wrap. apply sumZ_ext. intros j Hj.
  replace (j - off - (t + q * (2 * N))) with (j - off - t + (- q) * (2 * N)) by ring.
  rewrite Z_mod_plus_full. reflexivity.
Qed.

Definition amat (h : list C) (p : Z) : V := cmk C n (fun k => wrap (zlen h / 2) h (2 * k - p)).
Definition smat (g : list C) (p : Z) : V := cmk C n (fun k => wrap (zlen g / 2 - 1) g (2 * k + p)).
(** The samples of parity [p]. *)
Definition part (p : Z) (x : list C) : V := cmk C n (fun k => gz x ((2 * k + p) mod (2 * N))).
(** A coefficient array. *)
Definition whole (c : list C) : V := cmk C n (fun k => gz c (k mod N)).

Lemma mod_2 k q : 2 * (k mod N) + q = 2 * k + q + (- (k / N)) * (2 * N).
Proof. pose proof (Z.div_mod k N ltac:(lia)). lia. Qed.

Lemma P_amat h p k : P (amat h p) k = wrap (zlen h / 2) h (2 * k - p).
Proof.
  apply (pe_cmk C n Hn (fun k => wrap (zlen h / 2) h (2 * k - p))). intros j.
  change (2 * (j mod N) - p) with (2 * (j mod N) + - p). rewrite mod_2. apply wrap_mod.
Qed.
Lemma P_smat g p k : P (smat g p) k = wrap (zlen g / 2 - 1) g (2 * k + p).
Proof. apply (pe_cmk C n Hn (fun k => wrap (zlen g / 2 - 1) g (2 * k + p))). intros j. rewrite mod_2. apply wrap_mod. Qed.
Lemma P_part p x k : P (part p x) k = gz x ((2 * k + p) mod (2 * N)).
Proof. apply (pe_cmk C n Hn (fun k => gz x ((2 * k + p) mod (2 * N)))). intros j. rewrite mod_2, Z_mod_plus_full. reflexivity. Qed.
Lemma P_whole c k : P (whole c) k = gz c (k mod N).
Proof. apply (pe_cmk C n Hn (fun k => gz c (k mod N))). intros j. rewrite Z.mod_mod by lia. reflexivity. Qed.

Lemma whole_inj c d : zlen c = N -> zlen d = N -> whole c = whole d -> c = d.
Proof.
  intros Hc Hd H. apply list_ext; [lia|]. intros i Hi.
  assert (E : P (whole c) i = P (whole d) i) by (rewrite H; reflexivity).
  rewrite !P_whole, !Z.mod_small in E by lia. exact E.
Qed.

Lemma wrap_anal h x k : zlen x = 2 * N ->
  conv h (ext PERIODIZATION x) (2 * k + zlen h / 2)
  = sumZ 0 (2 * N) (fun m => gz x m [*] wrap (zlen h / 2) h (2 * k - m)).
Proof.
  intros Hx. unfold conv.
  rewrite (sumZ_ext _ 0 (2 * N) _ (fun m => sumZ 0 (zlen h)
     (fun j => if m =? (2 * k + zlen h / 2 - j) mod (2 * N) then gz h j [*] gz x m else r0))).
  - rewrite sumZ_swap. apply sumZ_ext. intros j Hj. rewrite ext_per_even by lia. rewrite Hx.
    pose proof (Z.mod_pos_bound (2 * k + zlen h / 2 - j) (2 * N) ltac:(lia)).
    rewrite (sumZ_single _ 0 (2 * N) ((2 * k + zlen h / 2 - j) mod (2 * N))); [rewrite Z.eqb_refl; reflexivity|auto|].
    intros t Ht Ht'. replace (_ =? _) with false by (symmetry; apply Z.eqb_neq; auto). reflexivity.
  - intros m Hm. unfold wrap. rewrite <- sumZ_scal. apply sumZ_ext. intros j Hj.
    assert (Hiff : (j - zlen h / 2 - (2 * k - m)) mod (2 * N) = 0 <-> m = (2 * k + zlen h / 2 - j) mod (2 * N)).
    { set (u := 2 * k + zlen h / 2 - j). replace (j - zlen h / 2 - (2 * k - m)) with (m - u) by (unfold u; ring).
      clearbody u. split; intros E.
      - apply Z.mod_divide in E; [|lia]. destruct E as [q E]. replace u with (m + (- q) * (2 * N)) by lia.
        rewrite Z_mod_plus_full, Z.mod_small by lia. reflexivity.
      - rewrite E. rewrite Zminus_mod_idemp_l, Z.sub_diag. apply Z.mod_0_l. lia. }
    destruct (Z.eqb_spec ((j - zlen h / 2 - (2 * k - m)) mod (2 * N)) 0) as [E|E];
      destruct (Z.eqb_spec m ((2 * k + zlen h / 2 - j) mod (2 * N))) as [E'|E']; try (exfalso; tauto); ring.
Qed.

Lemma anal_matrix h x : zlen x = 2 * N ->
  whole (analysis PERIODIZATION h x) = amat h 0 [*] part 0 x [+] amat h 1 [*] part 1 x.
Proof.
  intros Hx. apply (cyc_pe C n Hn). intros k. cbn [radd rmul Cyc].
  rewrite pe_add by auto. rewrite (cmul_comm C n Hn (amat h 0)), (cmul_comm C n Hn (amat h 1)). rewrite !pe_mul by auto. rewrite P_whole.
  assert (Hl : zlen (analysis PERIODIZATION h x) = N) by (unfold analysis; cbn [coeff_len]; rewrite zlen_tab by lia; lia).
  rewrite <- Hl. rewrite gz_analysis_per by lia. rewrite Hl, wrap_anal by auto. rewrite sumZ_even_odd by lia.
  f_equal; apply sumZ_ext; intros i Hi; rewrite P_part, P_amat, Z.mod_small by lia; f_equal; f_equal; lia.
Qed.

Lemma wrap_synth g c t : zlen c = N ->
  up_conv g (fun k => gz c (k mod zlen c)) (t + zlen g / 2 - 1)
  = sumZ 0 N (fun i => gz c i [*] wrap (zlen g / 2 - 1) g (t - 2 * i)).
Proof.
  intros Hc. unfold up_conv. rewrite Hc.
  rewrite (sumZ_ext _ 0 N _ (fun i => sumZ 0 (zlen g)
     (fun m => if (m - (zlen g / 2 - 1) - (t - 2 * i)) mod (2 * N) =? 0 then gz g m [*] gz c i else r0))).
  - rewrite sumZ_swap. apply sumZ_ext. intros m Hm. set (u := t + zlen g / 2 - 1 - m).
    rewrite (sumZ_ext _ 0 N _ (fun i => if (2 * i - u) mod (2 * N) =? 0 then gz g m [*] gz c i else r0)) by
      (intros i Hi; replace (m - (zlen g / 2 - 1) - (t - 2 * i)) with (2 * i - u) by (unfold u; ring); reflexivity).
    clearbody u. destruct (Z.eqb_spec (u mod 2) 0) as [E|E].
    + assert (Eu : u = 2 * (u / 2)) by lia. pose proof (Z.mod_pos_bound (u / 2) N ltac:(lia)) as Hb.
      assert (Hiff : forall i, 0 <= i < N -> ((2 * i - u) mod (2 * N) = 0 <-> i = (u / 2) mod N)).
      { intros i Hi. rewrite Eu at 1. replace (2 * i - 2 * (u / 2)) with (2 * (i - u / 2)) by ring.
        rewrite Z.mul_mod_distr_l by lia. split; intros E'.
        - assert (E2 : (i - u / 2) mod N = 0) by lia. apply Z.mod_divide in E2; [|lia]. destruct E2 as [q E2].
          replace (u / 2) with (i + (- q) * N) by lia. rewrite Z_mod_plus_full, Z.mod_small by lia. reflexivity.
        - rewrite E'. rewrite Zminus_mod_idemp_l, Z.sub_diag. rewrite Z.mod_0_l by lia. reflexivity. }
      rewrite (sumZ_single _ 0 N ((u / 2) mod N)); auto.
      * destruct (Z.eqb_spec ((2 * ((u / 2) mod N) - u) mod (2 * N)) 0) as [E'|E']; [reflexivity|].
        exfalso. apply E'. apply Hiff; auto.
      * intros i Hi Hi'. destruct (Z.eqb_spec ((2 * i - u) mod (2 * N)) 0) as [E'|E']; [|reflexivity].
        exfalso. apply Hi'. apply Hiff; auto.
    + symmetry. apply sumZ_zero. intros i Hi.
      destruct (Z.eqb_spec ((2 * i - u) mod (2 * N)) 0) as [E'|E']; [|reflexivity].
      exfalso. apply Z.mod_divide in E'; [|lia]. destruct E' as [q E']. apply E.
      replace u with ((i - q * N) * 2) by lia. apply Z_mod_mult.
  - intros i Hi. unfold wrap. rewrite <- sumZ_scal. apply sumZ_ext. intros m Hm.
    destruct (_ =? 0); ring.
Qed.

Lemma synth_matrix p g0 g1 c d : 0 <= p < 2 -> zlen c = N -> zlen d = N ->
  part p (vadd (synthesis PERIODIZATION g0 c) (synthesis PERIODIZATION g1 d))
  = smat g0 p [*] whole c [+] smat g1 p [*] whole d.
Proof.
  intros Hp Hc Hd. apply (cyc_ext C n). intros k Hk. rewrite <- !(pe_in C n) by auto. cbn [radd rmul Cyc].
  rewrite pe_add by auto. rewrite (cmul_comm C n Hn (smat g0 p)), (cmul_comm C n Hn (smat g1 p)). rewrite !pe_mul by auto. rewrite P_part.
  rewrite Z.mod_small by lia. rewrite gz_vadd by (cbn [synthesis]; rewrite !zlen_tab by lia; lia).
  cbn [synthesis]. rewrite !gz_tab by lia. rewrite !wrap_synth by auto.
  f_equal; apply sumZ_ext; intros i Hi; rewrite P_whole, P_smat, Z.mod_small by lia; f_equal; f_equal; lia.
Qed.

Lemma part_tab p (f : Z -> C) : 0 <= p < 2 -> part p (tab (2 * N) f) = cmk C n (fun k => f (2 * k + p)).
Proof.
  intros Hp. apply (cyc_ext C n). intros k Hk. unfold part. rewrite !gz_cmk by auto.
  rewrite Z.mod_small by lia. apply gz_tab. lia.
Qed.

(** The data with given even and odd samples. *)
Definition weave (a b : V) : list C := tab (2 * N) (fun t => if t mod 2 =? 0 then P a (t / 2) else P b (t / 2)).
Lemma part_weave a b : part 0 (weave a b) = a /\ part 1 (weave a b) = b.
Proof.
  unfold weave. split; rewrite part_tab by lia; apply (cyc_ext C n); intros k Hk; rewrite gz_cmk, <- (pe_in C n) by auto.
  - replace ((2 * k + 0) mod 2 =? 0) with true by lia. f_equal. lia.
  - replace ((2 * k + 1) mod 2 =? 0) with false by lia. f_equal. lia.
Qed.
Lemma zlen_weave a b : zlen (weave a b) = 2 * N.
Proof. unfold weave. apply zlen_tab. lia. Qed.

Theorem synthesis_analysis h0 h1 g0 g1 (c d : list C) : pr_bank h0 h1 g0 g1 -> zlen c = N -> zlen d = N ->
  let x := vadd (synthesis PERIODIZATION g0 c) (synthesis PERIODIZATION g1 d) in
  analysis PERIODIZATION h0 x = c /\ analysis PERIODIZATION h1 x = d.
Proof.
  intros Hpr Hc Hd x.
  assert (Hsa : forall y : list C, zlen y = 2 * N -> forall p, 0 <= p < 2 ->
     smat g0 p [*] (amat h0 0 [*] part 0 y [+] amat h0 1 [*] part 1 y)
     [+] smat g1 p [*] (amat h1 0 [*] part 0 y [+] amat h1 1 [*] part 1 y) = part p y).
  { intros y Hy p Hp. rewrite <- !anal_matrix by auto.
    assert (Hl : forall h : list C, zlen (analysis PERIODIZATION h y) = N)
      by (intros; unfold analysis; cbn [coeff_len]; rewrite zlen_tab by lia; lia).
    rewrite <- synth_matrix by auto. rewrite analysis_synthesis by (auto; cbn; lia).
    rewrite Hy. replace (2 * N + (2 * N) mod 2) with (2 * N) by lia. f_equal.
    transitivity (tab (zlen y) (gz y)); [|apply tab_gz]. rewrite Hy. apply tab_ext. intros i Hi.
    rewrite ext_per_even by lia. rewrite Hy, Z.mod_small by lia. reflexivity. }
  Add Ring Cyc_ring : (rth V).
  assert (E : forall p (a b : V), 0 <= p < 2 ->
     smat g0 p [*] (amat h0 0 [*] a [+] amat h0 1 [*] b) [+] smat g1 p [*] (amat h1 0 [*] a [+] amat h1 1 [*] b)
     = if p =? 0 then a else b).
  { intros p a b Hp. destruct (part_weave a b) as (W0 & W1).
    specialize (Hsa (weave a b) (zlen_weave a b) p Hp). rewrite W0, W1 in Hsa. rewrite Hsa.
    destruct (Z.eqb_spec p 0) as [->|]; [exact W0|]. replace p with 1 by lia. exact W1. }
  pose proof (E 0 r1 r0 ltac:(lia)) as E1. pose proof (E 0 r0 r1 ltac:(lia)) as E2.
  pose proof (E 1 r1 r0 ltac:(lia)) as E3. pose proof (E 1 r0 r1 ltac:(lia)) as E4. cbn [Z.eqb] in E1, E2, E3, E4.
  destruct (matrix_inverse V (smat g0 0) (smat g1 0) (smat g0 1) (smat g1 1) (amat h0 0) (amat h0 1) (amat h1 0) (amat h1 1)) as (M1 & M2 & M3 & M4).
  - rewrite <- E1. ring.
  - rewrite <- E2. ring.
  - rewrite <- E3. ring.
  - rewrite <- E4. ring.
  - assert (Hx : zlen x = 2 * N).
    { unfold x. rewrite zlen_vadd; cbn [synthesis]; rewrite !zlen_tab by lia; lia. }
    assert (Hl : forall h : list C, zlen (analysis PERIODIZATION h x) = N)
      by (intros; unfold analysis; cbn [coeff_len]; rewrite zlen_tab by lia; lia).
    assert (X0 : part 0 x = smat g0 0 [*] whole c [+] smat g1 0 [*] whole d) by (apply synth_matrix; auto; lia).
    assert (X1 : part 1 x = smat g0 1 [*] whole c [+] smat g1 1 [*] whole d) by (apply synth_matrix; auto; lia).
    split; apply whole_inj; auto; rewrite anal_matrix by auto; rewrite X0, X1.
    + transitivity ((amat h0 0 [*] smat g0 0 [+] amat h0 1 [*] smat g0 1) [*] whole c [+] (amat h0 0 [*] smat g1 0 [+] amat h0 1 [*] smat g1 1) [*] whole d); [ring|].
      rewrite M1, M2. ring.
    + transitivity ((amat h1 0 [*] smat g0 0 [+] amat h1 1 [*] smat g0 1) [*] whole c [+] (amat h1 0 [*] smat g1 0 [+] amat h1 1 [*] smat g1 1) [*] whole d); [ring|].
      rewrite M3, M4. ring.
Qed.
End Both.
