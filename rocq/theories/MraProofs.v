(** Proofs about the 1-D multiresolution analysis: the terms add up. *)
From Coq Require Import Ascii String.
From Verif Require Import Base BaseLemmas CConv Spec ExtLemmas Lengths Dwt DwtProofs PR Linear Multilevel MultilevelProofs Swt SwtSpec SwtProofs InvLinear Nd NdSpec Axis Multidim SwtNd Mra.

(** ** Lists with one entry kept *)
Section G.
Variable A : Type.
Variable z : A -> A.
Variable ad : A -> A -> A.
Fixpoint adds (u v : list A) : list A := match u, v with a :: u', b :: v' => ad a b :: adds u' v' | _, _ => [] end.
(** Everything but entry [j] zeroed; everything from entry [k] on zeroed. *)
Fixpoint only (j : nat) (cs : list A) : list A :=
  match cs, j with [], _ => [] | c :: t, O => c :: map z t | c :: t, S j' => z c :: only j' t end.
Fixpoint part (k : nat) (cs : list A) : list A :=
  match k, cs with O, _ => map z cs | S k', c :: t => c :: part k' t | _, [] => [] end.

Lemma part_all k cs : (List.length cs <= k)%nat -> part k cs = cs.
Proof. clear ad. revert k. induction cs as [|c cs IH]; intros [|k] H; cbn in *; auto; try lia. f_equal. apply IH. lia. Qed.

Lemma part_1 cs : part 1 cs = only 0 cs.
Proof. destruct cs; reflexivity. Qed.

Lemma adds_part k : forall cs, Forall (fun a => ad a (z a) = a /\ ad (z a) a = a /\ ad (z a) (z a) = z a) cs ->
  adds (part k cs) (only k cs) = part (S k) cs.
Proof.
  assert (Z : forall t, Forall (fun a => ad a (z a) = a /\ ad (z a) a = a /\ ad (z a) (z a) = z a) t -> adds (map z t) (map z t) = map z t).
  { induction 1 as [|c t (H1 & H2 & H3) Ht IH]; cbn; auto. rewrite H3. f_equal. auto. }
  induction k as [|k IH]; intros cs Hc; destruct Hc as [|c t (H1 & H2 & H3) Ht]; cbn [part only adds map]; auto.
  - rewrite H2, Z by auto. reflexivity.
  - rewrite H1. f_equal. rewrite IH by auto. reflexivity.
Qed.


Lemma setl_only cs c : forall j, nth_error cs j = Some c -> setl j c (map z cs) = only j cs.
Proof.
  induction cs as [|a t IH]; intros [|j] H; cbn in *; try discriminate.
  - injection H as <-. reflexivity.
  - rewrite IH by auto. reflexivity.
Qed.

Lemma setl_back cs c : (forall a, In a cs -> z (z a) = z a) -> forall j, nth_error cs j = Some c -> setl j (z c) (only j cs) = map z cs.
Proof.
  intros Hz j H. revert j H. induction cs as [|a t IH]; intros [|j] H; cbn in *; try discriminate.
  - injection H as <-. reflexivity.
  - rewrite IH by auto. reflexivity.
Qed.

Lemma length_only j cs : List.length (only j cs) = List.length cs.
Proof. revert j. induction cs as [|c t IH]; intros [|j]; cbn; auto. rewrite map_length. auto. Qed.
End G.
Arguments adds {A}. Arguments only {A}. Arguments part {A}.

Section Sum.
Variable C : CRing.
Add Ring Cring_ring_ms : (rth C).
Variables A B : Type.
Variable z : A -> A.
Variable ad : A -> A -> A.
Variable R : list A -> B.
Variable g : B -> C.

(** If [g o R] is additive, the contributions of the single entries add up. *)
Lemma sum_only cs : cs <> [] ->
  Forall (fun a => ad a (z a) = a /\ ad (z a) a = a /\ ad (z a) (z a) = z a) cs ->
  (forall k, (k < List.length cs)%nat -> g (R (adds ad (part z k cs) (only z k cs))) = g (R (part z k cs)) [+] g (R (only z k cs))) ->
  fold_right (fun j s => g (R (only z j cs)) [+] s) r0 (seq 0 (List.length cs)) = g (R cs).
Proof.
  intros Hne Hz Hadd.
  assert (G : forall k, (k < List.length cs)%nat ->
    fold_left (fun s j => s [+] g (R (only z j cs))) (seq 0 (S k)) r0 = g (R (part z (S k) cs))).
  { induction k as [|k IH]; intros Hk.
    - cbn [seq fold_left]. rewrite part_1. ring.
    - rewrite seq_S, fold_left_app, IH by lia. cbn [fold_left Nat.add].
      rewrite <- (adds_part A z ad (S k) cs Hz). rewrite Hadd by lia. reflexivity. }
  transitivity (fold_left (fun s j => s [+] g (R (only z j cs))) (seq 0 (List.length cs)) r0).
  - generalize (seq 0 (List.length cs)) as l. intros l.
    assert (F : forall l s, fold_left (fun s j => s [+] g (R (only z j cs))) l s = s [+] fold_right (fun j s => g (R (only z j cs)) [+] s) r0 l).
    { induction l0 as [|j l0 IH]; intros s; cbn; [ring|]. rewrite IH. ring. }
    rewrite F. ring.
  - destruct cs as [|c cs]; [congruence|]. change (List.length (c :: cs)) with (S (List.length cs)). rewrite G by (apply Nat.lt_succ_diag_r).
    rewrite part_all by apply le_n. reflexivity.
Qed.
End Sum.

Section MP.
Variable C : CRing.
Add Ring Cring_ring_mp : (rth C).
Variable fuel : nat.

Lemma zlen_zeros (c : list C) : zlen (zeros_like c) = zlen c.
Proof. unfold zeros_like, zlen. rewrite repeat_length. reflexivity. Qed.

Lemma zeros_add (c : list C) : vadd c (zeros_like c) = c /\ vadd (zeros_like c) c = c /\
  vadd (zeros_like c) (zeros_like c) = zeros_like c.
Proof.
  repeat split; apply list_ext; rewrite ?zlen_vadd; rewrite ?zlen_zeros; auto; intros i Hi;
    rewrite gz_vadd by (rewrite ?zlen_zeros; auto); unfold zeros_like; rewrite !gz_repeat0; ring.
Qed.

Lemma lens_map_zeros (cs : list (list C)) : lens C (map zeros_like cs) = lens C cs.
Proof. unfold lens. rewrite map_map. apply map_ext. apply zlen_zeros. Qed.

Lemma lens_only j (cs : list (list C)) : lens C (only zeros_like j cs) = lens C cs.
Proof.
  revert j. induction cs as [|c t IH]; intros [|j]; cbn [only lens map]; auto.
  - f_equal. apply (lens_map_zeros t).
  - rewrite zlen_zeros. f_equal. apply IH.
Qed.
Lemma lens_part k (cs : list (list C)) : lens C (part zeros_like k cs) = lens C cs.
Proof.
  revert cs. induction k as [|k IH]; intros [|c t]; cbn [part lens map]; auto.
  - rewrite zlen_zeros. f_equal. apply (lens_map_zeros t).
  - f_equal. apply IH.
Qed.
Lemma vadds_adds (u v : list (list C)) : vadds C u v = adds vadd u v.
Proof. revert v. induction u; intros [|b v]; cbn; f_equal; auto. Qed.

Lemma getE_ok {A} (l : list A) j c : nth_error l j = Some c -> getE l j = Ok c.
Proof. unfold getE. intros ->. reflexivity. Qed.

Lemma trim_firstn (r : list C) N : (if Nat.eqb (List.length r) N then r else firstn N r) = firstn N r.
Proof. destruct (Nat.eqb_spec (List.length r) N) as [<-|]; auto. symmetry. apply firstn_all. Qed.

(** The loop of mra. *)
Theorem mra_loop_spec inverse (R : list (list C) -> list C) N (cs : list (list C)) :
  (forall t, lens C t = lens C cs -> inverse t = Ok (R t)) ->
  mra_loop inverse N cs = Ok (map (fun j => firstn N (R (only zeros_like j cs))) (seq 0 (List.length cs))).
Proof.
  intros HR. unfold mra_loop.
  assert (G : forall n k out, (k + n = List.length cs)%nat ->
    foldM (mra_step inverse N cs) (map zeros_like cs, out) (seq k n) =
    Ok (map zeros_like cs, out ++ map (fun j => firstn N (R (only zeros_like j cs))) (seq k n))).
  { induction n as [|n IH]; intros k out Hk; cbn [seq foldM map]; [rewrite app_nil_r; reflexivity|].
    destruct (nth_error cs k) as [c|] eqn:Ec; [|apply nth_error_None in Ec; lia].
    unfold mra_step at 1. rewrite (getE_ok _ _ _ Ec). cbn [bind].
    rewrite (setl_only _ zeros_like cs c k Ec). rewrite HR by apply lens_only. cbn [bind].
    rewrite trim_firstn. rewrite setl_back; auto.
    - rewrite IH by lia. rewrite <- app_assoc. reflexivity.
    - intros a _. unfold zeros_like. rewrite repeat_length. reflexivity. }
  rewrite G by lia. reflexivity.
Qed.

Definition col (out : list (list C)) (i : Z) : C := fold_right (fun a s => gz a i [+] s) r0 out.

Theorem mra_loop_sum inverse (R : list (list C) -> list C) N (cs : list (list C)) : cs <> [] ->
  (forall t, lens C t = lens C cs -> inverse t = Ok (R t)) ->
  (forall t, lens C t = lens C cs -> (N <= List.length (R t))%nat) ->
  (forall u v, lens C u = lens C cs -> lens C v = lens C cs -> R (vadds C u v) = vadd (R u) (R v) /\ zlen (R u) = zlen (R v)) ->
  exists out, mra_loop inverse N cs = Ok out /\ List.length out = List.length cs /\
    (forall a, In a out -> List.length a = N) /\
    forall i, 0 <= i < Z.of_nat N -> col out i = gz (R cs) i.
Proof.
  intros Hne HR HN Hadd. eexists. split; [apply (mra_loop_spec inverse R); auto|].
  split; [rewrite map_length, seq_length; auto|]. split.
  - intros a Ha. apply in_map_iff in Ha. destruct Ha as (j & <- & Hj). rewrite firstn_length.
    specialize (HN (only zeros_like j cs) (lens_only j cs)). lia.
  - intros i Hi. unfold col.
    transitivity (fold_right (fun j s => gz (R (only zeros_like j cs)) i [+] s) r0 (seq 0 (List.length cs))).
    + generalize (seq 0 (List.length cs)) as l. induction l as [|j l IH]; cbn [map fold_right]; auto.
      rewrite IH. rewrite gz_firstn by auto. reflexivity.
    + apply (sum_only C (list C) (list C) zeros_like vadd R (fun r => gz r i)); auto.
      * apply Forall_forall. intros c _. apply zeros_add.
      * intros k Hk. rewrite <- vadds_adds.
        destruct (Hadd (part zeros_like k cs) (only zeros_like k cs)) as (E & El); [apply lens_part|apply lens_only|].
        rewrite E. apply gz_vadd. auto.
Qed.

(** ** dwt *)
Fixpoint chain_end (w : wavelet C) (m : mode) (n : Z) (ls : list Z) : Z :=
  match ls with [] => n | l :: t => chain_end w m (rec_len m l (dec_len w)) t end.

Lemma chain_snoc w m l ls : forall n, chain C fuel w m n ls ->
  (chain_end w m n ls = l \/ chain_end w m n ls = l + 1) -> 1 <= l -> 1 <= rec_len m l (dec_len w) -> resources fuel l (dec_len w) ->
  chain C fuel w m n (ls ++ [l]) /\ chain_end w m n (ls ++ [l]) = rec_len m l (dec_len w).
Proof.
  induction ls as [|a t IH]; intros n Hc He H1 H2 H3; cbn [app chain chain_end] in *.
  - auto 10.
  - destruct Hc as (A1 & A2 & A3 & A4 & A5). destruct (IH _ A5 He H1 H2 H3) as (B1 & B2). auto 10.
Qed.

Lemma synths_len w m : wf_bank w -> forall ds (a : list C), chain C fuel w m (zlen a) (lens C ds) ->
  zlen (synths C w m a ds) = chain_end w m (zlen a) (lens C ds).
Proof.
  intros Hw. induction ds as [|d ds IH]; intros a Hc; [reflexivity|].
  cbn [lens map chain chain_end synths] in *. destruct Hc as (Hl & H1 & Hr & Hres & Hc).
  assert (E : zlen (synth1 C w m a d) = rec_len m (zlen d) (dec_len w)) by (apply synth1_len; auto; lia).
  rewrite IH; rewrite E; auto.
Qed.

Lemma chain_multi w m n : forall (x : list C), wf_bank w -> 1 <= zlen x -> resources fuel (zlen x) (dec_len w) ->
  chain C fuel w m (zlen (approx m (dec_lo w) n x)) (lens C (map (fun j => analysis m (dec_hi w) (approx m (dec_lo w) j x)) (rev (seq 0 n)))) /\
  chain_end w m (zlen (approx m (dec_lo w) n x)) (lens C (map (fun j => analysis m (dec_hi w) (approx m (dec_lo w) j x)) (rev (seq 0 n))))
    = match n with O => zlen x | _ => zlen x + zlen x mod 2 end.
Proof.
  induction n as [|n IH]; intros x Hw HN Hr; [cbn; auto|].
  pose proof Hw as (H1 & H2 & H3 & H4 & H5).
  set (a := analysis m (dec_lo w) x).
  assert (Hza : zlen a = coeff_len m (zlen x) (dec_len w)) by (apply zlen_analysis; unfold dec_len in *; lia).
  assert (Hzd : zlen (analysis m (dec_hi w) x) = coeff_len m (zlen x) (dec_len w)) by (rewrite zlen_analysis by lia; rewrite H1; reflexivity).
  pose proof (coeff_len_bounds m (zlen x) (dec_len w) HN H5) as Hb.
  pose proof (rec_coeff_len m (zlen x) (dec_len w) HN H5 H4) as Hrc.
  assert (Hr' : resources fuel (zlen a) (dec_len w)) by (rewrite Hza; apply resources_le with (zlen x); auto).
  destruct (IH a Hw ltac:(lia) Hr') as (Hc & He).
  pose proof (multi_analysis_S C m (dec_lo w) (dec_hi w) n x) as HS. unfold multi_analysis in HS. fold a in HS.
  pose proof (f_equal (hd []) HS) as E1. pose proof (f_equal (@tl _) HS) as E2. cbn [hd tl app] in E1, E2.
  rewrite E1, E2. unfold lens. rewrite map_app. cbn [map].
  destruct (chain_snoc w m (zlen (analysis m (dec_hi w) x)) _ _ Hc) as (B1 & B2).
  - rewrite He, Hzd, Hza. destruct n; lia.
  - lia.
  - rewrite Hzd, Hrc. lia.
  - rewrite Hzd, <- Hza. auto.
  - split; [exact B1|]. unfold lens in B2. rewrite B2, Hzd. exact Hrc.
Qed.

Theorem mra_dwt (half sq2 isq2 : C) (x : list C) w m level :
  pr_wavelet w -> 1 <= zlen x -> 0 <= level -> levels_ok m (dec_len w) (Z.to_nat level) (zlen x) ->
  resources fuel (zlen x) (dec_len w) ->
  exists out, mra fuel half sq2 isq2 x w (Some level) TDwt m = Ok out /\ zlen out = level + 1 /\
    (forall a, In a out -> zlen a = zlen x) /\ forall i, 0 <= i < zlen x -> col out i = gz x i.
Proof.
  intros Hpr HN HL Hl Hr. pose proof (pr_wf w Hpr) as Hw. cbn [mra]. rewrite wavedec_spec by auto. cbn [bind].
  set (n := Z.to_nat level) in *. set (cs := multi_analysis m (dec_lo w) (dec_hi w) n x).
  set (R := fun t : list (list C) => match t with [] => [] | a :: ds => synths C w m a ds end).
  destruct (chain_multi w m n x Hw HN Hr) as (Hch & Hend).
  assert (HLc : forall t, lens C t = lens C cs -> exists a ds, t = a :: ds /\ chain C fuel w m (zlen a) (lens C ds) /\
    chain_end w m (zlen a) (lens C ds) = match n with O => zlen x | _ => zlen x + zlen x mod 2 end).
  { intros [|a ds] Ht; [discriminate|]. exists a, ds. split; auto. unfold cs, multi_analysis in Ht. cbn [lens map] in Ht.
    injection Ht as E1 E2. fold (lens C ds) in E2. fold (lens C (map (fun j => analysis m (dec_hi w) (approx m (dec_lo w) j x)) (rev (seq 0 n)))) in E2.
    rewrite E1, E2. auto. }
  assert (HRok : forall t, lens C t = lens C cs ->
     (r <- waverec fuel (map Some t) w m ;; match r with Some r => Ok r | None => Err AttributeError end) = Ok (R t)).
  { intros t Ht. destruct (HLc t Ht) as (a & ds & -> & Hc & _). cbn [map]. rewrite waverec_as_loop.
    rewrite waverec_loop_general by auto. reflexivity. }
  assert (HRl : forall t, lens C t = lens C cs -> zlen (R t) = match n with O => zlen x | _ => zlen x + zlen x mod 2 end).
  { intros t Ht. destruct (HLc t Ht) as (a & ds & -> & Hc & He). unfold R. rewrite synths_len by auto. exact He. }
  destruct (mra_loop_sum (fun t => r <- waverec fuel (map Some t) w m ;; match r with Some r => Ok r | None => Err AttributeError end) R (List.length x) cs)
    as (out & E & Ho & Ha & Hs).
  - discriminate.
  - exact HRok.
  - intros t Ht. specialize (HRl t Ht). unfold zlen in *. destruct n; lia.
  - intros u v Hu Hv. destruct (HLc u Hu) as (a & ds & -> & Hc & He). destruct (HLc v Hv) as (a' & ds' & -> & Hc' & He').
    rewrite <- Hv in Hu. cbn [lens map] in Hu. injection Hu as E1 E2.
    unfold R. cbn [vadds]. apply (synths_additive C fuel); auto.
  - exists out. split; [exact E|]. split.
    + unfold zlen. rewrite Ho. unfold cs, multi_analysis. cbn [List.length]. rewrite map_length, rev_length, seq_length. unfold n. lia.
    + split; [intros a Hi; unfold zlen; rewrite (Ha a Hi); auto|].
      intros i Hi. rewrite Hs by (unfold zlen in *; lia).
      assert (ER : R cs = rec_result m n x).
      { pose proof (HRok cs eq_refl) as E0. unfold cs in E0. rewrite (waverec_multi C fuel w m n x Hpr HN Hl Hr) in E0. cbn [bind] in E0.
        injection E0 as E0. auto. }
      rewrite ER. destruct (rec_result_props C m n x) as (P1 & _).
      { destruct n; [left; auto|right; apply (Hl O); lia]. }
      rewrite <- P1 at 2. rewrite gz_firstn by (unfold zlen in *; lia). reflexivity.
Qed.

(** ** swt *)
Lemma mapM_sarr {A} (l : list A) : mapM (fun it : swt_item A => match it with SArr c => Ok c | SPair _ _ => Err TypeError end) (map SArr l) = Ok l.
Proof. induction l as [|a l IH]; cbn; auto. rewrite IH. reflexivity. Qed.
Lemma mapM_detail_sarr (l : list (list C)) : mapM (item_detail true) (map SArr l) = Ok l.
Proof. induction l as [|a l IH]; cbn; auto. rewrite IH. reflexivity. Qed.

Theorem mra_swt (half sq2 isq2 : C) (x : list C) w level :
  pr_wavelet w -> half [+] half = r1 -> sq2 [*] isq2 = r1 -> 1 <= zlen x -> 1 <= level -> (2 ^ level | zlen x) ->
  swt_resources fuel (zlen x) (dec_len w) level ->
  exists out, mra fuel half sq2 isq2 x w (Some level) TSwt PERIODIZATION = Ok out /\ zlen out = level + 1 /\
    (forall a, In a out -> zlen a = zlen x) /\ forall i, 0 <= i < zlen x -> col out i = gz x i.
Proof.
  intros Hpr Hhalf Hs2 HN HL Hd Hr. pose proof (pr_wf w Hpr) as Hw. cbn [mra mode_eqb negb].
  destruct (iswt_swt C fuel w x level true (Some (sq2, isq2)) half) as (its & E1 & E2); auto. cbn [option_map fst snd] in *.
  rewrite E1. cbn [bind].
  unfold swt in E1. cbn [bind] in E1.
  rewrite swt_single_spec in E1; auto using rescale_wf; try lia; [|rewrite rescale_len; auto]. injection E1 as E1.
  unfold swt_out, swt_trim in E1. cbn [rescale dec_lo dec_hi] in E1.
  set (h0 := map (fun v => v [*] isq2) (dec_lo w)) in *. set (h1 := map (fun v => v [*] isq2) (dec_hi w)) in *.
  set (n := Z.to_nat level) in *.
  set (cs := swt_approx h0 0 n x :: map (fun j => swt_detail h0 h1 0 j x) (rev (seq 1 n))).
  assert (Ec : its = map SArr cs) by (rewrite <- E1; unfold cs; cbn [map]; rewrite map_map; reflexivity).
  clear E1. subst its. rewrite mapM_sarr. cbn [bind].
  set (w' := rescale sq2 w). assert (Hw' : wf_bank w') by (apply rescale_wf; auto).
  set (R := fun t : list (list C) => match t with [] => [] | a :: ds => iswt_levs C half w' a ds end).
  assert (HF : Forall (fun d => zlen d = zlen x) cs).
  { apply Forall_forall. intros d [<-|Hin]; [apply zlen_swt_approx|]. apply in_map_iff in Hin. destruct Hin as (j & <- & _). apply zlen_swt_detail. }
  assert (Hlen : zlen cs = level + 1) by (unfold cs; rewrite zlen_cons, zlen_map; unfold zlen; rewrite rev_length, seq_length; lia).
  assert (HLc : forall t, lens C t = lens C cs -> exists a ds, t = a :: ds /\ zlen a = zlen x /\ zlen ds = level /\ Forall (fun d => zlen d = zlen a) ds).
  { intros [|a ds] Ht; [discriminate|]. exists a, ds. split; auto.
    assert (HF' : Forall (fun d => zlen d = zlen x) (a :: ds)).
    { apply Forall_forall. intros d Hi. assert (Hin : In (zlen d) (lens C cs)) by (rewrite <- Ht; apply in_map; auto).
      apply in_map_iff in Hin. destruct Hin as (c & <- & Hc). rewrite Forall_forall in HF. auto. }
    inversion HF' as [|? ? Ha Hds]; subst. split; auto. split.
    - apply (f_equal zlen) in Ht. unfold lens in Ht. rewrite !zlen_map in Ht. rewrite zlen_cons in Ht. lia.
    - rewrite Ha. auto. }
  assert (Hres : resources fuel (zlen x) (dec_len w')) by (unfold w'; rewrite rescale_len; apply Hr).
  assert (HRok : forall t, lens C t = lens C cs -> iswt fuel half (map SArr t) w (Some sq2) = Ok (R t)).
  { intros t Ht. destruct (HLc t Ht) as (a & ds & -> & Ha & Hds & Hf). cbn [map iswt]. fold w'.
    rewrite mapM_detail_sarr. cbn [bind]. apply iswt_loop_general; auto; rewrite Ha; auto. rewrite Hds. auto. }
  destruct (mra_loop_sum (fun t => iswt fuel half (map SArr t) w (Some sq2)) R (List.length x) cs) as (out & E & Ho & Ha & Hs).
  - discriminate.
  - exact HRok.
  - intros t Ht. destruct (HLc t Ht) as (a & ds & -> & Ha & Hds & Hf).
    destruct (iswt_levs_additive C w' half Hw' ds ds a a) as (_ & P & _); auto; try lia; [rewrite Ha, Hds; auto|].
    unfold R. unfold zlen in *. lia.
  - intros u v Hu Hv. destruct (HLc u Hu) as (a & ds & -> & Ha & Hds & Hf). destruct (HLc v Hv) as (a' & ds' & -> & Ha' & Hds' & Hf').
    rewrite <- Hv in Hu. cbn [lens map] in Hu. injection Hu as E1 E3. unfold R. cbn [vadds].
    destruct (iswt_levs_additive C w' half Hw' ds ds' a a') as (P1 & P2 & P3); auto; try lia; [rewrite Ha, Hds; auto|].
    split; auto. lia.
  - exists out. split; [exact E|]. split; [unfold zlen; rewrite Ho; exact Hlen|].
    split; [intros a Hi; unfold zlen; rewrite (Ha a Hi); auto|].
    intros i Hi. rewrite Hs by (unfold zlen in *; lia).
    rewrite HRok in E2 by auto.
    pose proof (f_equal (fun r => match r with Ok v => v | _ => [] end) E2) as E3. cbv beta iota in E3. rewrite E3. reflexivity.
Qed.

(** ** imra *)
Lemma setl_length {A} j (v : A) l : List.length (setl j v l) = List.length l.
Proof. revert j. induction l; intros [|j]; cbn; auto. Qed.
Lemma nth_setl {A} j k (v : A) l : nth_error (setl j v l) k = if (Nat.eqb j k && (j <? List.length l)%nat) then Some v else nth_error l k.
Proof.
  revert j k. induction l as [|a l IH]; intros [|j] [|k]; cbn; auto.
  - rewrite andb_false_r. reflexivity.
  - rewrite IH. reflexivity.
Qed.
Theorem imra_pure (h h' : heap) cs r : imra (C := C) h cs = Ok (h', r) -> exists new, h' = h ++ new.
Proof.
  unfold imra. destruct cs as [|c0 cs]; [discriminate|].
  assert (G : forall l hh acc, foldM (fun '(h, acc) c => h_plus (C := C) h acc c) (hh, acc) l = Ok (h', r) -> exists new, h' = hh ++ new).
  { induction l as [|c l IH]; intros hh acc E; cbn [foldM] in E.
    - injection E as <- _. exists []. rewrite app_nil_r. reflexivity.
    - unfold h_plus at 1 in E. destruct (getE hh acc) as [a| | |]; try discriminate. cbn [bind] in E.
      destruct (getE hh c) as [b| | |]; try discriminate. cbn [bind] in E.
      destruct (shape_eqb (nshape a) (nshape b)); try discriminate. cbn [negb bind] in E.
      apply IH in E. destruct E as (new & ->). exists (ndadd a b :: new). rewrite <- app_assoc. reflexivity. }
  apply G.
Qed.

Lemma shape_eqb_refl s : shape_eqb s s = true.
Proof. unfold shape_eqb. destruct (list_eq_dec Z.eq_dec s s); congruence. Qed.


(** The sum of the arrays [cs] of the heap at an index. *)
Definition hsum (h : heap) (cs : list nat) (idx : list Z) : C :=
  fold_right (fun c s => match nth_error h c with Some a => ndget a idx | None => r0 end [+] s) r0 cs.

Theorem imra_sum (h : heap) cs sh : cs <> [] -> (forall c, In c cs -> exists a, nth_error h c = Some a /\ nshape a = sh) ->
  exists h' r y, imra (C := C) h cs = Ok (h', r) /\ nth_error h' r = Some y /\ nshape y = sh /\ forall idx, Nd.valid sh idx -> ndget y idx = hsum h cs idx.
Proof.
  intros Hne Hcs. unfold imra. destruct cs as [|c0 cs]; [congruence|].
  assert (G : forall l new acc y, nth_error (h ++ new) acc = Some y -> nshape y = sh ->
    (forall c, In c l -> exists a, nth_error h c = Some a /\ nshape a = sh) ->
    exists h' r y', foldM (fun '(h, acc) c => h_plus (C := C) h acc c) (h ++ new, acc) l = Ok (h', r) /\ nth_error h' r = Some y' /\   nshape y' = sh /\ forall idx, Nd.valid sh idx -> ndget y' idx = ndget y idx [+] hsum h l idx).
  { induction l as [|c l IH]; intros new acc y Hy Hsh Hl; cbn [foldM].
    - exists (h ++ new), acc, y. split; [reflexivity|]. split; auto. split; auto. intros. cbn. ring.
    - destruct (Hl c (or_introl eq_refl)) as (a & Ha & Hsa).
      unfold h_plus at 1. rewrite (getE_ok _ _ _ Hy). cbn [bind].
      assert (Ha' : nth_error (h ++ new) c = Some a) by (rewrite nth_error_app1; auto; apply nth_error_Some; congruence).
      rewrite (getE_ok _ _ _ Ha'). cbn [bind]. rewrite Hsh, Hsa, shape_eqb_refl. cbn [negb bind].
      rewrite <- app_assoc.
      destruct (IH (new ++ [ndadd y a]) (List.length (h ++ new)) (ndadd y a)) as (h' & r & y' & E & Hr & Hs & Hv).
      + rewrite app_assoc, nth_error_app2, Nat.sub_diag by lia. reflexivity.
      + cbn. auto.
      + intros; apply Hl; right; auto.
      + exists h', r, y'. split; [exact E|]. split; auto. split; auto. intros idx Hi. rewrite Hv by auto.
        unfold ndadd at 1. rewrite ndget_ndtab by (rewrite Hsh; auto). unfold hsum. cbn [fold_right]. rewrite Ha. ring. }
  destruct (Hcs c0 (or_introl eq_refl)) as (a0 & H0 & Hs0).
  destruct (G cs [] c0 a0) as (h' & r & y & E & Hr & Hs & Hv); auto.
  - rewrite app_nil_r. auto.
  - intros; apply Hcs; right; auto.
  - rewrite app_nil_r in E. exists h', r, y. split; [exact E|]. split; auto. split; auto.
    intros idx Hi. rewrite Hv by auto. unfold hsum at 2. cbn [fold_right]. rewrite H0. reflexivity.
Qed.

(** ** imra2, imran: only the first array changes *)
Lemma h_iadd_other (h h' : heap) x y : h_iadd (C := C) h x y = Ok h' ->
  List.length h' = List.length h /\ forall k, k <> x -> nth_error h' k = nth_error h k.
Proof.
  unfold h_iadd. destruct (getE h x) as [a| | |]; try discriminate. cbn [bind].
  destruct (getE h y) as [b| | |]; try discriminate. cbn [bind].
  destruct (shape_eqb (nshape a) (nshape b)); try discriminate. cbn [negb]. intros E. injection E as <-.
  split; [apply setl_length|]. intros k Hk. rewrite nth_setl. destruct (Nat.eqb_spec x k); [congruence|reflexivity].
Qed.

Lemma foldM_inv {A S} (P : S -> Prop) (f : S -> A -> res S) l : (forall s a s', In a l -> P s -> f s a = Ok s' -> P s') ->
  forall s s', P s -> foldM f s l = Ok s' -> P s'.
Proof.
  induction l as [|a l IH]; intros Hf s s' Hs E; cbn [foldM] in E.
  - injection E as <-. auto.
  - destruct (f s a) as [s1| | |] eqn:E1; try discriminate. cbn [bind] in E.
    apply (IH (fun s a s' Hi => Hf s a s' (or_intror Hi)) s1 s'); auto. apply (Hf s a s1); auto. left; auto.
Qed.

Theorem imra2_others (h h' : heap) c0 ds r : imra2 (C := C) h c0 ds = Ok (h', r) ->
  r = c0 /\ List.length h' = List.length h /\ forall k, k <> c0 -> nth_error h' k = nth_error h k.
Proof.
  unfold imra2. intros E.
  destruct (foldM _ h ds) as [h1| | |] eqn:E1; try discriminate. cbn [bind] in E. injection E as <- <-. split; auto.
  apply (foldM_inv (fun s => List.length s = List.length h /\ forall k, k <> c0 -> nth_error s k = nth_error h k)) in E1; auto.
  intros s d s' _ Hs. apply (foldM_inv (fun s => List.length s = List.length h /\ forall k, k <> c0 -> nth_error s k = nth_error h k)); auto. clear. intros s n s' _ (Hl & Hk) E.
  destruct (getE d n) as [c| | |]; try discriminate. cbn [bind] in E. apply h_iadd_other in E. destruct E as (El & Ek).
  split; [congruence|]. intros k Hne. rewrite Ek; auto.
Qed.

Theorem imran_others (h h' : heap) c0 ds r : imran (C := C) h c0 ds = Ok (h', r) ->
  r = c0 /\ List.length h' = List.length h /\ forall k, k <> c0 -> nth_error h' k = nth_error h k.
Proof.
  unfold imran. intros E.
  match type of E with context [foldM ?f h ds] => destruct (foldM f h ds) as [h1| | |] eqn:E1 end; try discriminate. cbn [bind] in E. injection E as <- <-. split; auto.
  apply (foldM_inv (fun s => List.length s = List.length h /\ forall k, k <> c0 -> nth_error s k = nth_error h k)) in E1; auto.
  intros s d s' _ Hs. apply (foldM_inv (fun s => List.length s = List.length h /\ forall k, k <> c0 -> nth_error s k = nth_error h k)); auto. clear. intros s [k0 c] s' _ (Hl & Hk) E.
  apply h_iadd_other in E. destruct E as (El & Ek).
  split; [congruence|]. intros k Hne. rewrite Ek; auto.
Qed.

(** The value they return. *)
Lemma iadd_sum (h : heap) c0 sh : forall l s, List.length s = List.length h -> (forall k, k <> c0 -> nth_error s k = nth_error h k) ->
  (exists a, nth_error s c0 = Some a /\ nshape a = sh) ->
  (forall c, In c l -> c <> c0 /\ exists a, nth_error h c = Some a /\ nshape a = sh) ->
  exists s' y, foldM (fun h c => h_iadd (C := C) h c0 c) s l = Ok s' /\ nth_error s' c0 = Some y /\ nshape y = sh /\ List.length s' = List.length h /\ (forall k, k <> c0 -> nth_error s' k = nth_error h k) /\ forall idx, Nd.valid sh idx -> ndget y idx = (match nth_error s c0 with Some a => ndget a idx | None => r0 end) [+] hsum h l idx.
Proof.
  induction l as [|c l IH]; intros s Hl Hk (a & Ha & Hs) Hc; cbn [foldM].
  - exists s, a. split; auto. split; auto. split; auto. split; auto. split; auto. intros. rewrite Ha. cbn. ring.
  - destruct (Hc c (or_introl eq_refl)) as (Hne & b & Hb & Hsb).
    assert (E : h_iadd s c0 c = Ok (setl c0 (ndadd a b) s)).
    { unfold h_iadd. rewrite (getE_ok _ _ _ Ha). cbn [bind]. rewrite (getE_ok s c b) by (rewrite Hk; auto). cbn [bind].
      rewrite Hs, Hsb, shape_eqb_refl. reflexivity. }
    rewrite E. cbn [bind].
    assert (Hlt : (c0 < List.length s)%nat) by (apply nth_error_Some; congruence).
    assert (En : nth_error (setl c0 (ndadd a b) s) c0 = Some (ndadd a b)).
    { rewrite nth_setl, Nat.eqb_refl. replace (c0 <? List.length s)%nat with true by (symmetry; apply Nat.ltb_lt; auto). reflexivity. }
    destruct (IH (setl c0 (ndadd a b) s)) as (s' & y & E' & Hy & Hsy & Hl' & Hk' & Hv).
    + rewrite setl_length. auto.
    + intros k Hkk. rewrite nth_setl. destruct (Nat.eqb_spec c0 k); [congruence|]. cbn [andb]. auto.
    + exists (ndadd a b). split; auto.
    + intros; apply Hc; right; auto.
    + exists s', y. split; [exact E'|]. split; auto. split; auto. split; auto. split; auto.
      intros idx Hi. rewrite Hv by auto. rewrite En, Ha. unfold ndadd. rewrite ndget_ndtab by (rewrite Hs; auto).
      unfold hsum. cbn [fold_right]. rewrite Hb. ring.
Qed.

Lemma foldM_concat {A S} (f : S -> A -> res S) ls : forall s, foldM (fun s l => foldM f s l) s ls = foldM f s (List.concat ls).
Proof. induction ls as [|l ls IH]; intros s; cbn; auto. rewrite foldM_app. destruct (foldM f s l); cbn; auto. Qed.

Theorem imran_sum (h : heap) c0 (ds : list (dict nat)) sh : (exists a, nth_error h c0 = Some a /\ nshape a = sh) ->
  (forall d k c, In d ds -> In (k, c) d -> c <> c0 /\ exists a, nth_error h c = Some a /\ nshape a = sh) ->
  exists h' y, imran (C := C) h c0 ds = Ok (h', c0) /\ nth_error h' c0 = Some y /\ nshape y = sh /\ forall idx, Nd.valid sh idx -> ndget y idx = hsum h (c0 :: flat_map (map snd) ds) idx.
Proof.
  intros H0 Hd. unfold imran.
  assert (E : foldM (fun h0 d => foldM (fun h1 '(_, c) => h_iadd (C := C) h1 c0 c) h0 d) h ds
    = foldM (fun h c => h_iadd (C := C) h c0 c) h (flat_map (map snd) ds)).
  { rewrite flat_map_concat_map, <- foldM_concat. clear. revert h. induction ds as [|d ds IH]; intros h; cbn [foldM map]; auto.
    assert (E : foldM (fun h1 '(_, c) => h_iadd (C := C) h1 c0 c) h d = foldM (fun h c => h_iadd (C := C) h c0 c) h (map snd d)).
    { clear. revert h. induction d as [|[k c] d IH]; intros h; cbn [foldM map snd]; auto. destruct (h_iadd h c0 c); cbn [bind]; auto. }
    rewrite E. destruct (foldM _ h (map snd d)); cbn [bind]; auto. }
  rewrite E.
  destruct (iadd_sum h c0 sh (flat_map (map snd) ds) h) as (s' & y & E' & Hy & Hs & _ & _ & Hv); auto.
  - intros c Hc. apply in_flat_map in Hc. destruct Hc as (d & Hdi & Hc). apply in_map_iff in Hc. destruct Hc as ([k c'] & <- & Hi).
    apply (Hd d k c'); auto.
  - rewrite E'. cbn [bind]. exists s', y. repeat (split; auto).
Qed.

Theorem imra2_sum (h : heap) c0 (ds : list (list nat)) sh : (exists a, nth_error h c0 = Some a /\ nshape a = sh) ->
  (forall d, In d ds -> List.length d = 3%nat) ->
  (forall d c, In d ds -> In c d -> c <> c0 /\ exists a, nth_error h c = Some a /\ nshape a = sh) ->
  exists h' y, imra2 (C := C) h c0 ds = Ok (h', c0) /\ nth_error h' c0 = Some y /\ nshape y = sh /\ forall idx, Nd.valid sh idx -> ndget y idx = hsum h (c0 :: List.concat ds) idx.
Proof.
  intros H0 H3 Hd. unfold imra2.
  assert (E : foldM (fun h0 d => foldM (fun h1 n => c <- getE d n ;; h_iadd (C := C) h1 c0 c) h0 (seq 0 3)) h ds
    = foldM (fun h c => h_iadd (C := C) h c0 c) h (List.concat ds)).
  { rewrite <- foldM_concat. clear -H3. revert h. induction ds as [|d ds IH]; intros h; cbn [foldM]; auto.
    pose proof (H3 d (or_introl eq_refl)) as Hl. destruct d as [|p [|q [|t [|u d]]]]; try discriminate.
    cbn [seq foldM getE nth_error bind].
    destruct (h_iadd h c0 p) as [h1| | |]; cbn [bind]; auto. destruct (h_iadd h1 c0 q) as [h2| | |]; cbn [bind]; auto.
    destruct (h_iadd h2 c0 t) as [h3| | |]; cbn [bind]; auto. apply IH. intros; apply H3; right; auto. }
  rewrite E.
  destruct (iadd_sum h c0 sh (List.concat ds) h) as (s' & y & E' & Hy & Hs & _ & _ & Hv); auto.
  - intros c Hc. apply in_concat in Hc. destruct Hc as (d & Hdi & Hc). apply (Hd d c); auto.
  - rewrite E'. cbn [bind]. exists s', y. repeat (split; auto).
Qed.

End MP.
