(** The banks returned by discrete_wavelet, custom_wavelet and
    orthogonal_filter_bank. *)
From Verif Require Import Base BaseLemmas CConv Spec Lengths Dwt DwtProofs PR Swt SwtProofs FilterSpec Filters FiltersProofs.

(** Declared sizes of the tables (wavelets_coeffs.template.h). *)
Definition tables_ok {C} (T : tables C) : Prop :=
  map zlen (t_db T) = tab 38 (fun k => 2 * (k + 1)) /\
  map zlen (t_sym T) = tab 19 (fun k => 2 * (k + 2)) /\
  map zlen (t_coif T) = tab 17 (fun k => 6 * (k + 1)) /\
  map (map zlen) (t_bior T) =
    [[10; 2; 6; 10]; [18; 6; 10; 14; 18]; [20; 4; 8; 12; 16; 20]; [10; 10]; [12; 12]; [18; 18]] /\
  zlen (t_dmey T) = 62.

Definition nthZ {A} (l : list (list A)) (i : Z) : list A := nth (Z.to_nat i) l [].

Lemma rd_nth {A} (l : list A) i d : 0 <= i < zlen l -> rd l i = Ok (nth (Z.to_nat i) l d).
Proof.
  intros H. unfold rd. replace (0 <=? i) with true by lia.
  rewrite (nth_error_nth' l d) by (unfold zlen in H; lia). reflexivity.
Qed.

Lemma map_zlen_tab {A} (l : list (list A)) n f : 0 <= n -> map zlen l = tab n f ->
  zlen l = n /\ forall i, 0 <= i < n -> zlen (nthZ l i) = f i.
Proof.
  intros Hn H. assert (Hl : zlen l = n) by (rewrite <- (zlen_map zlen), H; apply zlen_tab; auto).
  split; [exact Hl|]. intros i Hi. unfold nthZ.
  change (zlen (nth (Z.to_nat i) l [])) with ((fun x => zlen x) (nth (Z.to_nat i) l [])).
  rewrite <- (map_nth zlen). rewrite H. unfold tab.
  rewrite (nth_indep _ _ (f (Z.of_nat 0))).
  - rewrite (map_nth (fun k => f (Z.of_nat k))). rewrite seq_nth by lia. f_equal. lia.
  - rewrite map_length, seq_length. lia.
Qed.

Section FF.
Variable C : CRing.
Add Ring Cring_ring_ff : (rth C).
Variable fuel : nat.

Lemma id_mul_lin (c u : C) : id_mul (c [*] u) = c [*] id_mul u. Proof. reflexivity. Qed.
Lemma map_id_mul (l : list C) : map id_mul l = l. Proof. unfold id_mul. apply map_id. Qed.

Lemma fill_orth_ok (ts : list (list C)) idx F mul psi phi :
  (forall c u : C, mul (c [*] u) = c [*] mul u) -> mul r0 = r0 -> 0 <= idx < zlen ts -> zlen (nthZ ts idx) = F ->
  2 <= F -> F mod 2 = 0 ->
  fill_orth ts idx F mul psi phi =
  Ok (Some (mkDwave (bi_bank (map mul (nthZ ts idx)) (map mul (nthZ ts idx))) true true psi phi)).
Proof.
  intros Hm H0 Hi HF H2 He. unfold fill_orth. replace (zlen ts <=? idx) with false by lia.
  rewrite (rd_nth ts idx []) by lia. cbn [bind]. fold (nthZ ts idx).
  rewrite fill_spec by (assumption || lia). cbn [bind]. rewrite <- HF, window_all. reflexivity.
Qed.

Lemma fill_orth_none (ts : list (list C)) idx F mul psi phi : zlen ts <= idx -> fill_orth ts idx F mul psi phi = Ok None.
Proof. intros H. unfold fill_orth. replace (zlen ts <=? idx) with true by lia. reflexivity. Qed.

Definition uint_range (n : Z) : Prop := 0 <= n < 4294967296.

Theorem db_structure (T : tables C) n : tables_ok T -> uint_range n ->
  discrete_wavelet fuel T DB n =
  if (1 <=? n) && (n <=? 38)
  then let c := nthZ (t_db T) (n - 1) in Ok (Some (mkDwave (bi_bank c c) true true n 0)) else Ok None.
Proof.
  intros (H & _) Hn. apply map_zlen_tab in H; [|lia]. destruct H as (Hl & Hz). unfold uint_range in Hn.
  cbn [discrete_wavelet]. destruct ((1 <=? n) && (n <=? 38)) eqn:E.
  - assert (E1 : uint (n - 1) = n - 1) by (unfold uint; rewrite Z.mod_small; lia).
    assert (E2 : uint (2 * n) = 2 * n) by (unfold uint; rewrite Z.mod_small; lia).
    rewrite E1, E2. rewrite fill_orth_ok; [rewrite map_id_mul; reflexivity|apply id_mul_lin|reflexivity|lia|rewrite Hz by lia; lia|lia|lia].
  - apply fill_orth_none. rewrite Hl. unfold uint. lia.
Qed.

Theorem sym_structure (T : tables C) n : tables_ok T -> uint_range n ->
  discrete_wavelet fuel T SYM n =
  if (2 <=? n) && (n <=? 20)
  then let c := nthZ (t_sym T) (n - 2) in Ok (Some (mkDwave (bi_bank c c) true true n 0)) else Ok None.
Proof.
  intros (_ & H & _) Hn. apply map_zlen_tab in H; [|lia]. destruct H as (Hl & Hz). unfold uint_range in Hn.
  cbn [discrete_wavelet]. destruct ((2 <=? n) && (n <=? 20)) eqn:E.
  - assert (E1 : uint (n - 2) = n - 2) by (unfold uint; rewrite Z.mod_small; lia).
    assert (E2 : uint (2 * n) = 2 * n) by (unfold uint; rewrite Z.mod_small; lia).
    rewrite E1, E2. rewrite fill_orth_ok; [rewrite map_id_mul; reflexivity|apply id_mul_lin|reflexivity|lia|rewrite Hz by lia; lia|lia|lia].
  - apply fill_orth_none. rewrite Hl. unfold uint. lia.
Qed.

Theorem coif_structure (T : tables C) n : tables_ok T -> uint_range n ->
  discrete_wavelet fuel T COIF n =
  if (1 <=? n) && (n <=? 17)
  then let c := map (fun v => v [*] t_sqrt2 T) (nthZ (t_coif T) (n - 1)) in
       Ok (Some (mkDwave (bi_bank c c) true true (2 * n) (2 * n - 1))) else Ok None.
Proof.
  intros (_ & _ & H & _) Hn. apply map_zlen_tab in H; [|lia]. destruct H as (Hl & Hz). unfold uint_range in Hn.
  cbn [discrete_wavelet]. destruct ((1 <=? n) && (n <=? 17)) eqn:E.
  - assert (E1 : uint (n - 1) = n - 1) by (unfold uint; rewrite Z.mod_small; lia).
    assert (E2 : uint (6 * n) = 6 * n) by (unfold uint; rewrite Z.mod_small; lia).
    assert (E3 : uint (2 * n) = 2 * n) by (unfold uint; rewrite Z.mod_small; lia).
    assert (E4 : uint (2 * n - 1) = 2 * n - 1) by (unfold uint; rewrite Z.mod_small; lia).
    rewrite E1, E2, E3, E4. rewrite fill_orth_ok; [reflexivity|intros; ring|ring|lia|rewrite Hz by lia; lia|lia|lia].
  - apply fill_orth_none. rewrite Hl. unfold uint. lia.
Qed.

Theorem haar_structure (T : tables C) n : tables_ok T ->
  discrete_wavelet fuel T HAAR n = discrete_wavelet fuel T DB 1.
Proof.
  intros H. rewrite db_structure by (auto; unfold uint_range; lia). cbn [discrete_wavelet].
  destruct H as (H & _). apply map_zlen_tab in H; [|lia]. destruct H as (Hl & Hz).
  change (uint (1 - 1)) with 0. change (2 * 1) with 2.
  rewrite fill_orth_ok; [|apply id_mul_lin|reflexivity|lia|rewrite Hz by lia; lia|lia|lia].
  rewrite map_id_mul. reflexivity.
Qed.

Theorem dmey_structure (T : tables C) n : tables_ok T ->
  discrete_wavelet fuel T DMEY n =
  let c := t_dmey T in Ok (Some (mkDwave (bi_bank c c) true true (-1) (-1))).
Proof.
  intros (_ & _ & _ & _ & H). cbn [discrete_wavelet].
  rewrite fill_spec; [|apply id_mul_lin|reflexivity|lia|lia|lia|lia|lia]. cbn [bind].
  rewrite <- H, window_all, map_id_mul. reflexivity.
Qed.

Definition bior_synth (T : tables C) (q : Z * Z * Z * Z) : list C :=
  let '(row, _, off, F) := q in window (nthZ (nth (Z.to_nat row) (t_bior T) []) 0) off F.
Definition bior_ana (T : tables C) (q : Z * Z * Z * Z) : list C :=
  let '(row, col, _, _) := q in nthZ (nth (Z.to_nat row) (t_bior T) []) col.

(** The table of the code and the list of the specification agree. *)
Definition bior_entry (n : Z) : option (Z * Z * Z * Z) :=
  match bior_index (n / 10) (n mod 10) with
  | None => None
  | Some (M_idx, M_max) => Some (n / 10 - 1, M_idx + 1, M_max - n mod 10, if n / 10 =? 1 then 2 * (n mod 10) else 2 * (n mod 10) + 2)
  end.
Definition lookup (n : Z) : option (Z * Z * Z * Z) :=
  match find (fun '(k, _) => k =? n) bior_list with Some (_, q) => Some q | None => None end.

Lemma bior_entry_lookup n : 0 <= n -> bior_entry n = lookup n.
Proof.
  intros Hn. destruct (Z_lt_ge_dec n 70) as [H|H].
  - assert (Hc : forallb (fun k => let n := Z.of_nat k in
       match bior_entry n, lookup n with
       | None, None => true
       | Some (a, b, c, d), Some (a', b', c', d') => (a =? a') && (b =? b') && (c =? c') && (d =? d')
       | _, _ => false end) (seq 0 70) = true) by (vm_compute; reflexivity).
    rewrite forallb_forall in Hc. specialize (Hc (Z.to_nat n) ltac:(apply in_seq; lia)). cbv zeta in Hc.
    rewrite Z2Nat.id in Hc by lia.
    destruct (bior_entry n) as [[[[a b] c] d]|], (lookup n) as [[[[a' b'] c'] d']|]; try discriminate; [|reflexivity].
    rewrite !andb_true_iff in Hc. repeat f_equal; lia.
  - assert (E1 : bior_entry n = None).
    { unfold bior_entry, bior_index.
      replace (n / 10 =? 1) with false by lia. replace (n / 10 =? 2) with false by lia.
      replace (n / 10 =? 3) with false by lia. replace (n / 10 =? 4) with false by lia.
      replace (n / 10 =? 5) with false by lia. replace (n / 10 =? 6) with false by lia. reflexivity. }
    rewrite E1. unfold lookup. destruct (find _ bior_list) as [[k q]|] eqn:E; [|reflexivity].
    apply find_some in E. destruct E as (Hin & Hk). exfalso. apply Z.eqb_eq in Hk. subst k. unfold bior_list in Hin.
    cbn [In] in Hin. repeat (destruct Hin as [Hin|Hin]; [injection Hin as; lia|]). contradiction.
Qed.

Lemma bior_shape (T : tables C) n q : tables_ok T -> lookup n = Some q ->
  let '(row, col, off, F) := q in
  0 <= row < zlen (t_bior T) /\ (let r := nth (Z.to_nat row) (t_bior T) [] in
   1 <= col < zlen r /\ off + F <= zlen (nthZ r 0) /\ zlen (nthZ r col) = F) /\ 0 <= off /\ 2 <= F /\ F mod 2 = 0.
Proof.
  intros (_ & _ & _ & H & _) Hq. unfold lookup in Hq. destruct (find _ bior_list) as [[k q']|] eqn:E; [|discriminate].
  injection Hq as ->. apply find_some in E. destruct E as (Hin & _).
  destruct (t_bior T) as [|r1' [|r2 [|r3 [|r4 [|r5 [|r6 [|]]]]]]]; try discriminate H. cbn [map] in H.
  injection H as A1 A2 A3 A4 A5 A6.
  destruct r1' as [|a0 [|a1 [|a2 [|a3 [|]]]]]; try discriminate A1.
  destruct r2 as [|b0 [|b1 [|b2 [|b3 [|b4 [|]]]]]]; try discriminate A2.
  destruct r3 as [|c0 [|c1 [|c2 [|c3 [|c4 [|c5 [|]]]]]]]; try discriminate A3.
  destruct r4 as [|d0 [|d1 [|]]]; try discriminate A4.
  destruct r5 as [|e0 [|e1 [|]]]; try discriminate A5.
  destruct r6 as [|f0 [|f1 [|]]]; try discriminate A6.
  cbn [map] in A1, A2, A3, A4, A5, A6.
  injection A1 as. injection A2 as. injection A3 as. injection A4 as. injection A5 as. injection A6 as.
  unfold bior_list in Hin. cbn [In] in Hin.
  repeat (destruct Hin as [Hin|Hin]; [injection Hin as _ <-; cbv beta iota zeta;
    unfold nthZ; try change (Z.to_nat 0) with 0%nat; try change (Z.to_nat 1) with 1%nat; try change (Z.to_nat 2) with 2%nat;
    try change (Z.to_nat 3) with 3%nat; try change (Z.to_nat 4) with 4%nat; try change (Z.to_nat 5) with 5%nat; cbn [nth];
    unfold zlen in *; cbn [length]; lia|]).
  contradiction.
Qed.

Theorem bior_structure (T : tables C) n : tables_ok T -> uint_range n ->
  discrete_wavelet fuel T BIOR n =
  match lookup n with
  | Some q => Ok (Some (mkDwave (bi_bank (bior_synth T q) (bior_ana T q)) false true (n / 10) (n mod 10)))
  | None => Ok None
  end.
Proof.
  intros H Hn. unfold uint_range in Hn. cbn [discrete_wavelet]. unfold discrete_bior.
  pose proof (bior_entry_lookup n ltac:(lia)) as HE. unfold bior_entry in HE.
  destruct (bior_index (n / 10) (n mod 10)) as [[mi mm]|]; rewrite <- HE; [|reflexivity].
  symmetry in HE. pose proof (bior_shape T n _ H HE) as (S1 & (S2 & S3 & S4) & S5 & S6 & S7).
  set (F := if n / 10 =? 1 then 2 * (n mod 10) else 2 * (n mod 10) + 2) in *. clearbody F.
  rewrite (rd_nth (t_bior T) (n / 10 - 1) []) by lia. cbn [bind].
  rewrite (rd_nth _ 0 []) by lia. cbn [bind]. rewrite (rd_nth _ (mi + 1) []) by lia. cbn [bind].
  rewrite fill_spec; [|apply id_mul_lin|reflexivity|lia|lia|lia|exact S3|exact S4]. cbn [bind].
  rewrite !map_id_mul. reflexivity.
Qed.

Lemma lookup_len (T : tables C) n q : tables_ok T -> lookup n = Some q ->
  zlen (bior_synth T q) = zlen (bior_ana T q) /\ 2 <= zlen (bior_ana T q) <= 20 /\ zlen (bior_ana T q) mod 2 = 0.
Proof.
  intros H Hq. pose proof (bior_shape T n q H Hq) as Hs.
  assert (HF : let '(_, _, _, F) := q in F <= 20).
  { unfold lookup in Hq. destruct (find _ bior_list) as [[k q']|] eqn:E; [|discriminate].
    injection Hq as ->. apply find_some in E. destruct E as (Hin & _).
    unfold bior_list in Hin. cbn [In] in Hin.
    repeat (destruct Hin as [Hin|Hin]; [injection Hin as _ <-; lia|]). contradiction. }
  destruct q as [[[row col] off] F]. destruct Hs as (S1 & (S2 & S3 & S4) & S5 & S6 & S7).
  unfold bior_synth, bior_ana. rewrite S4. unfold window. rewrite zlen_tab by lia. lia.
Qed.

(** rbio is bior with the roles of the filters exchanged and reversed. *)
Theorem rbio_structure (T : tables C) n : tables_ok T -> uint_range n -> 22 < Z.of_nat fuel ->
  discrete_wavelet fuel T RBIO n =
  match discrete_wavelet fuel T BIOR n with
  | Ok (Some w) => let b := w_bank w in
      Ok (Some (mkDwave (mkWavelet (rev (rec_lo b)) (rev (rec_hi b)) (rev (dec_lo b)) (rev (dec_hi b)))
                 (w_orthogonal w) (w_biorthogonal w) (w_psi w) (w_phi w)))
  | r => r
  end.
Proof.
  intros H Hn Hf. pose proof (bior_structure T n H Hn) as HB. rewrite HB. cbn [discrete_wavelet] in *. rewrite HB.
  destruct (lookup n) as [q|] eqn:Hq; [|reflexivity]. cbn [bind w_bank w_orthogonal w_biorthogonal w_psi w_phi].
  destruct (lookup_len T n q H Hq) as (L1 & L2 & L3).
  rewrite reverse_bior_spec; [reflexivity| |].
  - apply bi_wf; lia.
  - unfold dec_len, bi_bank. cbn [dec_lo]. rewrite zlen_rev. lia.
Qed.

(** Which (family, order) pairs are accepted. *)
Definition valid_order (name : family) (n : Z) : bool :=
  match name with
  | HAAR | DMEY => true
  | DB => (1 <=? n) && (n <=? 38)
  | SYM => (2 <=? n) && (n <=? 20)
  | COIF => (1 <=? n) && (n <=? 17)
  | BIOR | RBIO => existsb (Z.eqb n) [11; 13; 15; 22; 24; 26; 28; 31; 33; 35; 37; 39; 44; 55; 68]
  | _ => false
  end.

Lemma lookup_valid n : (if existsb (Z.eqb n) [11; 13; 15; 22; 24; 26; 28; 31; 33; 35; 37; 39; 44; 55; 68] then exists q, lookup n = Some q else lookup n = None).
Proof.
  unfold lookup. destruct (existsb _ _) eqn:E.
  - rewrite existsb_exists in E. destruct E as (k & Hk & E). apply Z.eqb_eq in E. subst k.
    cbn [In] in Hk. repeat (destruct Hk as [<-|Hk]; [vm_compute; eexists; reflexivity|]). contradiction.
  - destruct (find _ bior_list) as [[k q]|] eqn:E'; [|reflexivity]. exfalso.
    apply find_some in E'. destruct E' as (Hin & Hk). apply Z.eqb_eq in Hk. subst k.
    assert (existsb (Z.eqb n) [11; 13; 15; 22; 24; 26; 28; 31; 33; 35; 37; 39; 44; 55; 68] = true); [|congruence].
    apply existsb_exists. exists n. rewrite Z.eqb_refl. split; [|reflexivity].
    apply (in_map fst) in Hin. exact Hin.
Qed.

Theorem discrete_wavelet_accepts (T : tables C) name n : tables_ok T -> uint_range n -> 22 < Z.of_nat fuel ->
  if valid_order name n
  then exists w, discrete_wavelet fuel T name n = Ok (Some w) /\ wf_bank (w_bank w)
  else discrete_wavelet fuel T name n = Ok None.
Proof.
  intros H Hn Hf.
  assert (HB : if valid_order BIOR n
    then exists w, discrete_wavelet fuel T BIOR n = Ok (Some w) /\ wf_bank (w_bank w)
    else discrete_wavelet fuel T BIOR n = Ok None).
  { rewrite bior_structure by auto. cbn [valid_order]. pose proof (lookup_valid n) as HL.
    destruct (existsb _ _); [destruct HL as (q & Hq); rewrite Hq|rewrite HL; reflexivity].
    eexists; split; [reflexivity|]. cbn [w_bank]. destruct (lookup_len T n q H Hq) as (L1 & L2 & L3). apply bi_wf; lia. }
  assert (Hdb : forall n, 1 <= n <= 38 -> wf_bank (bi_bank (nthZ (t_db T) (n - 1)) (nthZ (t_db T) (n - 1)))).
  { intros k Hk. destruct H as (H & _). apply map_zlen_tab in H; [|lia]. destruct H as (Hl & Hz).
    apply bi_wf; rewrite ?Hz by lia; lia. }
  destruct name; try reflexivity.
  - rewrite haar_structure by auto. rewrite db_structure by (auto; unfold uint_range; lia).
    cbn [valid_order]. eexists; split; [reflexivity|]. apply (Hdb 1). lia.
  - rewrite rbio_structure by auto. change (valid_order RBIO n) with (valid_order BIOR n).
    destruct (valid_order BIOR n).
    + destruct HB as (w & E & (W1 & W2 & W3 & W4 & W5)). rewrite E. eexists; split; [reflexivity|].
      cbn [w_bank]. unfold wf_bank, dec_len in *. cbn [rec_lo dec_lo rec_hi dec_hi]. rewrite !zlen_rev. lia.
    + rewrite HB. reflexivity.
  - rewrite db_structure by auto. cbn [valid_order]. destruct ((1 <=? n) && (n <=? 38)) eqn:E; [|reflexivity].
    eexists; split; [reflexivity|]. apply Hdb. lia.
  - rewrite sym_structure by auto. cbn [valid_order]. destruct ((2 <=? n) && (n <=? 20)) eqn:E; [|reflexivity].
    eexists; split; [reflexivity|]. destruct H as (_ & H & _). apply map_zlen_tab in H; [|lia]. destruct H as (Hl & Hz).
    cbn [w_bank]. apply bi_wf; rewrite ?Hz by lia; lia.
  - rewrite coif_structure by auto. cbn [valid_order]. destruct ((1 <=? n) && (n <=? 17)) eqn:E; [|reflexivity].
    eexists; split; [reflexivity|]. destruct H as (_ & _ & H & _). apply map_zlen_tab in H; [|lia]. destruct H as (Hl & Hz).
    cbn [w_bank]. apply bi_wf; rewrite ?zlen_map, ?Hz by lia; lia.
  - exact HB.
  - rewrite dmey_structure by auto. cbn [valid_order]. eexists; split; [reflexivity|].
    destruct H as (_ & _ & _ & _ & H). cbn [w_bank]. apply bi_wf; rewrite ?H; lia.
Qed.

(** * inverse_filter_bank and custom banks *)
Lemma copy_to_spec (src dest : list C) : zlen src <= zlen dest ->
  copy_to src dest = Ok (src ++ skipn (length src) dest).
Proof.
  intros H. unfold copy_to.
  assert (G : forall rest done d, src = done ++ rest -> d = done ++ skipn (length done) dest ->
     foldM (fun '(d, i) x => d <- wr d i x ;; Ok (d, i + 1)) (d, zlen done) rest
     = Ok (src ++ skipn (length src) dest, zlen src)).
  { induction rest as [|x rest IH]; intros done d Hs Hd.
    - rewrite app_nil_r in Hs. subst done. cbn [foldM]. subst d. reflexivity.
    - cbn [foldM]. assert (Hlt : zlen done < zlen dest) by (rewrite Hs, zlen_app, zlen_cons in H; pose proof (zlen_nonneg rest); lia).
      assert (Hd' : zlen d = zlen dest) by (rewrite Hd, zlen_app; unfold zlen in *; rewrite skipn_length; lia).
      rewrite wr_ok by (pose proof (zlen_nonneg done); lia). cbn [bind].
      replace (zlen done + 1) with (zlen (done ++ [x])) by (rewrite zlen_app, zlen_cons, zlen_nil; lia).
      apply IH; [rewrite <- app_assoc; exact Hs|]. rewrite Hd.
      apply list_ext.
      + rewrite zlen_upd, !zlen_app, zlen_cons, zlen_nil. unfold zlen in *. rewrite !skipn_length, app_length. cbn [length]. lia.
      + intros i Hi. rewrite gz_upd by (rewrite <- Hd, Hd'; pose proof (zlen_nonneg done); lia).
        rewrite !gz_app, gz_cons, zlen_app, zlen_cons, zlen_nil.
        destruct (Z.eqb_spec i (zlen done)) as [->|Hne].
        * replace (zlen done <? zlen done + (0 + 1)) with true by lia. replace (zlen done <? zlen done) with false by lia.
          replace (zlen done - zlen done =? 0) with true by lia. reflexivity.
        * destruct (Z.ltb_spec i (zlen done)).
          -- replace (i <? zlen done + (0 + 1)) with true by lia. reflexivity.
          -- replace (i <? zlen done + (0 + 1)) with false by lia.
             rewrite !gz_skipn by lia. f_equal. rewrite app_length. cbn [length]. unfold zlen. lia. }
  change (dest, 0) with (dest, zlen (@nil C)). rewrite (G src [] dest); [reflexivity|reflexivity|reflexivity].
Qed.

Theorem custom_spec (filters : list (list C)) :
  (exists F, 0 < F /\ exists dl dh rl rh, filters = [dl; dh; rl; rh] /\
     zlen dl = F /\ zlen dh = F /\ zlen rl = F /\ zlen rh = F /\
     let pad l := l ++ repeat r0 (Z.to_nat (F mod 2)) in
     custom_wavelet filters = Ok (mkWavelet (pad dl) (pad dh) (pad rl) (pad rh)) /\
     wf_bank (mkWavelet (pad dl) (pad dh) (pad rl) (pad rh)))
  \/ custom_wavelet filters = Err ValueError /\
     ~ (exists F, 0 < F /\ zlen filters = 4 /\ forall f, In f filters -> zlen f = F).
Proof.
  destruct filters as [|dl [|dh [|rl [|rh [|? ?]]]]];
    try (right; split; [reflexivity|]; intros (F & _ & HF & _); unfold zlen in HF; cbn [length] in HF; lia).
  cbn [custom_wavelet].
  destruct ((0 <? zlen dl) && (zlen dl =? zlen dh) && (zlen dh =? zlen rl) && (zlen rl =? zlen rh)) eqn:E.
  2:{ right; split; [reflexivity|]. intros (F & H0 & _ & HF).
      pose proof (HF dl ltac:(cbn; auto)). pose proof (HF dh ltac:(cbn; auto)).
      pose proof (HF rl ltac:(cbn; auto)). pose proof (HF rh ltac:(cbn; auto)). lia. }
  left. exists (zlen dl). split; [lia|]. exists dl, dh, rl, rh. split; [reflexivity|].
  split; [reflexivity|]. split; [lia|]. split; [lia|]. split; [lia|]. cbv zeta.
  set (F := zlen dl) in *.
  assert (HF0 : 0 < F) by lia.
  assert (HL : (if (0 <? F) && negb (F mod 2 =? 0) then F + 1 else F) = F + F mod 2).
  { clear - HF0. clearbody F. destruct ((0 <? F) && negb (F mod 2 =? 0)) eqn:E2; lia. } unfold blank_filters. rewrite HL. cbn [dec_lo dec_hi rec_lo rec_hi].
  assert (Hc : forall l : list C, zlen l = F -> copy_to l (repeat r0 (Z.to_nat (F + F mod 2))) = Ok (l ++ repeat r0 (Z.to_nat (F mod 2)))).
  { intros l Hl. rewrite copy_to_spec by (rewrite zlen_repeat; lia). f_equal. f_equal.
    replace (length l) with (Z.to_nat F) by (unfold zlen in Hl; lia).
    rewrite Z2Nat.inj_add by lia. rewrite repeat_app. rewrite skipn_app, repeat_length.
    rewrite skipn_all2 by (rewrite repeat_length; lia). rewrite Nat.sub_diag. reflexivity. }
  rewrite !Hc by lia. cbn [bind]. split; [reflexivity|].
  unfold wf_bank, dec_len. cbn [dec_lo dec_hi rec_lo rec_hi]. rewrite !zlen_app, !zlen_repeat. lia.
Qed.

Theorem inverse_involutive (w : wavelet C) : forall w', custom_wavelet (inverse_filter_bank w) = Ok w' ->
  wf_bank w -> inverse_filter_bank w' = filter_bank w.
Proof.
  intros w' H (H1 & H2 & H3 & H4 & H5). unfold dec_len in *. destruct (custom_spec (inverse_filter_bank w)) as [(F & HF & dl & dh & rl & rh & E & L1 & L2 & L3 & L4 & E2 & _)|(E & _)]; [|congruence].
  rewrite H in E2. injection E2 as ->. unfold inverse_filter_bank in E. injection E as <- <- <- <-.
  rewrite zlen_rev in L1. rewrite <- L1, H2, H4.
  unfold inverse_filter_bank, filter_bank. cbn [dec_lo dec_hi rec_lo rec_hi]. change (repeat r0 (Z.to_nat 0)) with (@nil C).
  rewrite !app_nil_r, !rev_involutive. reflexivity.
Qed.

Theorem inverse_accepted (w : wavelet C) : wf_bank w -> exists w', custom_wavelet (inverse_filter_bank w) = Ok w'.
Proof.
  intros (H1 & H2 & H3 & H4 & H5). unfold dec_len in *.
  destruct (custom_spec (inverse_filter_bank w)) as [(F & HF & dl & dh & rl & rh & E & L1 & L2 & L3 & L4 & E2 & _)|(_ & E)]; [eauto|].
  exfalso. apply E. exists (zlen (dec_lo w)). unfold inverse_filter_bank.
  split; [lia|]. split; [reflexivity|]. intros f Hf. cbn [In] in Hf.
  destruct Hf as [<-|[<-|[<-|[<-|[]]]]]; rewrite zlen_rev; lia.
Qed.

(** * orthogonal_filter_bank *)
Lemma np_sum_spec (l : list C) : np_sum l = sumZ 0 (zlen l) (gz l).
Proof.
  unfold np_sum. induction l as [|x l IH] using rev_ind.
  - reflexivity.
  - rewrite fold_left_app. cbn [fold_left]. rewrite IH, zlen_app. change (zlen [x]) with 1.
    rewrite sumZ_last by apply zlen_nonneg. f_equal.
    + apply sumZ_ext. intros t Ht. rewrite gz_app. replace (t <? zlen l) with true by lia. reflexivity.
    + rewrite gz_app. replace (zlen l <? zlen l) with false by lia. rewrite gz_cons.
      replace (zlen l - zlen l =? 0) with true by lia. reflexivity.
Qed.

Theorem ofb_structure (sqrt2 : C) div (h : list C) :
  orthogonal_filter_bank sqrt2 div h =
  if zlen h mod 2 =? 0
  then let c := map (fun v => div (sqrt2 [*] v) (sumZ 0 (zlen h) (gz h))) h in Ok (bi_bank c c)
  else Err ValueError.
Proof.
  unfold orthogonal_filter_bank. destruct (zlen h mod 2 =? 0); [|reflexivity]. cbn [negb].
  rewrite np_sum_spec, qmf_flip. reflexivity.
Qed.

Lemma corr_scal (a b : list C) k l u :
  corr (map (fun v => k [*] v) a) (map (fun v => l [*] v) b) u = (k [*] l) [*] corr a b u.
Proof.
  unfold corr. rewrite zlen_map, <- sumZ_scal. apply sumZ_ext. intros t Ht.
  rewrite !gz_map by ring. ring.
Qed.

(** With division by the sum: perfect reconstruction when h is orthonormal to
    its even shifts and its sum is a square root of 2. *)
Theorem ofb_pr (sqrt2 : C) div (h : list C) :
  let s := sumZ 0 (zlen h) (gz h) in
  sqrt2 [*] sqrt2 = r1 [+] r1 -> (forall a, div a s [*] s = a) -> (forall a : C, a [*] (r1 [+] r1) = r0 -> a = r0) ->
  zlen h mod 2 = 0 -> 2 <= zlen h -> even_shift_dual h h -> s [*] s = r1 [+] r1 ->
  exists w, orthogonal_filter_bank sqrt2 div h = Ok w /\ pr_wavelet w.
Proof.
  intros s H2 Hdiv Htwo HF HF2 Hd Hs. rewrite ofb_structure, HF. cbn [Z.eqb]. cbv zeta. fold s.
  eexists; split; [reflexivity|].
  (* division by s is multiplication by its inverse *)
  assert (Hcan : forall a b : C, a [*] s = b [*] s -> a = b).
  { intros a b E. assert (Z0 : (a [-] b) [*] (r1 [+] r1) = r0).
    { rewrite <- Hs. transitivity ((a [*] s [-] b [*] s) [*] s); [ring|]. rewrite E. ring. }
    apply Htwo in Z0. transitivity (b [+] (a [-] b)); [ring|]. rewrite Z0. ring. }
  set (k := div sqrt2 s).
  assert (Hk : k [*] k = r1).
  { apply Hcan. apply Hcan. transitivity ((k [*] s) [*] (k [*] s)); [ring|]. unfold k. rewrite Hdiv, H2.
    rewrite <- Hs. ring. }
  assert (Em : map (fun v => div (sqrt2 [*] v) s) h = map (fun v => k [*] v) h).
  { apply map_ext. intros v. apply Hcan. rewrite Hdiv. unfold k. transitivity (div sqrt2 s [*] s [*] v); [rewrite Hdiv; ring|ring]. }
  rewrite Em. apply bi_bank_pr; rewrite ?zlen_map; auto.
  intros u Hu. rewrite corr_scal, Hk, Hd by auto. destruct (u =? 0); ring.
Qed.

(** The condition on the sum is necessary. *)
Theorem ofb_pr_needs (sqrt2 : C) div (h : list C) w :
  let s := sumZ 0 (zlen h) (gz h) in
  sqrt2 [*] sqrt2 = r1 [+] r1 -> (forall a, div a s [*] s = a) -> div r0 s = r0 ->
  corr h h 0 = r1 -> orthogonal_filter_bank sqrt2 div h = Ok w -> pr_wavelet w -> s [*] s = r1 [+] r1.
Proof.
  intros s H2 Hdiv Hd0 H1 E P. rewrite ofb_structure in E. destruct (Z.eqb_spec (zlen h mod 2) 0) as [HF|]; [|discriminate].
  cbv zeta in E. fold s in E. injection E as <-. set (c := map (fun v => div (sqrt2 [*] v) s) h) in *.
  assert (Hz : zlen c = zlen h) by (unfold c; apply zlen_map).
  destruct P as (_ & _ & _ & _ & _ & P). specialize (P 0 (zlen c - 1) (or_introl eq_refl)).
  assert (EF : zlen (dec_lo (bi_bank c c)) = zlen c) by (unfold bi_bank; cbn [dec_lo]; apply zlen_rev).
  rewrite EF, Z.eqb_refl in P.
  pose proof (bi_response C c c 0 (zlen c - 1) eq_refl ltac:(rewrite Hz; exact HF) (or_introl eq_refl)) as B. cbv zeta in B.
  rewrite P in B. replace (zlen c - 1 - (zlen c - 1)) with 0 in B by lia. change (0 mod 2 =? 0) with true in B. cbn iota in B.
  transitivity (s [*] s [*] corr c c 0); [rewrite <- B; ring|].
  transitivity ((r1 [+] r1) [*] corr h h 0); [|rewrite H1; ring].
  unfold corr. rewrite Hz, <- !sumZ_scal. apply sumZ_ext. intros t Ht. rewrite !Z.add_0_r.
  assert (G : gz c t [*] s = sqrt2 [*] gz h t).
  { unfold c. rewrite gz_map by (replace (sqrt2 [*] r0) with (r0 : C) by ring; exact Hd0). apply Hdiv. }
  transitivity ((gz c t [*] s) [*] (gz c t [*] s)); [ring|]. rewrite G, <- H2. ring.
Qed.
End FF.
