(** swt2 is swtn with other labels; iswt2 inverts it, through both of its loops. *)
From Coq Require Import Ascii String.
From Verif Require Import Base BaseLemmas CConv Spec Lengths Dwt DwtProofs PR Swt SwtSpec SwtProofs Nd NdSpec NdLinear Axis AxisProofs AxisProofs2 Multidim MultidimProofs MultidimFacts MultilevelNd MultilevelNdProofs SwtNd SwtNdArgs AxisOps NdSynth NdSwtSpec SwtNdBand SwtNdSlices SwtNdLevel SwtNdLevel2 SwtNdFwd SwtNdInv.

(** The list swt2 returns. *)
Definition swt2_level {C : CRing} (trim : bool) (plan : list (nat * wavelet C)) (s : Z) (x : nd C) (j : nat) : swt2_item C :=
  let b k := of_nd (swt_band (s + Z.of_nat j) k plan (swtn_approx plan s (j - 1) x)) in
  if trim then D2 (b "da"%string) (b "ad"%string) (b "dd"%string) else AD2 (b "aa"%string) (b "da"%string) (b "ad"%string) (b "dd"%string).
Definition swt2_result {C : CRing} (trim : bool) (plan : list (nat * wavelet C)) (s : Z) (n : nat) (x : nd C) : list (swt2_item C) :=
  (if trim then [A2 (of_nd (swtn_approx plan s n x))] else []) ++ map (swt2_level trim plan s x) (rev (seq 1 n)).

Section S2D.
Variable C : CRing.
Add Ring Cring_ring_s2d : (rth C).
Variable fuel : nat.
Notation plan_t := (list (nat * wavelet C)).

Lemma norm_distinct n (axes : list Z) : NoDup (norm_axes n axes) -> NoDup axes.
Proof. unfold norm_axes. intros H. apply NoDup_map_inv in H. auto. Qed.

Theorem swt2_spec junk (data : sarr C) w level s axes trim norm plan0 :
  let plan := norm_plan norm plan0 in
  sarr_ok C data -> 2 <= ndim data <= 64 -> 0 <= s -> 1 <= level -> List.length plan0 = 2%nat ->
  swt_resolves (ndim data) w axes plan0 -> swt_plan_ok fuel (s + level) (sshape data) plan ->
  swt2 fuel junk data w level s axes trim norm = Ok (swt2_result trim plan s (Z.to_nat level) (val C data)).
Proof.
  intros plan Hok Hn Hs HL L2 R HP. unfold swt2.
  assert (LA : List.length axes = 2%nat).
  { destruct R as (R1 & _). apply (f_equal (@List.length Z)) in R1. unfold norm_axes in R1. rewrite !map_length in R1. lia. }
  assert (DA : distinct axes = 2%nat).
  { rewrite distinct_NoDup; auto. apply (norm_distinct (ndim data)). destruct R as (-> & _).
    destruct HP as (_ & _ & D & _). replace (map (fun p => Z.of_nat (fst p)) plan0) with (map (fun p => Z.of_nat (fst p)) plan) by (unfold plan, norm_plan; rewrite map_map; auto).
    apply zaxes_nodup; auto. }
  rewrite LA, DA. cbn [Nat.eqb negb]. replace (ndim data <? Z.of_nat 2) with false by lia.
  rewrite (swtn_spec C fuel junk data w level s (Some axes) trim norm plan0); auto; [|lia]. cbn [bind]. fold plan.
  assert (Ln : List.length plan = 2%nat) by (unfold plan, norm_plan; rewrite map_length; auto).
  unfold swtn_result, swt2_result. set (L := rev (seq 1 (Z.to_nat level))).
  destruct trim; cbn [app].
  - rewrite (mapM_ext _ (fun c => match c with NDict c => Ok (match dget c "da", dget c "ad", dget c "dd" with Some h, Some v, Some d => D2 h v d | _, _, _ => A2 (of_nd (val C data)) end)%string | NArr _ => Err IndexError end)).
    + assert (G : forall L, mapM (fun c => match c with NDict c => Ok (match dget c "da", dget c "ad", dget c "dd" with Some h, Some v, Some d => D2 h v d | _, _, _ => A2 (of_nd (val C data)) end)%string | NArr _ => Err IndexError end) (map (swtn_level true plan s (val C data)) L)
        = Ok (map (swt2_level true plan s (val C data)) L)).
      { clear L. induction L as [|j L IH]; cbn [map mapM]; auto. unfold swtn_level at 1. rewrite Ln. cbn [ad_keys map app tl dget bind String.eqb Ascii.eqb Bool.eqb].
        rewrite IH. reflexivity. }
      rewrite G. reflexivity.
    + intros c Hc. apply in_map_iff in Hc. destruct Hc as (j & <- & _). unfold swtn_level. rewrite Ln. reflexivity.
  - rewrite (mapM_ext _ (fun c => match c with NDict c => Ok (match dget c "aa", dget c "da", dget c "ad", dget c "dd" with Some a, Some h, Some v, Some d => AD2 a h v d | _, _, _, _ => A2 (of_nd (val C data)) end)%string | NArr _ => Err IndexError end)).
    + clearbody L. induction L as [|j L IH]; cbn [map mapM]; auto. unfold swtn_level at 1. rewrite Ln. cbn [ad_keys map app tl dget bind String.eqb Ascii.eqb Bool.eqb].
      rewrite IH. reflexivity.
    + intros c Hc. apply in_map_iff in Hc. destruct Hc as (j & <- & _). unfold swtn_level. rewrite Ln. reflexivity.
Qed.

(** ** iswt2 through iswtn *)
Definition three_ok (sh : list Z) (Y : string -> nd C) (t : sarr C * sarr C * sarr C) : Prop :=
  let '(h, v, d) := t in
  (sarr_ok C h /\ sshape h = sh /\ val C h = Y "da"%string) /\ (sarr_ok C v /\ sshape v = sh /\ val C v = Y "ad"%string) /\
  (sarr_ok C d /\ sshape d = sh /\ val C d = Y "dd"%string).

Lemma three_details sh (plan : plan_t) Y h v d : List.length plan = 2%nat -> three_ok sh Y (h, v, d) ->
  details_ok C sh plan [("da", h); ("ad", v); ("dd", d)]%string Y.
Proof.
  intros Ln ((A1 & A2 & A3) & (B1 & B2 & B3) & (D1 & D2 & D3)). unfold details_ok. rewrite Ln. cbn [ad_keys map app all_a]. split.
  - intros k u [E|[E|[E|[]]]]; injection E as <- <-; (split; [cbn; auto|]); (split; [discriminate|]); auto.
  - intros k [<-|[<-|[<-|[<-|[]]]]] Hn; cbn; eauto. congruence.
Qed.

(** ** The loop of iswt2 for 2-D arrays *)
Section Lev2.
Variables (junk : Z -> C) (half : C) (l : Z) (H W : Z) (w0 w1 : wavelet C) (cH cV cD : sarr C) (Y : string -> nd C).
Notation plan := [(0%nat, w0); (1%nat, w1)].
Notation sh := [H; W].
Hypothesis Hl : 1 <= l.
Hypothesis HP : plan_lev C fuel l sh plan.
Hypothesis HD : three_ok sh Y (cH, cV, cD).
Hypothesis HYa : nshape (Y "aa"%string) = sh.
Hypothesis WYa : nd_wf (Y "aa"%string).

Lemma S2_two fh fw oh ow : S2 C l sh plan [fh; fw] [oh; ow]
  = [SRange (fh + oh * 2 ^ (l - 1)) H (2 * 2 ^ (l - 1)); SRange (fw + ow * 2 ^ (l - 1)) W (2 * 2 ^ (l - 1))].
Proof. reflexivity. Qed.
Lemma S1_two fh fw : S1 C l sh plan [fh; fw] = [SRange fh H (2 ^ (l - 1)); SRange fw W (2 ^ (l - 1))].
Proof. unfold S1, mkq. cbn [map combine]. unfold sel1. cbn. rewrite !Z.add_0_r. destruct (2 ^ (l - 1)); reflexivity. Qed.

Definition quad (output : nd C) (sl : list slice) : res (nd C) :=
    a <- sview (of_nd output) sl ;; h <- sview cH sl ;; v <- sview cV sl ;; d <- sview cD sl ;;
    r <- idwt2 fuel junk (Some a, (Some h, Some v, Some d)) (Seq [w0; w1]) (One PERIODIZATION) [-2; -1] ;;
    match r with Some x => Ok (val C x) | None => Err TypeError end.

Lemma quad_spec cur fs os : fs_ok C l plan fs -> os_ok C plan os -> nd_wf cur -> nshape cur = sh ->
  pickS C (S2 C l sh plan fs os) cur = pickS C (S2 C l sh plan fs os) (Y "aa"%string) ->
  quad cur (S2 C l sh plan fs os) = Ok (synth C (map (pst C) plan) (fun k => pickS C (S2 C l sh plan fs os) (Y k))).
Proof.
  intros Hf Ho Wc Sc Hc. set (sl := S2 C l sh plan fs os) in *.
  assert (Hk : Forall2 sl_ok sh sl) by (apply (S2_ok C fuel); auto).
  destruct HD as ((A1 & A2 & A3) & (B1 & B2 & B3) & (D1 & D2 & D3)). unfold quad.
  destruct (sview_spec C (of_nd cur) sl) as (a' & Ea & Oa & Sa & Va); [apply of_nd_ok; auto|cbn; rewrite Sc; auto|].
  destruct (sview_spec C cH sl) as (h' & Eh & Oh & Sh & Vh); [auto|rewrite A2; auto|].
  destruct (sview_spec C cV sl) as (v' & Ev & Ov & Sv & Vv); [auto|rewrite B2; auto|].
  destruct (sview_spec C cD sl) as (d' & Ed & Od & Sd & Vd); [auto|rewrite D2; auto|].
  rewrite Ea, Eh, Ev, Ed. cbn [bind]. unfold idwt2. cbn [List.length Nat.eqb negb].
  rewrite val_of_nd in Va by auto. cbn [of_nd sshape] in Sa. rewrite Sc in Sa. rewrite A2 in Sh. rewrite B2 in Sv. rewrite D2 in Sd. rewrite A3 in Vh. rewrite B3 in Vv. rewrite D3 in Vd.
  destruct (idwtn_synth C fuel junk [("aa", a'); ("da", h'); ("ad", v'); ("dd", d')]%string (fun k => pickS C sl (Y k)) (Seq [w0; w1]) (One PERIODIZATION)
    (Some [-2; -1]) (map (pst C) plan) sh (sel_shape sh sl)) as (r & Er & Or & Vr).
  - apply (syn_good_sel C fuel l sh plan); auto.
  - split; [|split]; try reflexivity. unfold zlen. rewrite sel_shape_len by (apply sls_of_length). reflexivity.
  - cbn [map List.length ad_keys app]. intros k u [E|[E|[E|[E|[]]]]]; injection E as <- <-; (split; [cbn; auto|]); (split; [auto|]); split; auto. congruence.
  - cbn [map List.length ad_keys app]. intros k [<-|[<-|[<-|[<-|[]]]]]; cbn; eauto.
  - cbn [map] in Er. rewrite Er. cbn [bind]. rewrite Vr. reflexivity.
Qed.

Lemma first2_spec cur fh fw : fs_ok C l plan [fh; fw] -> nd_wf cur -> nshape cur = sh ->
  (forall os, os_ok C plan os -> pickS C (S2 C l sh plan [fh; fw] os) cur = pickS C (S2 C l sh plan [fh; fw] os) (Y "aa"%string)) ->
  exists r, iswt2_first fuel junk (half [*] half) [w0; w1] cH cV cD (2 ^ (l - 1)) cur (fh, fw) = Ok r /\ nd_wf r /\ nshape r = sh /\
    forall idx, valid sh idx -> ndget r idx = if list_eq_dec Z.eq_dec (resid C l plan idx) [fh; fw] then ndget (ilev C half l sh plan Y) idx else ndget cur idx.
Proof.
  intros Hf Wc Sc Hc. set (fs := [fh; fw]) in *.
  assert (O : forall o1 o2, 0 <= o1 < 2 -> 0 <= o2 < 2 -> os_ok C plan [o1; o2]).
  { intros o1 o2 H1 H2. apply in_product. split; auto. }
  pose proof HD as ((A1 & A2 & A3) & (B1 & B2 & B3) & (D1 & D2 & D3)).
  assert (ES : forall o1 o2 a b, fh + o1 * 2 ^ (l - 1) = a -> fw + o2 * 2 ^ (l - 1) = b -> 
     [SRange a H (2 * 2 ^ (l - 1)); SRange b W (2 * 2 ^ (l - 1))] = S2 C l sh plan fs [o1; o2]).
  { intros o1 o2 a b <- <-. unfold fs. rewrite S2_two. reflexivity. }
  pose (sy := fun os => synth C (map (pst C) plan) (fun k => pickS C (S2 C l sh plan fs os) (Y k))).
  assert (Q : forall o1 o2, 0 <= o1 < 2 -> 0 <= o2 < 2 -> quad cur (S2 C l sh plan fs [o1; o2]) = Ok (sy [o1; o2])).
  { intros o1 o2 H1 H2. apply quad_spec; auto. }
  assert (SY : forall k, In k (ad_keys 2) -> nshape (Y k) = sh).
  { cbn. intros k [<-|[<-|[<-|[<-|[]]]]]; auto; [rewrite <- B3|rewrite <- A3|rewrite <- D3]; rewrite nshape_val; auto. }
  assert (SR : forall os, os_ok C plan os -> nshape (sy os) = sel_shape sh (S1 C l sh plan fs)).
  { intros os Ho. apply (synth_sel_shape C fuel); auto. }
  unfold iswt2_first. rewrite A2. cbn [nthz nth]. change (nthz 0 sh) with H. change (nthz 1 sh) with W.
  rewrite (ES 0 0 fh fw), (ES 0 1 fh (fw + 2 ^ (l - 1))), (ES 1 0 (fh + 2 ^ (l - 1)) fw), (ES 1 1 (fh + 2 ^ (l - 1)) (fw + 2 ^ (l - 1))) by lia.
  pose proof (Q 0 0) as Q1. pose proof (Q 0 1) as Q2. pose proof (Q 1 0) as Q3. pose proof (Q 1 1) as Q4. unfold quad in Q1, Q2, Q3, Q4.
  rewrite Q1 by lia. cbn [bind]. rewrite Q2 by lia. cbn [bind]. rewrite Q3 by lia. cbn [bind]. rewrite Q4 by lia. cbn [bind].
  clear Q1 Q2 Q3 Q4 Q.
  assert (R1 : sy [0; 0] = Rr C l sh plan fs [0; 0] Y) by reflexivity.
  assert (R2 : ndroll1 1 (sy [0; 1]) = Rr C l sh plan fs [0; 1] Y) by reflexivity.
  assert (R3 : ndroll1 0 (sy [1; 0]) = Rr C l sh plan fs [1; 0] Y) by reflexivity.
  assert (R4 : ndroll1 1 (ndroll1 0 (sy [1; 1])) = Rr C l sh plan fs [1; 1] Y) by reflexivity.
  assert (E1 : [SRange fh H (2 ^ (l - 1)); SRange fw W (2 ^ (l - 1))] = S1 C l sh plan fs) by (unfold fs; rewrite S1_two; reflexivity).
  rewrite E1, Sc. cbn [forallb]. rewrite R1, R2, R3, R4.
  assert (SRr : forall os, os_ok C plan os -> nshape (Rr C l sh plan fs os Y) = sel_shape sh (S1 C l sh plan fs)).
  { intros os Ho. unfold Rr. rewrite rolls_shape. apply (SR os Ho). }
  rewrite !SRr by (apply O; lia).
  assert (EB : forall s, shape_eqb s s = true) by (intros s; unfold shape_eqb; destruct (list_eq_dec _ _ _); congruence).
  rewrite !EB. cbn [andb negb]. eexists. split; [reflexivity|]. split; [apply assign_wf; auto|]. split; [exact Sc|].
  intros idx V. rewrite ndget_assign by (rewrite Sc; auto). rewrite Sc. rewrite (hits_resid C fuel l sh plan Hl HP fs idx Hf V).
  destruct (list_eq_dec Z.eq_dec (resid C l plan idx) fs) as [E|E]; auto.
  unfold ilev. rewrite ndget_ndtab by auto. rewrite E. change (product 2 (List.length plan)) with [[0; 0]; [0; 1]; [1; 0]; [1; 1]].
  cbn [fold_left List.length rpow]. ring.
Qed.

Lemma firsts2_fold :
  forall fl done cur, NoDup (done ++ fl) -> (forall fs, In fs fl -> fs_ok C l plan fs) -> nd_wf cur -> nshape cur = sh ->
  (forall idx, valid sh idx -> ndget cur idx = if in_dec (list_eq_dec Z.eq_dec) (resid C l plan idx) done then ndget (ilev C half l sh plan Y) idx else ndget (Y "aa"%string) idx) ->
  exists r, foldM (fun o fs => iswt2_first fuel junk (half [*] half) [w0; w1] cH cV cD (2 ^ (l - 1)) o (nthz 0 fs, nthz 1 fs)) cur fl = Ok r /\ nd_wf r /\ nshape r = sh /\
    forall idx, valid sh idx -> ndget r idx = if in_dec (list_eq_dec Z.eq_dec) (resid C l plan idx) (done ++ fl) then ndget (ilev C half l sh plan Y) idx else ndget (Y "aa"%string) idx.
Proof.
  induction fl as [|fs fl IH]; intros done cur Hd Hfl Wc Sc Hc; cbn [foldM].
  - exists cur. rewrite app_nil_r. auto.
  - assert (Hf : fs_ok C l plan fs) by (apply Hfl; left; auto).
    assert (EF : fs = [nthz 0 fs; nthz 1 fs]).
    { pose proof Hf as Hf'. apply in_product in Hf'. destruct Hf' as (Lf & _). destruct fs as [|a [|b [|c t]]]; cbn in Lf; try lia. reflexivity. }
    rewrite EF in Hf.
    destruct (first2_spec cur (nthz 0 fs) (nthz 1 fs) Hf Wc Sc) as (r & Er & Wr & Sr & Vr); rewrite <- ?EF in *.
    { intros os Ho. unfold pickS. rewrite Sc, HYa. apply ndtab_ext; [apply sel_shape_ok; apply HP|]. intros idx V.
      pose proof (S2_ok C fuel l sh plan Hl HP fs os Hf Ho) as Hk.
      rewrite Hc by (apply sl_off_valid; auto). rewrite (resid_S2 C fuel l sh plan HP fs os idx Hf Ho V).
      destruct (in_dec _ fs done) as [Hi|Hi]; auto. exfalso. apply (NoDup_remove_2 _ _ _ Hd). apply in_or_app. auto. }
    rewrite Er. cbn [bind]. destruct (IH (done ++ [fs]) r) as (r' & Er' & Wr' & Sr' & Vr'); auto.
    + rewrite <- app_assoc. exact Hd.
    + intros; apply Hfl; right; auto.
    + intros idx V. rewrite Vr by auto. rewrite Hc by auto.
      destruct (list_eq_dec Z.eq_dec (resid C l plan idx) fs) as [E|E].
      * destruct (in_dec _ (resid C l plan idx) (done ++ [fs])) as [_|Hn]; auto. exfalso. apply Hn. apply in_or_app. right; left; auto.
      * destruct (in_dec _ (resid C l plan idx) done) as [Hi|Hn], (in_dec _ (resid C l plan idx) (done ++ [fs])) as [Hi'|Hn']; auto.
        -- exfalso. apply Hn'. apply in_or_app. auto.
        -- exfalso. apply in_app_or in Hi'. destruct Hi' as [Hi'|[Hi'|[]]]; auto.
    + exists r'. split; auto. split; auto. split; auto. intros idx V. rewrite Vr' by auto.
      replace ((done ++ [fs]) ++ fl) with (done ++ fs :: fl) by (rewrite <- app_assoc; reflexivity). reflexivity.
Qed.

Lemma level2_spec :
  foldM (iswt2_first fuel junk (half [*] half) [w0; w1] cH cV cD (2 ^ (l - 1))) (Y "aa"%string)
    (flat_map (fun fh => map (fun fw => (fh, fw)) (tab (2 ^ (l - 1)) (fun k => k))) (tab (2 ^ (l - 1)) (fun k => k)))
  = Ok (ilev C half l sh plan Y).
Proof.
  assert (FM : forall {A B S} (f : S -> B -> res S) (g : A -> B) L s, foldM f s (map g L) = foldM (fun s a => f s (g a)) s L).
  { intros A B S f g. induction L as [|a L IH]; intros s; cbn; auto. destruct (f s (g a)); cbn; auto. }
  assert (EP : flat_map (fun fh => map (fun fw => (fh, fw)) (tab (2 ^ (l - 1)) (fun k => k))) (tab (2 ^ (l - 1)) (fun k => k))
    = map (fun fs => (nthz 0 fs, nthz 1 fs)) (product (2 ^ (l - 1)) 2)).
  { cbn [product]. generalize (tab (2 ^ (l - 1)) (fun k => k)) at 2 4. generalize (tab (2 ^ (l - 1)) (fun k => k)). intros T L.
    induction L as [|a L IH]; cbn [flat_map]; auto. rewrite map_app, IH. f_equal. clear. induction T as [|b T IH]; cbn; auto. f_equal; auto. }
  rewrite EP, FM.
  destruct (firsts2_fold (product (2 ^ (l - 1)) 2) [] (Y "aa"%string)) as (r & Er & Wr & Sr & Vr); auto.
  { apply product_nodup. }
  rewrite Er. f_equal. apply nd_ext; auto.
  + unfold ilev. apply ndtab_wf. apply HP.
  + rewrite Sr. intros idx V. rewrite Vr by auto. destruct (in_dec _ _ _) as [_|Hn]; auto. exfalso. apply Hn. apply (resid_ok C l sh plan Hl); auto.
Qed.
End Lev2.

Fixpoint threes_hold (sh : list Z) (Y : nat -> string -> nd C) (n : nat) (cs : list (sarr C * sarr C * sarr C)) : Prop :=
  match n, cs with
  | O, [] => True
  | S n', t :: cs' => three_ok sh (Y n) t /\ threes_hold sh Y n' cs'
  | _, _ => False
  end.
Lemma threes_len sh Y : forall n cs, threes_hold sh Y n cs -> zlen cs = Z.of_nat n.
Proof.
  induction n as [|n IH]; intros [|c cs] H; cbn [threes_hold] in H; try contradiction; [reflexivity|].
  unfold zlen in *. cbn [List.length]. specialize (IH cs (proj2 H)). lia.
Qed.

Lemma iswt2_loop_spec junk half H W w0 w1 Y : let plan := [(0%nat, w0); (1%nat, w1)] in forall n cs a,
  plan_lev C fuel (Z.of_nat n) [H; W] plan -> nd_wf a -> nshape a = [H; W] -> threes_hold [H; W] Y n cs ->
  iswt2_loop fuel junk (half [*] half) [w0; w1] a cs = Ok (isynth C half [H; W] plan Y n a).
Proof.
  intros plan. induction n as [|n IH]; intros cs a HP Wa Sa HC; destruct cs as [|[[h v] d] cs]; cbn [threes_hold] in HC; try contradiction; [reflexivity|].
  destruct HC as (HT & HC). cbn [iswt2_loop isynth]. pose proof (threes_len _ _ _ _ HC) as Hlen.
  pose proof HT as ((A1 & A2 & A3) & (B1 & B2 & B3) & (D1 & D2 & D3)).
  set (Y' := fun k => if String.eqb k (all_a (List.length plan)) then a else Y (S n) k).
  rewrite A2, B2, D2. assert (EB : forall s, shape_eqb s s = true) by (intros s; unfold shape_eqb; destruct (list_eq_dec _ _ _); congruence).
  rewrite !EB. cbn [negb orb]. unfold ndim. rewrite A2. change (zlen [H; W]) with 2. cbn [Z.eqb Pos.eqb negb].
  pose proof (level2_spec junk half (Z.of_nat (S n)) H W w0 w1 h v d Y') as LS. change (Y' "aa"%string) with a in LS.
  replace (Z.of_nat (S n) - 1) with (zlen cs) in LS by lia. rewrite LS; auto; [|lia]. cbn [bind]. apply IH; auto; [|apply ilev_wf; apply HP].
  destruct HP as (P1 & P2 & P3 & P4). split; auto. split; auto. split; auto. intros p Hp. destruct (P4 p Hp) as (E1 & E2 & E3 & E4).
  split; auto. split; auto. split; auto. apply Z.divide_trans with (2 ^ Z.of_nat (S n)); auto. apply pow2_div. lia.
Qed.

(** ** The top level *)
Definition item2_holds (trim : bool) (sh : list Z) (Y : string -> nd C) (it : swt2_item C) : Prop :=
  match it, trim with D2 h v d, true => three_ok sh Y (h, v, d) | AD2 _ h v d, false => three_ok sh Y (h, v, d) | _, _ => False end.
Fixpoint items2_hold (trim : bool) (sh : list Z) (Y : nat -> string -> nd C) (n : nat) (cs : list (swt2_item C)) : Prop :=
  match n, cs with
  | O, [] => True
  | S n', it :: cs' => item2_holds trim sh (Y n) it /\ items2_hold trim sh Y n' cs'
  | _, _ => False
  end.

Definition as_dict (trim : bool) (it : sarr C * (sarr C * sarr C * sarr C)) : swtn_item C :=
  let '(a, (h, v, d)) := it in
  if trim then NDict [("da", h); ("ad", v); ("dd", d)]%string else NDict [("aa", a); ("da", h); ("ad", v); ("dd", d)]%string.

Lemma items2_split (trim : bool) (cA : sarr C) sh Y : forall n cs, items2_hold trim sh Y n cs ->
  exists ds, mapM (fun c => match c, trim with D2 h v d, true => Ok (cA, (h, v, d)) | AD2 a h v d, false => Ok (a, (h, v, d)) | _, _ => Err ValueError end) cs = Ok ds /\
    threes_hold sh Y n (map snd ds) /\ (forall plan, List.length plan = 2%nat -> coeffs_hold C trim sh plan Y n (map (as_dict trim) ds)) /\
    (trim = false -> match cs with AD2 a _ _ _ :: _ => exists t r, ds = (a, t) :: r | _ => ds = [] end).
Proof.
  induction n as [|n IH]; intros [|c cs] HC; cbn [items2_hold] in HC; try contradiction.
  - exists []. repeat split; auto.
  - destruct HC as (Hi & HC). destruct (IH cs HC) as (ds & E & T & K & _).
    destruct c as [b|h v d|b h v d], trim; cbn [item2_holds] in Hi; try contradiction; cbn [mapM bind]; rewrite E; cbn [bind].
    + exists ((cA, (h, v, d)) :: ds). split; [reflexivity|]. split; [split; auto|]. split; [|discriminate].
      intros plan Ln. cbn [map coeffs_hold]. split; auto. apply three_details; auto.
    + exists ((b, (h, v, d)) :: ds). split; [reflexivity|]. split; [split; auto|]. split; [|intros _; eauto].
      intros plan Ln. cbn [map coeffs_hold]. split; auto. cbn [as_dict item_holds]. rewrite Ln. split; [eexists; reflexivity|].
      cbn [all_a dremove String.eqb Ascii.eqb Bool.eqb]. apply three_details; auto.
Qed.

Theorem iswt2_spec junk half w axes norm (plan0 : plan_t) trim sh Y n a cs coeffs :
  let plan := norm_plan norm plan0 in
  (1 <= n)%nat -> sarr_ok C a -> sshape a = sh -> List.length plan0 = 2%nat -> swt_resolves (zlen sh) w axes plan0 ->
  plan_lev C fuel (Z.of_nat n) sh plan -> items2_hold trim sh Y n cs ->
  (if trim then coeffs = A2 a :: cs else coeffs = cs /\ match cs with AD2 b _ _ _ :: _ => b = a | _ => False end) ->
  iswt2 fuel junk half coeffs w norm axes = Ok (of_nd (isynth C half sh plan Y n (val C a))).
Proof.
  intros plan Hn Ha Hsh L2 R HP HC Hco.
  assert (Ln : List.length plan = 2%nat) by (unfold plan, norm_plan; rewrite map_length; auto).
  assert (Hne : plan <> []) by (intros E; rewrite E in Ln; discriminate).
  destruct (items2_split trim a sh Y n cs HC) as (ds & E & T & K & F). specialize (K plan Ln).
  assert (Last : forall pre, last_dict C (pre ++ map (as_dict trim) ds) (List.length plan)).
  { intros pre. unfold last_dict. rewrite rev_app_distr, <- map_rev. assert (Hds : rev ds <> []).
    { intros Er. apply (f_equal (@rev _)) in Er. rewrite rev_involutive in Er. cbn in Er. subst ds. destruct n; [lia|contradiction]. }
    destruct (rev ds) as [|[b [[h v] d]] r]; [congruence|]. cbn [map app as_dict]. rewrite Ln.
    destruct trim; (split; [discriminate|]); intros k u Hi; cbn [In] in Hi; repeat (destruct Hi as [Hi|Hi]; [injection Hi as <- _; reflexivity|]); destruct Hi. }
  assert (Main : forall c0 rest, coeffs = c0 :: rest -> 
     (let cA := a in
      ds <- Ok ds ;;
      if negb (ndim cA =? 2) || negb (shape_eqb axes [-2; -1]) then
        let nd_items := if trim then NArr cA :: map (fun '(_, (h, v, d)) => NDict [("da", h); ("ad", v); ("dd", d)]%string) ds
                        else map (fun '(a, (h, v, d)) => NDict [("aa", a); ("da", h); ("ad", v); ("dd", d)]%string) ds in
        snd (iswtn fuel junk half nd_items w (Some axes) norm)
      else
        ws <- objs_per_axis w 2 ;;
        o <- iswt2_loop fuel junk (half [*] half) (map (norm_w norm) ws) (val C cA) (map snd ds) ;;
        Ok (of_nd o)) = Ok (of_nd (isynth C half sh plan Y n (val C a)))).
  { intros c0 rest _. cbv zeta. cbn [bind]. destruct (negb (ndim a =? 2) || negb (shape_eqb axes [-2; -1])) eqn:EB.
    - apply (iswtn_spec C fuel junk half w (Some axes) norm plan0 trim sh Y n a (map (as_dict trim) ds)); auto.
      + destruct trim; [reflexivity|]. split; [reflexivity|]. destruct Hco as (-> & Hc). specialize (F eq_refl).
        destruct cs as [|[b|h v d|b h v d] cs]; try contradiction. subst b. destruct F as ([[h' v'] d'] & r & ->). cbn [map as_dict]. fold plan. rewrite Ln. reflexivity.
      + destruct trim; [apply (Last [NArr a])|apply (Last [])].
    - apply orb_false_iff in EB. destruct EB as (E1 & E2).
      assert (Ax : axes = [-2; -1]) by (unfold shape_eqb in E2; destruct (list_eq_dec Z.eq_dec axes [-2; -1]); [auto|discriminate]). subst axes.
      assert (Sh2 : exists H W, sh = [H; W]).
      { apply negb_false_iff, Z.eqb_eq in E1. unfold ndim, zlen in E1. rewrite Hsh in E1. destruct sh as [|x1 [|x2 [|x3 t]]]; cbn [List.length] in E1; try lia; eauto. }
      destruct Sh2 as (H & W & ->). destruct R as (R1 & R2). rewrite L2 in R2. rewrite R2. cbn [bind].
      destruct plan0 as [|[a0 w0] [|[a1 w1] [|? ?]]]; cbn in L2; try lia. cbn in R1. injection R1 as E3 E4.
      assert (a0 = 0%nat) by lia. assert (a1 = 1%nat) by lia. subst a0 a1. cbn [map snd].
      rewrite (iswt2_loop_spec junk half H W (norm_w norm w0) (norm_w norm w1) Y n); auto using val_wf; rewrite nshape_val; auto. }
  unfold iswt2. destruct trim.
  - subst coeffs. cbv zeta. rewrite E. apply (Main _ _ eq_refl).
  - destruct Hco as (-> & Hc). destruct cs as [|[b|h v d|b h v d] cs]; try contradiction. subst b. cbv zeta. rewrite E. apply (Main _ _ eq_refl).
Qed.

Lemma swt2_items trim (plan : plan_t) (x : nd C) n : nd_wf x ->
  items2_hold trim (nshape x) (fun j k => swt_band (Z.of_nat j) k plan (swtn_approx plan 0 (j - 1) x)) n (map (swt2_level trim plan 0 x) (rev (seq 1 n))).
Proof.
  intros Hx. assert (Hb : forall l k m, let b := of_nd (swt_band l k plan (swtn_approx plan 0 m x)) in
    sarr_ok C b /\ sshape b = nshape x /\ val C b = swt_band l k plan (swtn_approx plan 0 m x)).
  { intros l k m b. assert (W : nd_wf (swt_band l k plan (swtn_approx plan 0 m x))) by (apply band_wf', approx_wf; auto).
    split; [apply of_nd_ok; auto|]. split; [cbn; rewrite band_shape', approx_shape; auto|apply val_of_nd; auto]. }
  induction n as [|n IH]; [exact I|]. rewrite seq_S, rev_app_distr. cbn [rev app map items2_hold Nat.add].
  split; auto. unfold swt2_level. destruct trim; cbn [item2_holds three_ok]; auto.
Qed.

Theorem iswt2_swt2 junk half (data : sarr C) w level axes trim norm plan :
  half [+] half = r1 -> match norm with Some (sq2, isq2) => sq2 [*] isq2 = r1 | None => True end ->
  sarr_ok C data -> 2 <= ndim data <= 64 -> 1 <= level -> List.length plan = 2%nat ->
  swt_resolves (ndim data) w axes plan -> swt_plan_ok fuel level (sshape data) plan ->
  (forall p, In p plan -> pr_wavelet (snd p)) ->
  exists cs, swt2 fuel junk data w level 0 axes trim (option_map snd norm) = Ok cs /\
    iswt2 fuel junk half cs w (option_map fst norm) axes = Ok (of_nd (val C data)).
Proof.
  intros Hh Hn Hok Hnd HL L2 R HP Hpr. eexists. split.
  - apply (swt2_spec junk data w level 0 axes trim (option_map snd norm) plan); auto; [lia|]. apply norm_plan_ok. auto.
  - set (x := val C data). assert (Hx : nd_wf x) by (apply val_wf; auto). set (pf := norm_plan (option_map snd norm) plan).
    assert (Sx : nshape x = sshape data) by apply nshape_val.
    assert (Wa : nd_wf (swtn_approx pf 0 (Z.to_nat level) x)) by (apply approx_wf; auto).
    assert (HPL : plan_lev C fuel (Z.of_nat (Z.to_nat level)) (nshape x) (norm_plan (option_map fst norm) plan)).
    { rewrite Sx, Z2Nat.id by lia. apply plan_ok_lev; [rewrite <- Sx; apply Hx|]. apply norm_plan_ok; auto. }
    rewrite (iswt2_spec junk half w axes (option_map fst norm) plan trim (nshape x) (fun j k => swt_band (Z.of_nat j) k pf (swtn_approx pf 0 (j - 1) x)) (Z.to_nat level)
      (of_nd (swtn_approx pf 0 (Z.to_nat level) x)) (map (swt2_level trim pf 0 x) (rev (seq 1 (Z.to_nat level))))); auto.
    + rewrite val_of_nd by auto. rewrite (isynth_swt C fuel half pf); auto.
      * apply plan_pair_norm; auto.
      * intros p Hp. destruct (norm_plan_ok C fuel level (sshape data) (option_map snd norm) plan HP) as (_ & _ & _ & E). apply (E p Hp).
    + lia.
    + apply of_nd_ok; auto.
    + cbn [of_nd sshape]. apply approx_shape.
    + apply swt2_items; auto.
    + unfold swt2_result. destruct trim; cbn [app]; auto. split; auto.
      destruct (Z.to_nat level) as [|m] eqn:Em; [lia|]. rewrite seq_S, rev_app_distr. cbn [rev app map Nat.add]. unfold swt2_level.
      f_equal. assert (Lpf : List.length pf = 2%nat) by (unfold pf, norm_plan; rewrite map_length; auto).
      change "aa"%string with (all_a 2). rewrite <- Lpf, low_all_a. cbn [swtn_approx]. replace (S m - 1)%nat with m by lia. reflexivity.
Qed.

(** Both loops give the same for arbitrary coefficients. *)
Fixpoint values (ds : list (sarr C * sarr C * sarr C)) (j : nat) (k : string) : nd C :=
  match ds with
  | [] => ndzero []
  | (h, v, d) :: rest =>
      if Nat.eqb j (List.length ds) then val C (if String.eqb k "da" then h else if String.eqb k "ad" then v else d) else values rest j k
  end.
Definition triple_ok (sh : list Z) (t : sarr C * sarr C * sarr C) : Prop :=
  let '(h, v, d) := t in (sarr_ok C h /\ sshape h = sh) /\ (sarr_ok C v /\ sshape v = sh) /\ (sarr_ok C d /\ sshape d = sh).

Lemma items2_ext trim sh Y Y' : forall n cs, (forall j k, (1 <= j <= n)%nat -> Y j k = Y' j k) -> items2_hold trim sh Y n cs -> items2_hold trim sh Y' n cs.
Proof.
  induction n as [|n IH]; intros [|c cs] E HC; cbn [items2_hold] in *; auto. destruct HC as (Hi & HC). split; [|apply IH; auto; intros; apply E; lia].
  destruct c as [b|h v d|b h v d], trim; cbn [item2_holds] in *; auto; unfold three_ok in *; rewrite <- !(E (S n)) by lia; auto.
Qed.
Lemma values_hold sh : forall ds, (forall t, In t ds -> triple_ok sh t) ->
  items2_hold true sh (values ds) (List.length ds) (map (fun '(h, v, d) => D2 h v d) ds).
Proof.
  induction ds as [|[[h v] d] ds IH]; intros Ht; [exact I|]. cbn [List.length map items2_hold]. split.
  - destruct (Ht _ (or_introl eq_refl)) as (A & B & D). cbn [item2_holds three_ok values List.length]. rewrite Nat.eqb_refl. cbn [String.eqb Ascii.eqb Bool.eqb]. tauto.
  - apply (items2_ext true sh (values ds)); [|apply IH; intros; apply Ht; right; auto].
    intros j k Hj. cbn [values List.length]. replace (Nat.eqb j (S (List.length ds))) with false by (symmetry; apply Nat.eqb_neq; lia). reflexivity.
Qed.

Theorem iswt2_iswtn junk half w axes norm (plan : plan_t) sh a ds :
  ds <> [] -> sarr_ok C a -> sshape a = sh -> (forall t, In t ds -> triple_ok sh t) ->
  List.length plan = 2%nat -> swt_resolves (zlen sh) w axes plan -> swt_plan_ok fuel (zlen ds) sh plan ->
  exists r, iswt2 fuel junk half (A2 a :: map (fun '(h, v, d) => D2 h v d) ds) w norm axes = Ok r /\ sarr_ok C r /\ sshape r = sh /\
    snd (iswtn fuel junk half (NArr a :: map (fun '(h, v, d) => NDict [("da", h); ("ad", v); ("dd", d)]%string) ds) w (Some axes) norm) = Ok r.
Proof.
  intros Hne Ha Hsh Ht L2 R HP.
  assert (Hs : shape_ok sh) by (rewrite <- Hsh, <- (nshape_val C a); apply val_wf; auto).
  assert (HPL : plan_lev C fuel (Z.of_nat (List.length ds)) sh (norm_plan norm plan)) by (apply plan_ok_lev; auto; apply norm_plan_ok; auto).
  assert (Ln : List.length (norm_plan norm plan) = 2%nat) by (unfold norm_plan; rewrite map_length; auto).
  pose proof (values_hold sh ds Ht) as HV.
  assert (Hl : (1 <= List.length ds)%nat) by (destruct ds; cbn; [congruence|lia]).
  exists (of_nd (isynth C half sh (norm_plan norm plan) (values ds) (List.length ds) (val C a))).
  assert (Wr : forall n y, nd_wf y -> nshape y = sh -> nd_wf (isynth C half sh (norm_plan norm plan) (values ds) n y) /\ nshape (isynth C half sh (norm_plan norm plan) (values ds) n y) = sh).
  { induction n as [|n IH]; intros y Wy Sy; cbn [isynth]; auto. apply IH; [apply ilev_wf; auto|reflexivity]. }
  destruct (Wr (List.length ds) (val C a)) as (W1 & W2); [apply val_wf; auto|rewrite nshape_val; auto|].
  split; [|split; [apply of_nd_ok; auto|split; [exact W2|]]].
  - apply (iswt2_spec junk half w axes norm plan true sh (values ds) (List.length ds) a (map (fun '(h, v, d) => D2 h v d) ds)); auto.
  - destruct (items2_split true a sh (values ds) (List.length ds) _ HV) as (es & E & T & K & _).
    assert (Ees : map (as_dict true) es = map (fun '(h, v, d) => NDict [("da", h); ("ad", v); ("dd", d)]%string) ds).
    { clear -E. revert es E. induction ds as [|[[h v] d] ds IH]; intros es E; cbn [map mapM bind] in E; [injection E as <-; reflexivity|].
      destruct (mapM _ _) as [q| | |] eqn:Em; cbn [bind] in E; try discriminate. injection E as <-. cbn [map as_dict]. f_equal. apply IH. reflexivity. }
    apply (iswtn_spec C fuel junk half w (Some axes) norm plan true sh (values ds) (List.length ds) a (map (as_dict true) es)); auto.
    + intros E0. rewrite E0 in Ln. discriminate.
    + rewrite Ees. reflexivity.
    + unfold last_dict. cbn [rev]. rewrite <- map_rev. assert (Hr : rev ds <> []).
      { intros Er. apply (f_equal (@rev _)) in Er. rewrite rev_involutive in Er. cbn in Er. congruence. }
      destruct (rev ds) as [|[[h v] d] r]; [congruence|]. cbn [map app]. rewrite Ln.
      split; [discriminate|]. intros k u Hi; cbn [In] in Hi; repeat (destruct Hi as [Hi|Hi]; [injection Hi as <- _; reflexivity|]); destruct Hi.
Qed.

End S2D.
