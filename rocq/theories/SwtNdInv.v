(** iswtn inverts swtn. *)
From Coq Require Import Ascii String.
From Verif Require Import Base BaseLemmas CConv Spec Lengths Dwt DwtProofs PR Swt SwtSpec SwtProofs Nd NdSpec NdLinear Axis AxisProofs AxisProofs2 Multidim MultidimProofs MultidimFacts MultilevelNd MultilevelNdProofs SwtNd SwtNdArgs AxisOps NdSynth NdSwtSpec SwtNdBand SwtNdSlices SwtNdLevel SwtNdLevel2 SwtNdFwd.

Section I.
Variable C : CRing.
Variable fuel : nat.
Notation plan_t := (list (nat * wavelet C)).

(** An element of the coefficient list carries the details [Y k]. *)
Definition item_holds (trim : bool) (sh : list Z) (plan : plan_t) (Y : string -> nd C) (it : swtn_item C) : Prop :=
  match it with
  | NArr _ => False
  | NDict d => if trim then details_ok C sh plan d Y
               else (exists a, dget d (all_a (List.length plan)) = Some a) /\ details_ok C sh plan (dremove d (all_a (List.length plan))) Y
  end.
(** [cs] carries the details of the levels [n], ..., [1]. *)
Fixpoint coeffs_hold (trim : bool) (sh : list Z) (plan : plan_t) (Y : nat -> string -> nd C) (n : nat) (cs : list (swtn_item C)) : Prop :=
  match n, cs with
  | O, [] => True
  | S n', it :: cs' => item_holds trim sh plan (Y n) it /\ coeffs_hold trim sh plan Y n' cs'
  | _, _ => False
  end.

Lemma details_ext sh (plan : plan_t) D Y Y' : (forall k, k <> all_a (List.length plan) -> Y k = Y' k) ->
  details_ok C sh plan D Y -> details_ok C sh plan D Y'.
Proof.
  intros E (H1 & H2). split; auto. intros k v Hi. destruct (H1 k v Hi) as (A & B & D1 & D2 & D3). rewrite <- E; auto.
Qed.

(** The inverse of all levels, for arbitrary coefficients. *)
Fixpoint isynth (half : C) (sh : list Z) (plan : plan_t) (Y : nat -> string -> nd C) (n : nat) (a : nd C) : nd C :=
  match n with
  | O => a
  | S n' => isynth half sh plan Y n' (ilev C half (Z.of_nat n) sh plan (fun k => if String.eqb k (all_a (List.length plan)) then a else Y n k))
  end.

Lemma plan_lev_le L l sh (plan : plan_t) : 1 <= l <= L -> plan_lev C fuel L sh plan -> plan_lev C fuel l sh plan.
Proof.
  intros Hl (A & B & D & E). split; auto. split; auto. split; auto. intros p Hp. destruct (E p Hp) as (E1 & E2 & E3 & E4 & E5).
  split; auto. split; auto. split; auto. apply Z.divide_trans with (2 ^ L); auto. apply pow2_div. lia.
Qed.

Lemma ilev_wf half l sh (plan : plan_t) Y : shape_ok sh -> nd_wf (ilev C half l sh plan Y).
Proof. intros H. apply ndtab_wf; auto. Qed.

Lemma iswtn_loop_spec junk half sh (plan : plan_t) trim Y : plan <> [] -> forall n cs a,
  plan_lev C fuel (Z.of_nat n) sh plan -> nd_wf a -> nshape a = sh -> coeffs_hold trim sh plan Y n cs ->
  snd (iswtn_loop fuel junk half (zaxes C plan) (map snd plan) (List.length plan) trim a cs) = Ok (isynth half sh plan Y n a).
Proof.
  intros Hne. induction n as [|n IH]; intros cs a HP Wa Sa HC; destruct cs as [|it cs]; cbn [coeffs_hold] in HC; try contradiction.
  - reflexivity.
  - destruct HC as (Hi & HC). destruct it as [b|d]; [contradiction|]. cbn [iswtn_loop isynth].
    assert (Hlen : Z.of_nat n = zlen cs).
    { clear -HC. revert cs HC. induction n as [|n IH]; intros [|c cs] H; cbn [coeffs_hold] in H; try contradiction; [reflexivity|].
      unfold zlen in *. cbn [List.length]. specialize (IH cs (proj2 H)). lia. }
    set (Y' := fun k => if String.eqb k (all_a (List.length plan)) then a else Y (S n) k).
    assert (Ya : Y' (all_a (List.length plan)) = a) by (unfold Y'; rewrite String.eqb_refl; auto).
    assert (LV : forall D, details_ok C sh plan D (Y (S n)) ->
      iswtn_level fuel junk half (zaxes C plan) (map snd plan) (List.length plan) (2 ^ zlen cs) a D = Ok (ilev C half (Z.of_nat (S n)) sh plan Y')).
    { intros D HD. pose proof (level_spec C fuel junk half (Z.of_nat (S n)) sh plan D Y') as LS. rewrite Ya in LS.
      replace (Z.of_nat (S n) - 1) with (zlen cs) in LS by lia. apply LS; auto; [lia|].
      apply (details_ext sh plan D (Y (S n))); auto. intros k Hk. unfold Y'. destruct (String.eqb_spec k (all_a (List.length plan))); congruence. }
    assert (HP' : plan_lev C fuel (Z.of_nat n) sh plan).
    { destruct HP as (A1 & A2 & A3 & A4). split; auto. split; auto. split; auto. intros p Hp. destruct (A4 p Hp) as (E1 & E2 & E3 & E4).
      split; auto. split; auto. split; auto. apply Z.divide_trans with (2 ^ Z.of_nat (S n)); auto. apply pow2_div. lia. }
    assert (NX : snd (iswtn_loop fuel junk half (zaxes C plan) (map snd plan) (List.length plan) trim (ilev C half (Z.of_nat (S n)) sh plan Y') cs)
      = Ok (isynth half sh plan Y n (ilev C half (Z.of_nat (S n)) sh plan Y'))).
    { apply IH; auto. apply ilev_wf. apply HP. }
    destruct trim; cbn [item_holds] in Hi.
    + rewrite (LV _ Hi). destruct (iswtn_loop _ _ _ _ _ _ _ _ _) as [c r]. exact NX.
    + destruct Hi as ((b & Hb) & Hi). rewrite Hb. rewrite (LV _ Hi). destruct (iswtn_loop _ _ _ _ _ _ _ _ _) as [c r]. exact NX.
Qed.

Lemma S12_ext l sh (plan : plan_t) fs os (Y Y' : string -> nd C) : (forall k, In k (ad_keys (List.length plan)) -> Y k = Y' k) ->
  Rr C l sh plan fs os Y = Rr C l sh plan fs os Y'.
Proof.
  intros E. unfold Rr. f_equal. apply synth_ext. intros k Hk. rewrite map_length in Hk. rewrite E; auto.
Qed.
Lemma ilev_ext half l sh (plan : plan_t) (Y Y' : string -> nd C) : shape_ok sh -> (forall k, In k (ad_keys (List.length plan)) -> Y k = Y' k) ->
  ilev C half l sh plan Y = ilev C half l sh plan Y'.
Proof.
  intros Hs E. unfold ilev. apply ndtab_ext; auto. intros idx V. f_equal. generalize (@r0 C). generalize (product 2 (List.length plan)).
  induction l0 as [|o L IH]; intros a; cbn [fold_left]; auto. rewrite (S12_ext l sh plan _ o Y Y' E). apply IH.
Qed.

(** Perfect reconstruction over all levels. *)
Lemma isynth_swt half (plan plan' : plan_t) (x : nd C) : half [+] half = r1 -> nd_wf x -> plan_pair C plan plan' -> (forall p, In p plan -> wf_bank (snd p)) ->
  forall n, plan_lev C fuel (Z.of_nat n) (nshape x) plan' ->
  isynth half (nshape x) plan' (fun j k => swt_band (Z.of_nat j) k plan (swtn_approx plan 0 (j - 1) x)) n (swtn_approx plan 0 n x) = x.
Proof.
  intros Hh Hx HPP HW. assert (Lp : List.length plan' = List.length plan) by (clear -HPP; induction HPP; cbn; congruence).
  induction n as [|n IH]; intros HP; [reflexivity|]. cbn [isynth].
  transitivity (isynth half (nshape x) plan' (fun j k => swt_band (Z.of_nat j) k plan (swtn_approx plan 0 (j - 1) x)) n (swtn_approx plan 0 n x)).
  - f_equal. replace (S n - 1)%nat with n by lia.
    transitivity (ilev C half (Z.of_nat (S n)) (nshape x) plan' (fun k => swt_band (Z.of_nat (S n)) k plan (swtn_approx plan 0 n x))).
    + apply ilev_ext; [apply Hx|]. intros k Hk. destruct (String.eqb_spec k (all_a (List.length plan'))) as [->|]; auto.
      rewrite Lp, low_all_a. cbn [swtn_approx]. f_equal; lia.
    + rewrite <- (approx_shape C plan 0 n x). apply (ilev_swt C half _ _ plan plan' fuel); auto; [lia|apply approx_wf; auto|].
      rewrite approx_shape. auto.
  - apply IH. destruct HP as (A1 & A2 & A3 & A4). split; auto. split; auto. split; auto. intros p Hp. destruct (A4 p Hp) as (E1 & E2 & E3 & E4).
    split; auto. split; auto. split; auto. apply Z.divide_trans with (2 ^ Z.of_nat (S n)); auto. apply pow2_div. lia.
Qed.

(** The top level of iswtn. *)
Lemma key_length_items (n : nat) (d : dict (sarr C)) : d <> [] -> (forall k v, In (k, v) d -> String.length k = n) -> key_length (NDict d) = Ok n.
Proof.
  intros Hne H. destruct d as [|e d]; [congruence|]. unfold key_length. f_equal.
  assert (G : forall (l : dict (sarr C)) m, (forall k v, In (k, v) l -> String.length k = n) -> (m <= n)%nat ->
     fold_left (fun m '(k, _) => Nat.max m (String.length k)) l m = match l with [] => m | _ => n end).
  { induction l as [|[k v] l IH]; intros m Hl Hm; cbn [fold_left]; auto.
    rewrite (Hl k v) by (left; auto). rewrite IH; [|intros; apply (Hl k0 v0); right; auto|lia]. destruct l; lia. }
  apply (G (e :: d) 0%nat); auto. lia.
Qed.

Definition last_dict (cs : list (swtn_item C)) (nt : nat) : Prop :=
  match rev cs with NDict d :: _ => d <> [] /\ forall k v, In (k, v) d -> String.length k = nt | _ => False end.

Theorem iswtn_spec junk half w axes norm (plan0 : plan_t) trim sh Y n a cs coeffs :
  let plan := norm_plan norm plan0 in
  sarr_ok C a -> sshape a = sh -> swt_resolves (zlen sh) w (default_axes (zlen sh) axes) plan0 ->
  plan <> [] -> plan_lev C fuel (Z.of_nat n) sh plan -> coeffs_hold trim sh plan Y n cs ->
  (if trim then coeffs = NArr a :: cs else coeffs = cs /\ match cs with NDict d :: _ => dget d (all_a (List.length plan)) = Some a | _ => False end) ->
  last_dict coeffs (List.length plan) ->
  snd (iswtn fuel junk half coeffs w axes norm) = Ok (of_nd (isynth half sh plan Y n (val C a))).
Proof.
  intros plan Ha Hsh (R1 & R2) Hne HP HC Hco HL. unfold iswtn.
  assert (EA : map (fun p => Z.of_nat (fst p)) plan0 = zaxes C plan).
  { unfold plan, norm_plan, zaxes. rewrite map_map. reflexivity. }
  assert (EW : map (norm_w norm) (map snd plan0) = map snd plan).
  { unfold plan, norm_plan. rewrite !map_map. reflexivity. }
  assert (Ln : List.length plan0 = List.length plan) by (unfold plan, norm_plan; symmetry; apply map_length).
  assert (En : ndim a = zlen sh) by (unfold ndim; rewrite Hsh; auto).
  assert (EK : match rev coeffs with [] => Err IndexError | it :: _ => key_length it end = Ok (List.length plan)).
  { unfold last_dict in HL. destruct (rev coeffs) as [|[b|d] t]; try contradiction. apply key_length_items; apply HL. }
  rewrite EK. clear EK.
  assert (EL : snd (iswtn_loop fuel junk half (zaxes C plan) (map snd plan) (List.length plan) trim (val C a) cs) = Ok (isynth half sh plan Y n (val C a))).
  { apply iswtn_loop_spec; auto using val_wf; rewrite nshape_val; auto. }
  assert (ED : distinct (zaxes C plan) = List.length plan).
  { rewrite distinct_NoDup; [unfold zaxes; apply map_length|]. apply zaxes_nodup. apply HP. }
  assert (Body : forall c0, snd (
     let output := val C a in let n := ndim a in
              let axes := match axes with None => tab n (fun i => i) | Some l => l end in
              let axes := norm_axes n axes in
              if negb (Nat.eqb (List.length axes) (distinct axes)) then (coeffs, Err ValueError) else
              if negb (Nat.eqb (List.length plan) (List.length axes)) then (coeffs, Err ValueError) else
              match objs_per_axis w (List.length axes) with
              | Ok ws =>
                  let ws := map (norm_w norm) ws in
                  let '(cs', r) := iswtn_loop fuel junk half axes ws (List.length plan) trim output cs in
                  ((if trim then c0 :: cs' else cs'), (o <- r ;; Ok (of_nd o)))
              | OOB => (coeffs, OOB) | Fuel => (coeffs, Fuel) | Err e => (coeffs, Err e)
              end) = Ok (of_nd (isynth half sh plan Y n (val C a)))).
  { intros c0. cbv zeta. rewrite En. change (match axes with None => tab (zlen sh) (fun i => i) | Some l => l end) with (default_axes (zlen sh) axes).
    rewrite R1, EA, ED. unfold zaxes at 1 2 3. rewrite map_length, Nat.eqb_refl. cbn [negb]. rewrite <- Ln, R2, Ln, EW.
    destruct (iswtn_loop _ _ _ _ _ _ _ _ _) as [cs' r]. cbn [snd] in *. rewrite EL. reflexivity. }
  destruct trim.
  - subst coeffs. apply (Body (NArr a)).
  - destruct Hco as (-> & Hc). destruct cs as [|[b|d] rest]; try contradiction. unfold dgetE. rewrite Hc. cbn [bind]. apply (Body (NDict d)).
Qed.

(** ** Composition *)

Lemma swtn_details trim (plan : plan_t) (x : nd C) j : nd_wf x ->
  item_holds trim (nshape x) plan (fun k => swt_band (Z.of_nat j) k plan (swtn_approx plan 0 (j - 1) x)) (swtn_level trim plan 0 x j).
Proof.
  intros Hx.
  assert (HD : details_ok C (nshape x) plan (map (fun k => (k, of_nd (swt_band (0 + Z.of_nat j) k plan (swtn_approx plan 0 (j - 1) x)))) (tl (ad_keys (List.length plan))))
      (fun k => swt_band (Z.of_nat j) k plan (swtn_approx plan 0 (j - 1) x))).
  { pose proof (ad_keys_NoDup (List.length plan)) as Hd. rewrite ad_keys_hd in Hd. inversion Hd as [|? ? Hni Hnd]; subst.
    assert (W : forall k, nd_wf (swt_band (Z.of_nat j) k plan (swtn_approx plan 0 (j - 1) x))) by (intros; apply band_wf', approx_wf; auto).
    split.
    - intros k v Hi. apply in_map_iff in Hi. destruct Hi as (k' & E & Hk'). injection E as <- <-.
      split; [rewrite ad_keys_hd; right; auto|]. split; [intros ->; contradiction|]. split; [apply of_nd_ok; auto|].
      split; [cbn [of_nd sshape]; rewrite band_shape', approx_shape; auto|]. apply val_of_nd; auto.
    - intros k Hk Hn. rewrite ad_keys_hd in Hk. destruct Hk as [<-|Hk]; [congruence|].
      eexists. apply (dget_map (fun k => of_nd (swt_band (0 + Z.of_nat j) k plan (swtn_approx plan 0 (j - 1) x)))). auto. }
  unfold swtn_level, item_holds. destruct trim; auto. split.
  - rewrite ad_keys_hd. cbn [map dget]. rewrite String.eqb_refl. eauto.
  - rewrite ad_keys_hd at 1. cbn [map dremove]. rewrite String.eqb_refl. auto.
Qed.

Lemma swtn_coeffs trim (plan plan' : plan_t) (x : nd C) n : nd_wf x -> List.length plan' = List.length plan ->
  coeffs_hold trim (nshape x) plan' (fun j k => swt_band (Z.of_nat j) k plan (swtn_approx plan 0 (j - 1) x)) n (map (swtn_level trim plan 0 x) (rev (seq 1 n))).
Proof.
  intros Hx Lp. induction n as [|n IH]; [exact I|]. rewrite seq_S, rev_app_distr. cbn [rev app map coeffs_hold Nat.add].
  split; auto. pose proof (swtn_details trim plan x (S n) Hx) as H. unfold item_holds, details_ok in *. unfold swtn_level in *. rewrite Lp. exact H.
Qed.

Theorem iswtn_swtn_plan junk half w' axes trim norm norm' plan0 plan0' (x : nd C) n :
  let plan := norm_plan norm plan0 in let plan' := norm_plan norm' plan0' in
  half [+] half = r1 -> nd_wf x -> (1 <= n)%nat ->
  swt_resolves (zlen (nshape x)) w' (default_axes (zlen (nshape x)) axes) plan0' -> plan' <> [] ->
  plan_lev C fuel (Z.of_nat n) (nshape x) plan' -> plan_pair C plan plan' -> (forall p, In p plan -> wf_bank (snd p)) ->
  snd (iswtn fuel junk half (swtn_result trim plan 0 n x) w' axes norm') = Ok (of_nd x).
Proof.
  intros plan plan' Hh Hx Hn R Hne HP HPP HW.
  assert (Lp : List.length plan' = List.length plan) by (clear -HPP; induction HPP; cbn; congruence).
  assert (Wa : nd_wf (swtn_approx plan 0 n x)) by (apply approx_wf; auto).
  rewrite (iswtn_spec junk half w' axes norm' plan0' trim (nshape x) (fun j k => swt_band (Z.of_nat j) k plan (swtn_approx plan 0 (j - 1) x)) n
    (of_nd (swtn_approx plan 0 n x)) (map (swtn_level trim plan 0 x) (rev (seq 1 n)))); auto.
  - rewrite val_of_nd by auto. rewrite isynth_swt; auto.
  - apply of_nd_ok; auto.
  - cbn [of_nd sshape]. apply approx_shape.
  - apply swtn_coeffs; auto.
  - unfold swtn_result. destruct trim; cbn [app]; auto. split; auto. fold plan'. rewrite Lp.
    destruct n as [|n]; [lia|]. rewrite seq_S, rev_app_distr. cbn [rev app map Nat.add]. unfold swtn_level. rewrite ad_keys_hd. cbn [map dget]. rewrite String.eqb_refl.
    do 2 f_equal. rewrite low_all_a. cbn [swtn_approx]. replace (S n - 1)%nat with n by lia. reflexivity.
  - unfold last_dict, swtn_result. rewrite rev_app_distr, <- map_rev, rev_involutive. destruct n as [|n]; [lia|]. cbn [seq map app].
    unfold swtn_level. fold plan'. rewrite Lp. assert (Hpl : plan <> []) by (intros E; rewrite E in Lp; destruct plan'; cbn in Lp; congruence).
    split.
    + destruct plan as [|p P]; [congruence|]. cbn [List.length]. intros E. apply map_eq_nil in E. destruct trim.
      * cbn [ad_keys] in E. rewrite (ad_keys_hd (List.length P)) in E. cbn [map app tl] in E. destruct (map _ (tl _)); discriminate.
      * rewrite ad_keys_hd in E. discriminate.
    + intros k v Hi. apply in_map_iff in Hi. destruct Hi as (k' & E & Hk). injection E as <- <-. apply ad_keys_length.
      destruct trim; auto. rewrite ad_keys_hd. right; auto.
Qed.

Lemma plan_pair_norm (norm : option (C * C)) (plan0 : plan_t) :
  match norm with Some (sq2, isq2) => sq2 [*] isq2 = r1 | None => True end -> (forall p, In p plan0 -> pr_wavelet (snd p)) ->
  plan_pair C (norm_plan (option_map snd norm) plan0) (norm_plan (option_map fst norm) plan0).
Proof.
  intros Hn Hpr. induction plan0 as [|p P IH]; cbn; [constructor|]. constructor; [|apply IH; intros; apply Hpr; right; auto].
  cbn [fst snd]. split; auto. specialize (Hpr p (or_introl eq_refl)). destruct norm as [[sq2 isq2]|]; cbn [option_map fst snd norm_w].
  - apply rescale_pair; auto. transitivity (sq2 [*] isq2); auto. clear. destruct C as [? ? ? ? ? ? ? rt]. cbn in *. apply (Rmul_comm rt).
  - apply pr_pair_self; auto.
Qed.

Lemma norm_w_wf norm (w : wavelet C) : wf_bank w -> wf_bank (norm_w norm w).
Proof. destruct norm; cbn; auto using rescale_wf. Qed.
Lemma norm_w_len norm (w : wavelet C) : dec_len (norm_w norm w) = dec_len w.
Proof. destruct norm; cbn [norm_w]; auto using rescale_len. Qed.
Lemma norm_plan_ok L sh norm (plan : plan_t) : swt_plan_ok fuel L sh plan -> swt_plan_ok fuel L sh (norm_plan norm plan).
Proof.
  intros (A & B & D & E). split; [destruct plan; cbn; congruence|]. split; auto. split; [unfold norm_plan; rewrite map_map; exact D|].
  intros p Hp. apply in_map_iff in Hp. destruct Hp as (q & <- & Hq). destruct (E q Hq) as (E1 & E2 & E3 & E4 & E5). cbn [fst snd].
  rewrite norm_w_len. exact (conj E1 (conj E2 (conj E3 (conj (norm_w_wf norm _ E4) E5)))).
Qed.
Lemma plan_ok_lev L sh (plan : plan_t) : shape_ok sh -> swt_plan_ok fuel L sh plan -> plan_lev C fuel L sh plan.
Proof.
  intros Hs (A & B & D & E). split; auto. split; auto. split; auto. intros p Hp. destruct (E p Hp) as (E1 & E2 & E3 & E4 & E5). 
  split; auto. split; auto. split; auto. split; auto. apply E5.
Qed.

Theorem iswtn_swtn junk half (data : sarr C) w level axes trim norm plan :
  half [+] half = r1 -> match norm with Some (sq2, isq2) => sq2 [*] isq2 = r1 | None => True end ->
  sarr_ok C data -> 1 <= ndim data <= 64 -> 1 <= level ->
  swt_resolves (ndim data) w (default_axes (ndim data) axes) plan -> swt_plan_ok fuel level (sshape data) plan ->
  (forall p, In p plan -> pr_wavelet (snd p)) ->
  exists cs, swtn fuel junk data w level 0 axes trim (option_map snd norm) = Ok cs /\
    snd (iswtn fuel junk half cs w axes (option_map fst norm)) = Ok (of_nd (val C data)).
Proof.
  intros Hh Hn Hok Hnd HL R HP Hpr. eexists. split.
  - apply (swtn_spec C fuel junk data w level 0 axes trim (option_map snd norm) plan); auto; [lia|]. apply norm_plan_ok. auto.
  - apply iswtn_swtn_plan with (norm := option_map snd norm) (plan0 := plan) (plan0' := plan); auto.
    + apply val_wf; auto.
    + lia.
    + destruct HP as (A & _). destruct plan; cbn; congruence.
    + rewrite nshape_val, Z2Nat.id by lia. apply plan_ok_lev; [rewrite <- (nshape_val C data); apply val_wf; auto|]. apply norm_plan_ok; auto.
    + apply plan_pair_norm; auto.
    + intros p Hp. destruct (norm_plan_ok level (sshape data) (option_map snd norm) plan HP) as (_ & _ & _ & E). apply (E p Hp).
Qed.

End I.
