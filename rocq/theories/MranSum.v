(** Sum of the terms of mran and mra2, for any additive inverse. *)
From Coq Require Import Ascii String.
From Verif Require Import Base BaseLemmas CConv Spec Lengths Dwt DwtProofs Swt SwtProofs Nd NdSpec NdLinear Axis AxisProofs Multidim MultidimProofs MultidimFacts MultilevelNd MultilevelNdProofs SwtNd SwtNdArgs Mra MraProofs MranLoop.

Section S.
Variable C : CRing.
Add Ring Cring_ring_mrs : (rth C).
Notation fam := (nat -> string -> nd C).

Definition shape_le (s t : list Z) : Prop := Forall2 (fun a b => a <= b) s t.
Lemma shape_le_refl s : shape_le s s.
Proof. induction s; constructor; auto. lia. Qed.
Lemma valid_shape_le s t : shape_le s t -> forall idx, valid s idx -> valid t idx.
Proof. induction 1; intros [|i idx] V; cbn in *; auto. destruct V. split; [lia|auto]. Qed.

Lemma trim_ok sh (r : sarr C) : sarr_ok C r -> shape_ok sh -> shape_le sh (sshape r) ->
  sarr_ok C (trim_to sh r) /\ sshape (trim_to sh r) = sh /\ forall idx, valid sh idx -> ndget (val C (trim_to sh r)) idx = ndget (val C r) idx.
Proof.
  intros Hr Hs Hle. unfold trim_to, shape_eqb. destruct (list_eq_dec Z.eq_dec (sshape r) sh) as [E|E]; [auto|].
  assert (Em : map (fun '(a, b) => Z.min a b) (combine (sshape r) sh) = sh).
  { clear -Hle. induction Hle; cbn; auto. f_equal; [lia|auto]. }
  rewrite Em. destruct Hr as (O1 & O2 & O3).
  assert (Ok' : sarr_ok C (view r sh)).
  { split; [auto|]. split; [cbn; rewrite O2; clear -Hle; induction Hle; cbn; auto|]. intros idx Hi. apply O3. cbn in Hi. eapply valid_shape_le; eauto. }
  split; auto. split; [reflexivity|]. intros idx V.
  unfold val. rewrite !ndget_ndtab; auto. cbn. eapply valid_shape_le; eauto.
Qed.

Lemma zeros_ok (a : sarr C) : sarr_ok C a -> sarr_ok C (ndzeros_like a) /\ sshape (ndzeros_like a) = sshape a /\ val C (ndzeros_like a) = ndzero (sshape a).
Proof.
  intros (H & _). assert (W : nd_wf (ndzero (C := C) (sshape a))) by (apply ndzero_wf; auto).
  split; [apply of_nd_ok; auto|]. split; [reflexivity|]. apply val_of_nd. auto.
Qed.

Variable n : nat.
Variable shs : nat -> list Z.

(** The dictionaries [ds] with keys [K] carry the arrays of the family [V]. *)
Definition ds_hold (K : list string) (ds : list (dict (sarr C))) (V : fam) : Prop :=
  List.length ds = n /\ forall j d, nth_error ds j = Some d -> map fst d = K /\
    forall k v, dget d k = Some v -> sarr_ok C v /\ sshape v = shs j /\ val C v = V j k.

Lemma dget_key (d : dict (sarr C)) k v : dget d k = Some v -> In k (map fst d).
Proof. intros H. apply dget_In in H. apply in_map with (f := fst) in H. exact H. Qed.

Lemma hold_zero K ds V : ds_hold K ds V -> ds_hold K (map zdict ds) (restr C shs [] V).
Proof.
  intros (L & H). split; [rewrite map_length; auto|]. intros j d Hj. rewrite nth_error_map in Hj.
  destruct (nth_error ds j) as [d0|] eqn:E; [|discriminate]. injection Hj as <-. destruct (H j d0 E) as (HK & Hv).
  split; [rewrite zdict_keys; auto|]. intros k v Hg. rewrite zdict_get in Hg. destruct (dget d0 k) as [v0|] eqn:E0; [|discriminate].
  injection Hg as <-. destruct (Hv k v0 E0) as (V1 & V2 & V3). destruct (zeros_ok v0 V1) as (Z1 & Z2 & Z3). rewrite Z2, Z3, V2. auto.
Qed.
Lemma hold_one K ds V j d k v : ds_hold K ds V -> nth_error ds j = Some d -> dget d k = Some v ->
  ds_hold K (setl j (dset (zdict d) k v) (map zdict ds)) (restr C shs [(j, k)] V).
Proof.
  intros HH Ej Ek. destruct (hold_zero _ _ _ HH) as (L0 & H0). destruct HH as (L & H). split; [rewrite setl_length, map_length; auto|].
  assert (Ez : nth_error (map zdict ds) j = Some (zdict d)) by (apply map_nth_error; auto).
  intros i e Hi. destruct (Nat.eq_dec i j) as [->|Ne].
  - rewrite nth_setl_same in Hi by (apply nth_error_Some; congruence). injection Hi as <-.
    destruct (H0 j (zdict d) Ez) as (HK & Hv). split.
    { rewrite dset_keys; auto. rewrite zdict_keys. exact (dget_key _ _ _ Ek). }
    intros q u Hg. rewrite dget_dset in Hg. unfold restr. cbn [existsb]. unfold pos_eqb. cbn [fst snd]. rewrite Nat.eqb_refl, orb_false_r. cbn [andb].
    rewrite String.eqb_sym in Hg. destruct (String.eqb_spec q k) as [->|Nk].
    + injection Hg as <-. apply (proj2 (H j d Ej)); auto.
    + specialize (Hv q u Hg). exact Hv.
  - rewrite nth_setl_other in Hi by auto. destruct (H0 i e Hi) as (HK & Hv). split; auto. intros q u Hg.
    unfold restr. cbn [existsb]. unfold pos_eqb. cbn [fst snd]. replace (Nat.eqb i j) with false by (symmetry; apply Nat.eqb_neq; auto). cbn [andb orb].
    exact (Hv q u Hg).
Qed.
Lemma hold_fam K ds V : ds_hold K ds V -> fam_ok C n K shs V.
Proof.
  intros (L & H) j k Hj Hk. destruct (nth_error ds j) as [d|] eqn:E; [|apply nth_error_None in E; lia].
  destruct (H j d E) as (HK & Hv). destruct (in_keys d k) as (v & Ev); [rewrite HK; auto|]. destruct (Hv k v Ev) as (V1 & V2 & V3).
  rewrite <- V3. split; [apply val_wf; auto|rewrite nshape_val; auto].
Qed.
Lemma hold_shs K ds V : K <> [] -> ds_hold K ds V -> forall j, (j < n)%nat -> shape_ok (shs j).
Proof.
  intros HK HH j Hj. destruct K as [|k K]; [congruence|]. destruct (hold_fam _ _ _ HH j k Hj (or_introl eq_refl)) as (W & <-). apply W.
Qed.

Definition dummy : sarr C := of_nd (ndzero []).
Definition got (r : res (sarr C)) : sarr C := match r with Ok r => r | _ => dummy end.

Section Main.
Variable sha shT sh : list Z.
Variable T : nd C -> fam -> nd C.
Variable x : list Z -> C.

Lemma psum_pos (f : nat * string -> C) K m : psum C f (flat_map (fun j => map (fun k => (j, k)) K) (seq 0 m)) = psum C (fun j => psum C (fun k => f (j, k)) K) (seq 0 m).
Proof. induction (seq 0 m) as [|j l IH]; cbn; auto. rewrite psum_app, psum_map, IH. reflexivity. Qed.

Theorem mran_sum inverse K a ds V :
  NoDup K -> K <> [] -> ds_hold K ds V -> sarr_ok C a -> sshape a = sha -> additive C n K sha shs T -> (forall a' V', nd_wf a' -> nshape a' = sha -> fam_ok C n K shs V' -> nshape (T a' V') = shT) ->
  (forall a' ds' V', sarr_ok C a' -> sshape a' = sha -> ds_hold K ds' V' ->
     exists r, inverse a' ds' = Ok r /\ sarr_ok C r /\ sshape r = shT /\ val C r = T (val C a') V') ->
  shape_ok sh -> shape_le sh shT -> (forall idx, valid sh idx -> ndget (T (val C a) V) idx = x idx) ->
  exists cA out, mran_loop inverse sh a ds = Ok (cA, out) /\ sarr_ok C cA /\ sshape cA = sh /\ List.length out = n /\
    (forall d, In d out -> map fst d = K /\ forall k v, In (k, v) d -> sarr_ok C v /\ sshape v = sh) /\
    forall idx, valid sh idx -> ndget (val C cA) idx [+] psum C (fun '(_, v) => ndget (val C v) idx) (concat out) = x idx.
Proof.
  intros HK HK0 HH Ha Sa HT HTs Hinv Hsh Hle Hx.
  assert (Hs := hold_shs _ _ _ HK0 HH).
  destruct (Hinv a (map zdict ds) (restr C shs [] V) Ha Sa (hold_zero _ _ _ HH)) as (R0 & E0 & O0 & S0 & V0).
  set (R := fun j k => match nth_error ds j with
     | Some d => match dget d k with Some v => got (inverse (ndzeros_like a) (setl j (dset (zdict d) k v) (map zdict ds))) | None => dummy end
     | None => dummy end).
  assert (HR : forall j d k v, nth_error ds j = Some d -> dget d k = Some v ->
     inverse (ndzeros_like a) (setl j (dset (zdict d) k v) (map zdict ds)) = Ok (R j k) /\ sarr_ok C (R j k) /\ sshape (R j k) = shT /\
     val C (R j k) = T (ndzero sha) (restr C shs [(j, k)] V)).
  { intros j d k v Ed Ev. destruct (zeros_ok a Ha) as (Z1 & Z2 & Z3).
    destruct (Hinv (ndzeros_like a) _ _ Z1 (eq_trans Z2 Sa) (hold_one _ _ _ _ _ _ _ HH Ed Ev)) as (r & Er & Or & Sr & Vr).
    unfold R. rewrite Ed, Ev, Er. cbn [got]. repeat (split; auto). rewrite Vr, Z3, Sa. reflexivity. }
  assert (HR' : forall j k, (j < n)%nat -> In k K -> sarr_ok C (R j k) /\ sshape (R j k) = shT /\ val C (R j k) = T (ndzero sha) (restr C shs [(j, k)] V)).
  { intros j k Hj Hk. destruct HH as (L & H). destruct (nth_error ds j) as [d|] eqn:E; [|apply nth_error_None in E; lia].
    destruct (in_keys d k) as (v & Ev); [rewrite (proj1 (H j d E)); auto|]. apply (HR j d k v); auto. }
  exists (trim_to sh R0), (map (fun j => map (fun k => (k, trim_to sh (R j k))) K) (seq 0 n)).
  split.
  { destruct HH as (L & H). rewrite <- L at 1. apply mran_loop_spec; auto.
    - intros d Hd. apply In_nth_error in Hd as (j & Hj). apply (H j d Hj).
    - intros j d k v Ed Ev. apply (HR j d k v); auto. }
  rewrite <- S0 in Hle. destruct (trim_ok sh R0 O0 Hsh Hle) as (T1 & T2 & T3). split; auto. split; auto.
  split; [rewrite map_length, seq_length; auto|]. split.
  { intros d Hd. apply in_map_iff in Hd as (j & <- & Hj). apply in_seq in Hj. split; [rewrite map_map; cbn [fst]; apply map_id|].
    intros k v Hi. apply in_map_iff in Hi as (q & Eq & Hq). injection Eq as <- <-. destruct (HR' j q) as (Q1 & Q2 & Q3); [lia|auto|].
    rewrite S0, <- Q2 in Hle. destruct (trim_ok sh (R j q) Q1 Hsh Hle) as (P1 & P2 & _). auto. }
  intros idx Vi. rewrite T3 by auto. rewrite V0. rewrite <- (Hx idx Vi).
  assert (Wa : nd_wf (val C a)) by (apply val_wf; auto). assert (Sva : nshape (val C a) = sha) by (rewrite nshape_val; auto).
  rewrite (restr_sum C n K sha shs T (val C a) V idx HT HK Wa Sva (hold_fam _ _ _ HH) Hs).
  - f_equal. unfold all_pos. rewrite psum_pos, psum_concat, psum_map. apply psum_ext. intros j Hj. apply in_seq in Hj.
    rewrite psum_map. apply psum_ext. intros k Hk. destruct (HR' j k) as (Q1 & Q2 & Q3); [lia|auto|].
    rewrite S0, <- Q2 in Hle. destruct (trim_ok sh (R j k) Q1 Hsh Hle) as (_ & _ & P3). rewrite P3 by auto. rewrite Q3. reflexivity.
  - intros P. rewrite HTs; auto.
    + rewrite <- S0. apply (valid_shape_le _ _ Hle); auto.
    + apply restr_ok; auto. apply (hold_fam _ _ _ HH).
Qed.

(** The same for mra2, whose levels are lists (cH, cV, cD). *)
Definition K2 : list string := ["da"; "ad"; "dd"]%string.
Definition ds_hold2 (ds : list (list (sarr C))) (V : fam) : Prop :=
  List.length ds = n /\ forall j d, nth_error ds j = Some d -> List.length d = 3%nat /\
    forall i k v, nth_error d i = Some v -> nth_error K2 i = Some k -> sarr_ok C v /\ sshape v = shs j /\ val C v = V j k.

Lemma K2_inj i i' k : nth_error K2 i = Some k -> nth_error K2 i' = Some k -> i = i'.
Proof. destruct i as [|[|[|i]]], i' as [|[|[|i']]]; cbn; try congruence; try (destruct i; discriminate); try (destruct i'; discriminate). Qed.
Lemma hold_zero2 ds V : ds_hold2 ds V -> ds_hold2 (map (map ndzeros_like) ds) (restr C shs [] V).
Proof.
  intros (L & H). split; [rewrite map_length; auto|]. intros j d Hj. rewrite nth_error_map in Hj.
  destruct (nth_error ds j) as [d0|] eqn:E; [|discriminate]. injection Hj as <-. destruct (H j d0 E) as (HK & Hv).
  split; [rewrite map_length; auto|]. intros i k v Hg Hk. rewrite nth_error_map in Hg. destruct (nth_error d0 i) as [v0|] eqn:E0; [|discriminate].
  injection Hg as <-. destruct (Hv i k v0 E0 Hk) as (V1 & V2 & V3). destruct (zeros_ok v0 V1) as (Z1 & Z2 & Z3). rewrite Z2, Z3, V2. auto.
Qed.
Lemma hold_one2 ds V j d i k v : ds_hold2 ds V -> nth_error ds j = Some d -> nth_error d i = Some v -> nth_error K2 i = Some k ->
  ds_hold2 (setl j (setl i v (map ndzeros_like d)) (map (map ndzeros_like) ds)) (restr C shs [(j, k)] V).
Proof.
  intros HH Ej Ei Ek. destruct (hold_zero2 _ _ HH) as (L0 & H0). destruct HH as (L & H). split; [rewrite setl_length, map_length; auto|].
  assert (Ez : nth_error (map (map ndzeros_like) ds) j = Some (map ndzeros_like d)) by (apply map_nth_error; auto).
  intros q e Hq. destruct (Nat.eq_dec q j) as [->|Ne].
  - rewrite nth_setl_same in Hq by (apply nth_error_Some; congruence). injection Hq as <-.
    destruct (H0 j _ Ez) as (HK & Hv). split; [rewrite setl_length; auto|].
    intros i' k' u Hg Hk'. unfold restr. cbn [existsb]. unfold pos_eqb. cbn [fst snd]. rewrite Nat.eqb_refl, orb_false_r. cbn [andb].
    destruct (String.eqb_spec k' k) as [->|Nk].
    + assert (i' = i) by (eapply K2_inj; eauto). subst i'. rewrite nth_setl_same in Hg.
      * injection Hg as <-. apply (proj2 (H j d Ej) i k v Ei Ek).
      * rewrite map_length. apply nth_error_Some. congruence.
    + assert (i' <> i) by congruence. rewrite nth_setl_other in Hg by auto. exact (Hv i' k' u Hg Hk').
  - rewrite nth_setl_other in Hq by auto. destruct (H0 q e Hq) as (HK & Hv). split; auto. intros i' k' u Hg Hk'.
    unfold restr. cbn [existsb]. unfold pos_eqb. cbn [fst snd]. replace (Nat.eqb q j) with false by (symmetry; apply Nat.eqb_neq; auto). cbn [andb orb].
    exact (Hv i' k' u Hg Hk').
Qed.
Lemma hold_fam2 ds V : ds_hold2 ds V -> fam_ok C n K2 shs V.
Proof.
  intros (L & H) j k Hj Hk. destruct (nth_error ds j) as [d|] eqn:E; [|apply nth_error_None in E; lia].
  destruct (H j d E) as (HL & Hv). apply In_nth_error in Hk as (i & Hi).
  assert (Li : (i < 3)%nat) by (change 3%nat with (List.length K2); apply nth_error_Some; congruence).
  destruct (nth_error d i) as [v|] eqn:Ev; [|apply nth_error_None in Ev; lia]. destruct (Hv i k v Ev Hi) as (V1 & V2 & V3).
  rewrite <- V3. split; [apply val_wf; auto|rewrite nshape_val; auto].
Qed.

Theorem mra2_sum inverse a ds V :
  ds_hold2 ds V -> sarr_ok C a -> sshape a = sha -> additive C n K2 sha shs T ->
  (forall a' V', nd_wf a' -> nshape a' = sha -> fam_ok C n K2 shs V' -> nshape (T a' V') = shT) ->
  (forall a' ds' V', sarr_ok C a' -> sshape a' = sha -> ds_hold2 ds' V' ->
     exists r, inverse a' ds' = Ok r /\ sarr_ok C r /\ sshape r = shT /\ val C r = T (val C a') V') ->
  shape_ok sh -> shape_le sh shT -> (forall idx, valid sh idx -> ndget (T (val C a) V) idx = x idx) ->
  exists cA out, mra2_loop inverse sh a ds = Ok (cA, out) /\ sarr_ok C cA /\ sshape cA = sh /\ List.length out = n /\
    (forall d, In d out -> List.length d = 3%nat /\ forall v, In v d -> sarr_ok C v /\ sshape v = sh) /\
    forall idx, valid sh idx -> ndget (val C cA) idx [+] psum C (fun v => ndget (val C v) idx) (concat out) = x idx.
Proof.
  intros HH Ha Sa HT HTs Hinv Hsh Hle Hx.
  assert (HF := hold_fam2 _ _ HH).
  assert (Hs : forall j, (j < n)%nat -> shape_ok (shs j)).
  { intros j Hj. destruct (HF j "da"%string Hj (or_introl eq_refl)) as (W & <-). apply W. }
  destruct (Hinv a (map (map ndzeros_like) ds) (restr C shs [] V) Ha Sa (hold_zero2 _ _ HH)) as (R0 & E0 & O0 & S0 & V0).
  set (R := fun j i => match nth_error ds j with
     | Some d => match nth_error d i with Some v => got (inverse (ndzeros_like a) (setl j (setl i v (map ndzeros_like d)) (map (map ndzeros_like) ds))) | None => dummy end
     | None => dummy end).
  assert (HR : forall j d i k v, nth_error ds j = Some d -> nth_error d i = Some v -> nth_error K2 i = Some k ->
     inverse (ndzeros_like a) (setl j (setl i v (map ndzeros_like d)) (map (map ndzeros_like) ds)) = Ok (R j i) /\ sarr_ok C (R j i) /\ sshape (R j i) = shT /\
     val C (R j i) = T (ndzero sha) (restr C shs [(j, k)] V)).
  { intros j d i k v Ed Ev Ek. destruct (zeros_ok a Ha) as (Z1 & Z2 & Z3).
    destruct (Hinv (ndzeros_like a) _ _ Z1 (eq_trans Z2 Sa) (hold_one2 _ _ _ _ _ _ _ HH Ed Ev Ek)) as (r & Er & Or & Sr & Vr).
    unfold R. rewrite Ed, Ev, Er. cbn [got]. repeat (split; auto). rewrite Vr, Z3, Sa. reflexivity. }
  assert (HR' : forall j i k, (j < n)%nat -> nth_error K2 i = Some k -> sarr_ok C (R j i) /\ sshape (R j i) = shT /\ val C (R j i) = T (ndzero sha) (restr C shs [(j, k)] V)).
  { intros j i k Hj Hk. destruct HH as (L & H). destruct (nth_error ds j) as [d|] eqn:E; [|apply nth_error_None in E; lia].
    assert (Li : (i < 3)%nat) by (change 3%nat with (List.length K2); apply nth_error_Some; congruence).
    destruct (nth_error d i) as [v|] eqn:Ev; [|apply nth_error_None in Ev; rewrite (proj1 (H j d E)) in Ev; lia]. apply (HR j d i k v); auto. }
  assert (HK : forall i, In i (seq 0 3) -> exists k, nth_error K2 i = Some k).
  { intros i Hi. cbn in Hi. destruct Hi as [<-|[<-|[<-|[]]]]; eexists; reflexivity. }
  exists (trim_to sh R0), (map (fun j => map (fun i => trim_to sh (R j i)) (seq 0 3)) (seq 0 n)).
  split.
  { destruct HH as (L & H). rewrite <- L at 1. apply mra2_loop_spec; auto.
    - intros d Hd. apply In_nth_error in Hd as (j & Hj). apply (H j d Hj).
    - intros j d i v Ed Ev. assert (Hi : In i (seq 0 3)).
      { apply in_seq. split; [lia|]. rewrite <- (proj1 (H j d Ed)). apply nth_error_Some. congruence. }
      destruct (HK i Hi) as (k & Ek). apply (HR j d i k v); auto. }
  rewrite <- S0 in Hle. destruct (trim_ok sh R0 O0 Hsh Hle) as (T1 & T2 & T3). split; auto. split; auto.
  split; [rewrite map_length, seq_length; auto|]. split.
  { intros d Hd. apply in_map_iff in Hd as (j & <- & Hj). apply in_seq in Hj. split; [reflexivity|].
    intros v Hi. apply in_map_iff in Hi as (q & <- & Hq). destruct (HK q Hq) as (k & Ek). destruct (HR' j q k) as (Q1 & Q2 & Q3); [lia|auto|].
    rewrite S0, <- Q2 in Hle. destruct (trim_ok sh (R j q) Q1 Hsh Hle) as (P1 & P2 & _). auto. }
  intros idx Vi. rewrite T3 by auto. rewrite V0. rewrite <- (Hx idx Vi).
  assert (Wa : nd_wf (val C a)) by (apply val_wf; auto). assert (Sva : nshape (val C a) = sha) by (rewrite nshape_val; auto).
  assert (ND : NoDup K2) by (repeat constructor; cbn; intuition discriminate).
  rewrite (restr_sum C n K2 sha shs T (val C a) V idx HT ND Wa Sva HF Hs).
  - f_equal. unfold all_pos. rewrite psum_pos, psum_concat, psum_map. apply psum_ext. intros j Hj. apply in_seq in Hj.
    rewrite psum_map. cbn [seq K2 psum].
    assert (Q : forall i k, nth_error K2 i = Some k -> ndget (val C (trim_to sh (R j i))) idx = ndget (T (ndzero sha) (restr C shs [(j, k)] V)) idx).
    { intros i k Ek. destruct (HR' j i k) as (Q1 & Q2 & Q3); [lia|auto|].
      rewrite S0, <- Q2 in Hle. destruct (trim_ok sh (R j i) Q1 Hsh Hle) as (_ & _ & P3). rewrite P3 by auto. rewrite Q3. reflexivity. }
    rewrite (Q 0%nat _ eq_refl), (Q 1%nat _ eq_refl), (Q 2%nat _ eq_refl). reflexivity.
  - intros P. rewrite HTs; auto.
    + rewrite <- S0. apply (valid_shape_le _ _ Hle); auto.
    + apply restr_ok; auto.
Qed.
End Main.
End S.
