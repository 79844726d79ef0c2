(** Consequences of MultidimProofs.v in the form used by the property files. *)
From Coq Require Import Ascii String.
From Verif Require Import Base BaseLemmas CConv Spec ExtLemmas Lengths Dwt DwtProofs PR Linear Swt SwtProofs Nd NdSpec NdLinear Axis AxisProofs AxisProofs2 Multidim MultidimProofs.
From Coq Require Import Permutation.

Section MF.
Variable C : CRing.
Variable fuel : nat.
Variable junk : Z -> C.

(** ** The one-sample extension only adds samples *)
Lemma valid_grow sh : forall idx k n, valid sh idx -> nthz k sh <= n -> valid (setn k n sh) idx.
Proof.
  induction sh as [|s sh IH]; intros [|i idx] k n Hv Hn.
  - rewrite setn_nil. auto.
  - destruct Hv.
  - destruct Hv.
  - destruct Hv as (H1 & H2). destruct k; cbn in *; split; auto; lia.
Qed.

Lemma pax_get ax m (y : nd C) idx : nd_wf y -> (ax < List.length (nshape y))%nat -> valid (nshape y) idx ->
  ndget (pax C ax m y) idx = ndget y idx.
Proof.
  intros Hy Ha Hv. unfold pax. pose proof (valid_nth _ _ ax Hv Ha) as Hn.
  rewrite ndget_along by (apply valid_grow; auto; lia).
  unfold pad1. rewrite (zlen_line y ax idx Hy). rewrite gz_tab by lia.
  rewrite ext_in by (rewrite (zlen_line y ax idx Hy); lia).
  unfold line. rewrite gz_tab by lia. rewrite setn_nthz. reflexivity.
Qed.

(** Shape after extending the odd axes among [axes]. *)
Definition odd_up (axes : list nat) (sh : list Z) : list Z :=
  map (fun k => let n := nthz k sh in if in_dec Nat.eq_dec k axes then n + n mod 2 else n) (seq 0 (List.length sh)).

Lemma nth_ext' (a b : list Z) : List.length a = List.length b -> (forall k, (k < List.length a)%nat -> nthz k a = nthz k b) -> a = b.
Proof. intros Hl H. apply (nth_ext _ _ 0 0); auto. Qed.

Lemma nthz_map_seq (f : nat -> Z) n k : (k < n)%nat -> nthz k (map f (seq 0 n)) = f k.
Proof.
  intros H. unfold nthz. rewrite (nth_indep _ 0 (f O)) by (rewrite map_length, seq_length; auto).
  rewrite map_nth, seq_nth by auto. reflexivity.
Qed.

Lemma paxs_wf plan (x : nd C) : nd_wf x -> nd_wf (paxs C plan x).
Proof. intros H. induction plan; cbn [paxs]; auto. apply pax_wf. auto. Qed.

Lemma paxs_len plan (x : nd C) : List.length (nshape (paxs C plan x)) = List.length (nshape x).
Proof. induction plan; cbn [paxs]; auto. rewrite pax_shape, setn_length. auto. Qed.

Lemma paxs_shape plan (x : nd C) : nd_wf x -> (forall s, In s plan -> (st_ax C s < List.length (nshape x))%nat) ->
  nshape (paxs C plan x) = odd_up (map (st_ax C) plan) (nshape x).
Proof.
  intros Hx Ha. apply nth_ext'.
  - rewrite paxs_len. unfold odd_up. rewrite map_length, seq_length. auto.
  - intros k Hk. rewrite paxs_len in Hk. unfold odd_up. rewrite nthz_map_seq by auto.
    induction plan as [|s p IH]; cbn [paxs map]; auto.
    rewrite pax_shape. cbv zeta in *. specialize (IH (fun t Ht => Ha t (or_intror Ht))).
    assert (0 <= nthz k (nshape x)) by (apply shape_ok_nth; apply Hx).
    destruct (Nat.eq_dec k (st_ax C s)) as [->|Hne].
    + rewrite nthz_setn by (rewrite paxs_len; auto). rewrite IH.
      destruct (in_dec Nat.eq_dec (st_ax C s) (st_ax C s :: map (st_ax C) p)) as [_|Hn]; [|exfalso; apply Hn; left; auto].
      destruct (in_dec _ _ _); lia.
    + rewrite nthz_setn_ne by auto. rewrite IH.
      destruct (in_dec Nat.eq_dec k (map (st_ax C) p)) as [Hi|Hi];
      destruct (in_dec Nat.eq_dec k (st_ax C s :: map (st_ax C) p)) as [Hj|Hj]; auto.
      * exfalso. apply Hj. right; auto.
      * destruct Hj as [Hj|Hj]; [congruence|tauto].
Qed.

Lemma paxs_get plan (x : nd C) idx : nd_wf x -> (forall s, In s plan -> (st_ax C s < List.length (nshape x))%nat) ->
  valid (nshape x) idx -> valid (nshape (paxs C plan x)) idx /\ ndget (paxs C plan x) idx = ndget x idx.
Proof.
  intros Hx Ha Hv. induction plan as [|s p IH]; cbn [paxs]; auto.
  destruct (IH (fun t Ht => Ha t (or_intror Ht))) as (V & E). split.
  - rewrite pax_shape. apply valid_grow; auto.
    assert (0 <= nthz (st_ax C s) (nshape (paxs C p x))) by (apply shape_ok_nth; apply paxs_wf; auto). lia.
  - rewrite pax_get; auto; [apply paxs_wf; auto|]. rewrite paxs_len. apply Ha. left; auto.
Qed.

Lemma paxs_crop plan (x : nd C) : nd_wf x -> (forall s, In s plan -> (st_ax C s < List.length (nshape x))%nat) ->
  ndcrop (nshape x) (paxs C plan x) = x.
Proof.
  intros Hx Ha. unfold ndcrop. rewrite <- (ndtab_ndget x) at 3 by auto. apply ndtab_ext; [apply Hx|].
  intros idx Hv. apply paxs_get; auto.
Qed.

(** ** idwtn of a full dictionary *)
Lemma ad_keys_cons n : exists k0 t, ad_keys n = k0 :: t.
Proof. induction n as [|n (k0 & t & E)]; cbn; eauto. rewrite E. cbn. eauto. Qed.

(** idwtn on a dictionary of arrays of one shape, all keys of length [n]. *)
Lemma idwtn_full (D : dict (sarr C)) n sh w m axes : D <> [] ->
  (forall k v, In (k, v) D -> String.length k = n /\ all_ad k = true /\ sshape v = sh) ->
  idwtn fuel junk (map (fun '(k, v) => (k, Some v)) D) w m axes =
  (let N := match axes with None => Z.of_nat n | Some _ => zlen sh end in
   let axes := norm_axes N (default_axes N axes) in
   modes <- objs_per_axis m (List.length axes) ;;
   wavelets <- objs_per_axis w (List.length axes) ;;
   let steps := combine axes (combine wavelets modes) in
   r <- foldM (idwtn_step fuel junk N) (map (fun '(k, v) => (k, Some v)) D)
          (rev (combine (seq 0 (List.length steps)) steps)) ;;
   match dget r EmptyString with Some v => Ok v | None => Err KeyError end).
Proof.
  intros Hne HD. unfold idwtn.
  assert (F0 : filter (fun '(_, v) => match v with None => false | Some _ => true end) (map (fun '(k, v) => (k, Some v)) D)
    = map (fun '(k, v) => (k, Some v)) D) by (clear; induction D as [|[k v] D IH]; cbn; auto; f_equal; auto).
  rewrite F0. unfold fix_coeffs.
  assert (F1 : existsb (fun '(_, v) => match v with None => true | Some _ => false end) (map (fun '(k, v) => (k, Some v)) D) = false)
    by (clear; induction D as [|[k v] D IH]; cbn; auto).
  rewrite F1.
  assert (F2 : existsb (fun '(k, _) => negb (all_ad k)) (map (fun '(k, v) => (k, Some v)) D) = false).
  { clear Hne F0 F1. induction D as [|[k v] D IH]; cbn [map existsb]; auto.
    destruct (HD k v (or_introl eq_refl)) as (_ & -> & _). cbn. apply IH. intros; apply HD; right; auto. }
  rewrite F2. clear F0 F1 F2. rewrite map_map.
  assert (F3 : map (fun x : string * sarr C => let '(k, _) := let '(k, v) := x in (k, Some v) in String.length k) D = repeat n (List.length D)).
  { clear Hne. induction D as [|[k v] D IH]; cbn [map List.length repeat]; auto.
    destruct (HD k v (or_introl eq_refl)) as (-> & _). f_equal. apply IH. intros; apply HD; right; auto. }
  rewrite F3. clear F3.
  assert (F4 : forallb (fun n0 => Nat.eqb n0 (hd 0%nat (repeat n (List.length D)))) (repeat n (List.length D)) = true).
  { destruct D as [|e D]; [congruence|]. cbn [List.length repeat hd]. apply forallb_forall. intros y Hy.
    change (n :: repeat n (List.length D)) with (repeat n (S (List.length D))) in Hy. apply repeat_spec in Hy. subst. apply Nat.eqb_refl. }
  rewrite F4. cbn [negb bind]. clear F4.
  assert (F5 : flat_map (fun '(k, v) => match v with Some a => [(k, a)] | None => [] end) (map (fun '(k, v) => (k, Some v)) D) = D)
    by (clear; induction D as [|[k v] D IH]; cbn; auto; f_equal; auto).
  rewrite F5. clear F5. destruct D as [|[k0 v0] rest]; [congruence|].
  assert (E1 : existsb (fun '(_, v) => negb (shape_eqb (sshape v) (sshape v0))) rest = false).
  { destruct (HD k0 v0 (or_introl eq_refl)) as (_ & _ & ->).
    assert (G : forall k v, In (k, v) rest -> sshape v = sh) by (intros; apply (HD k v); right; auto).
    clear -G. induction rest as [|[k v] t IH]; cbn; auto. rewrite (G k v) by (left; auto). unfold shape_eqb at 1.
    destruct (list_eq_dec _ _ _) as [_|Hn]; [|congruence]. cbn. apply IH. intros k' v' Hi; apply (G k' v'); right; auto. }
  rewrite E1. destruct (HD k0 v0 (or_introl eq_refl)) as (-> & _ & ->). destruct axes; reflexivity.
Qed.

(** ** C23 *)
Lemma dget_some {A} (D : dict A) k : dget (map (fun '(k, v) => (k, Some v)) D) k = option_map Some (dget D k).
Proof. induction D as [|[k' v'] D IH]; cbn; auto. destruct (String.eqb k' k); auto. Qed.
Lemma dget_In {A} (D : dict A) k v : dget D k = Some v -> In (k, v) D.
Proof.
  induction D as [|[k' v'] D IH]; cbn; [discriminate|]. destruct (String.eqb_spec k' k) as [->|].
  - intros E. injection E as ->. left; auto.
  - intros E. right; auto.
Qed.

Theorem idwtn_pr (D : dict (sarr C)) (x : nd C) w m axes plan B :
  nd_wf x -> plan_good C fuel B (nshape x) plan -> (forall s, In s plan -> pr_wavelet (st_w C s)) ->
  resolves C (zlen (nshape x)) w m (default_axes (zlen (nshape x)) axes) plan ->
  (forall k v, In (k, v) D -> In k (ad_keys (List.length plan)) /\ sarr_ok C v /\ val C v = band C k plan x) ->
  (forall k, In k (ad_keys (List.length plan)) -> exists v, dget D k = Some v) ->
  exists r, idwtn fuel junk (map (fun '(k, v) => (k, Some v)) D) w m axes = Ok (Some r) /\ sarr_ok C r /\ val C r = paxs C plan x.
Proof.
  intros Hx Hg Hpr (R1 & R2 & R3) HD Hfull.
  pose proof (plan_good_ok _ _ _ _ _ Hg) as Hpo.
  set (sh := fold_left (fun sh s => step_shape C s sh) plan (nshape x)).
  assert (Hne : D <> []).
  { destruct (ad_keys_cons (List.length plan)) as (k0 & t & E). destruct (Hfull k0) as (v & Hv); [rewrite E; left; auto|].
    intros ->. discriminate. }
  assert (Lsh : List.length sh = List.length (nshape x)).
  { unfold sh. generalize (nshape x). clear. induction plan as [|s p IH]; intros l; cbn; auto.
    rewrite IH. unfold step_shape. apply setn_length. }
  assert (HN : match axes with None => Z.of_nat (List.length plan) | Some _ => zlen sh end = zlen (nshape x)).
  { destruct axes; unfold zlen in *; [lia|].
    assert (El : List.length (norm_axes (zlen (nshape x)) (default_axes (zlen (nshape x)) None)) = List.length plan)
      by (unfold zlen; rewrite R1, map_length; auto).
    unfold norm_axes, default_axes in El. rewrite map_length in El.
    assert (zlen (tab (zlen (nshape x)) (fun i => i)) = zlen (nshape x)) by (apply zlen_tab; unfold zlen; lia).
    unfold zlen in *. lia. }
  destruct (idwtn_loop_spec C fuel junk plan x (map (fun '(k, v) => (k, Some v)) D) B) as (r & Er & (o & Ho & Oo & Vo) & _); auto.
  { intros k Hk. destruct (Hfull k Hk) as (v & Hv). exists v. rewrite dget_some, Hv. split; [reflexivity|].
    apply (HD k v). apply dget_In. auto. }
  exists o. split; auto.
  rewrite (idwtn_full D (List.length plan) sh).
  - cbv zeta. rewrite HN.
    assert (El : List.length (norm_axes (zlen (nshape x)) (default_axes (zlen (nshape x)) axes)) = List.length plan)
      by (rewrite R1, map_length; auto).
    rewrite El, R3. cbn [bind]. rewrite R2. cbn [bind]. rewrite R1, combine_plan. rewrite Er. cbn [bind]. rewrite Ho. reflexivity.
  - auto.
  - intros k v Hi. destruct (HD k v Hi) as (Hk & Ov & Vv). split; [apply ad_keys_length; auto|].
    split; [apply (ad_keys_ad _ _ Hk)|]. rewrite <- (nshape_val C v), Vv. apply (band_shape C fuel); auto.
    apply ad_keys_length. auto.
Qed.

Theorem idwtn_dwtn (data : sarr C) w m axes plan B :
  sarr_ok C data -> 1 <= ndim data <= 64 ->
  resolves C (ndim data) w m (default_axes (ndim data) axes) plan -> plan_good C fuel B (sshape data) plan ->
  (forall s, In s plan -> pr_wavelet (st_w C s)) ->
  exists D r, dwtn fuel junk data w m axes = Ok D /\
    idwtn fuel junk (map (fun '(k, v) => (k, Some v)) D) w m axes = Ok (Some r) /\
    sshape r = odd_up (map (st_ax C) plan) (sshape data) /\
    (forall idx, valid (sshape data) idx -> ndget (val C r) idx = ndget (val C data) idx).
Proof.
  intros Hok Hn HR Hg Hpr.
  pose proof (plan_good_ok _ _ _ _ _ Hg) as Hpo.
  assert (W : nd_wf (val C data)) by (apply val_wf; auto).
  assert (Hax : forall s, In s plan -> (st_ax C s < List.length (nshape (val C data)))%nat).
  { intros s Hs. rewrite nshape_val. destruct Hg as (_ & _ & _ & _ & _ & G). apply (G s Hs). }
  destruct (idwtn_pr (map (fun k => (k, resarr C k plan data)) (ad_keys (List.length plan))) (val C data) w m axes plan B)
    as (r & Er & Or & Vr); auto.
  - intros k v Hi. apply in_map_iff in Hi. destruct Hi as (k' & E & Hk). injection E as <- <-. split; auto.
    assert (Wb : nd_wf (band C k' plan (val C data))) by (apply (band_wf C fuel); auto).
    unfold resarr. destruct plan; [split; [auto|destruct k'; reflexivity]|].
    split; [apply of_nd_ok; auto|apply val_of_nd; auto].
  - intros k Hk. exists (resarr C k plan data). apply (dget_map (fun k => resarr C k plan data)). auto.
  - eexists _, r. split; [apply (dwtn_spec C fuel junk data w m axes plan); auto|]. split; [auto|]. split.
    + rewrite <- (nshape_val C r), Vr, paxs_shape by auto. reflexivity.
    + intros idx Hv. rewrite Vr. apply paxs_get; auto.
Qed.

(** ** C22 *)
Definition lstep : Type := ascii * step C.
Fixpoint key_of (L : list lstep) : string := match L with [] => EmptyString | (c, _) :: t => String c (key_of t) end.
Definition plan_of (L : list lstep) : list (step C) := map snd L.

Lemma band_perm L L' : Permutation L L' -> forall (x : nd C) B, nd_wf x -> plan_good C fuel B (nshape x) (plan_of L) ->
  band C (key_of L) (plan_of L) x = band C (key_of L') (plan_of L') x.
Proof.
  induction 1 as [|[c s] l l' HP IH|[c s] [c' s'] l|l l1 l2 H1 IH1 H2 IH2]; intros x B Hx Hg.
  - reflexivity.
  - cbn [plan_of map snd key_of band] in *. pose proof (plan_good_tail _ _ _ _ _ _ Hg) as (_ & _ & Hs & _).
    apply (IH _ B).
    + apply (dax_wf' C fuel); auto.
    + rewrite (dax_shape C) by apply Hs. apply plan_good_step; auto.
  - cbn [plan_of map snd key_of band] in *. f_equal.
    pose proof (plan_good_tail _ _ _ _ _ _ Hg) as (Hg' & Hni & Hs & _).
    pose proof (plan_good_tail _ _ _ _ _ _ Hg') as (_ & _ & Hs' & _).
    destruct (step_len _ _ _ _ Hs) as (N1 & _). destruct (step_len _ _ _ _ Hs') as (N2 & _).
    pose proof Hs as (A1 & A2 & _). pose proof Hs' as (A1' & A2' & _).
    pose proof A2 as (_ & _ & _ & _ & F1). pose proof A2' as (_ & _ & _ & _ & F2).
    symmetry. apply dax_dax_comm; auto; try (rewrite zlen_pick by auto; lia).
    intros E. apply Hni. left. auto.
  - rewrite (IH1 x B) by auto. apply (IH2 x B); auto.
    apply (plan_good_perm _ _ _ _ (plan_of l)); auto. apply Permutation_map. auto.
Qed.

Lemma key_of_in L : Forall (fun p => fst p = "a"%char \/ fst p = "d"%char) L -> In (key_of L) (ad_keys (List.length L)).
Proof.
  induction 1 as [|[c s] L H HL IH]; cbn; auto. apply in_or_app. cbn in H.
  destruct H as [-> | ->]; [left|right]; apply in_map; auto.
Qed.

Theorem dwtn_axis_order (data : sarr C) w m axes w' m' axes' L L' B :
  sarr_ok C data -> 1 <= ndim data <= 64 -> L <> [] -> Permutation L L' ->
  Forall (fun p => fst p = "a"%char \/ fst p = "d"%char) L ->
  resolves C (ndim data) w m (default_axes (ndim data) axes) (plan_of L) ->
  resolves C (ndim data) w' m' (default_axes (ndim data) axes') (plan_of L') ->
  plan_good C fuel B (sshape data) (plan_of L) ->
  exists D D' c, dwtn fuel junk data w m axes = Ok D /\ dwtn fuel junk data w' m' axes' = Ok D' /\
    dget D (key_of L) = Some c /\ dget D' (key_of L') = Some c.
Proof.
  intros Hok Hn Hne HP HL R R' Hg.
  assert (Hg' : plan_good C fuel B (sshape data) (plan_of L'))
    by (apply (plan_good_perm _ _ _ _ (plan_of L)); auto; apply Permutation_map; auto).
  assert (HL' : Forall (fun p => fst p = "a"%char \/ fst p = "d"%char) L').
  { rewrite Forall_forall in *. intros p Hp. apply HL. apply (Permutation_in _ (Permutation_sym HP)). auto. }
  eexists _, _, (of_nd (band C (key_of L) (plan_of L) (val C data))).
  split; [apply (dwtn_spec C fuel junk data w m axes (plan_of L)); auto; apply (plan_good_ok _ _ _ _ _ Hg)|].
  split; [apply (dwtn_spec C fuel junk data w' m' axes' (plan_of L')); auto; apply (plan_good_ok _ _ _ _ _ Hg')|].
  assert (EL : forall M, List.length (plan_of M) = List.length M) by (intros; apply map_length).
  split; rewrite (dget_map (fun k => resarr C k _ data)) by (rewrite EL; apply key_of_in; auto); unfold resarr.
  - destruct L; [congruence|]. reflexivity.
  - rewrite (band_perm L L' HP (val C data) B) by (rewrite ?nshape_val; auto; apply val_wf; auto).
    destruct L' as [|]; [|reflexivity]. apply Permutation_sym, Permutation_nil in HP. congruence.
Qed.

(** ** dwt2 / idwt2 *)
Theorem dwt2_dwtn (data : sarr C) w m ax1 ax2 s1 s2 :
  sarr_ok C data -> 1 <= ndim data <= 64 -> Z.of_nat (distinct [ax1; ax2]) <= ndim data ->
  resolves C (ndim data) w m [ax1; ax2] [s1; s2] -> plan_ok C fuel [s1; s2] (sshape data) ->
  exists D aa da ad dd, dwtn fuel junk data w m (Some [ax1; ax2]) = Ok D /\
   D = [("aa", aa); ("ad", ad); ("da", da); ("dd", dd)]%string /\
   dwt2 fuel junk data w m [ax1; ax2] = Ok (aa, (da, ad, dd)) /\
   forall idwtn_w idwtn_m, idwt2 fuel junk (Some aa, (Some da, Some ad, Some dd)) idwtn_w idwtn_m [ax1; ax2]
     = idwtn fuel junk [("aa", Some aa); ("da", Some da); ("ad", Some ad); ("dd", Some dd)]%string idwtn_w idwtn_m (Some [ax1; ax2]).
Proof.
  intros Hok Hn Hd R Hp. pose proof (dwtn_spec C fuel junk data w m (Some [ax1; ax2]) [s1; s2] Hok Hn R Hp) as E.
  eexists _, _, _, _, _. split; [exact E|]. split; [reflexivity|]. split; [|reflexivity].
  unfold dwt2. rewrite E. cbn [List.length Nat.eqb negb]. rewrite (proj2 (Z.ltb_ge _ _) Hd). reflexivity.
Qed.

(** idwtn does not depend on the order of the dictionary. *)
Lemma mapM_ext {A B} (f g : A -> res B) l : (forall a, In a l -> f a = g a) -> mapM f l = mapM g l.
Proof.
  induction l as [|a l IH]; intros H; cbn; auto. rewrite (H a) by (left; auto).
  destruct (g a); cbn; auto. rewrite IH by (intros; apply H; right; auto). reflexivity.
Qed.

Lemma idwtn_step_ext n D D' st : (forall k, dget D k = dget D' k) ->
  idwtn_step fuel junk n D st = idwtn_step fuel junk n D' st.
Proof.
  intros H. unfold idwtn_step. destruct st as [kl [ax [w m]]]. destruct (_ || _); auto.
  apply mapM_ext. intros k _. rewrite !H. reflexivity.
Qed.

Theorem idwt2_dwt2 (data : sarr C) w m ax1 ax2 s1 s2 B :
  sarr_ok C data -> 1 <= ndim data <= 64 -> Z.of_nat (distinct [ax1; ax2]) <= ndim data ->
  resolves C (ndim data) w m [ax1; ax2] [s1; s2] -> plan_good C fuel B (sshape data) [s1; s2] ->
  pr_wavelet (st_w C s1) -> pr_wavelet (st_w C s2) ->
  exists aa da ad dd r, dwt2 fuel junk data w m [ax1; ax2] = Ok (aa, (da, ad, dd)) /\
    idwt2 fuel junk (Some aa, (Some da, Some ad, Some dd)) w m [ax1; ax2] = Ok (Some r) /\
    sshape r = odd_up [st_ax C s1; st_ax C s2] (sshape data) /\
    (forall idx, valid (sshape data) idx -> ndget (val C r) idx = ndget (val C data) idx).
Proof.
  intros Hok Hn Hd R Hg P1 P2.
  destruct (idwtn_dwtn data w m (Some [ax1; ax2]) [s1; s2] B Hok Hn R Hg) as (D & r & E1 & E2 & E3 & E4).
  { intros s [<-|[<-|[]]]; auto. }
  pose proof (plan_good_ok _ _ _ _ _ Hg) as Hpo.
  destruct (dwt2_dwtn data w m ax1 ax2 s1 s2 Hok Hn Hd R Hpo) as (D' & aa & da & ad & dd & F1 & F2 & F3 & F4).
  exists aa, da, ad, dd, r. split; auto. split; [|auto]. rewrite F4.
  rewrite E1 in F1. injection F1 as <-. subst D. cbn [map] in E2.
  rewrite <- E2.
  assert (Hsh : forall c, In c [aa; da; ad; dd] -> sshape c = step_shape C s2 (step_shape C s1 (sshape data))).
  { pose proof (dwtn_spec C fuel junk data w m (Some [ax1; ax2]) [s1; s2] Hok Hn R Hpo) as E. rewrite E1 in E.
    injection E as Q1 Q2 Q3 Q4.
    assert (G : forall k, In k (ad_keys 2) -> sshape (resarr C k [s1; s2] data) = step_shape C s2 (step_shape C s1 (sshape data))).
    { intros k Hk. unfold resarr. cbn [of_nd sshape]. 
      rewrite (band_shape C fuel [s1; s2] k) by (rewrite ?nshape_val; auto; apply (ad_keys_length 2); auto).
      rewrite nshape_val. reflexivity. }
    intros c Hc. destruct Hc as [<-|[<-|[<-|[<-|[]]]]]; 
      [rewrite Q1; apply (G "aa"%string)|rewrite Q3; apply (G "da"%string)|rewrite Q2; apply (G "ad"%string)|rewrite Q4; apply (G "dd"%string)];
      cbn; auto. }
  unfold idwtn. cbn [filter]. unfold fix_coeffs. cbn [existsb all_ad Ascii.eqb Bool.eqb andb orb negb map String.length hd forallb Nat.eqb flat_map app bind].
  rewrite (Hsh aa), (Hsh da), (Hsh ad), (Hsh dd) by (cbn; auto). unfold shape_eqb. 
  destruct (list_eq_dec _ _ _) as [_|Hc]; [|congruence]. cbn [negb orb].
  destruct (objs_per_axis m _); cbn [bind]; auto. destruct (objs_per_axis w _); cbn [bind]; auto.
  set (S := rev _). destruct S as [|st S']; [reflexivity|]. cbn [foldM].
  rewrite (idwtn_step_ext _ [("aa", Some aa); ("ad", Some ad); ("da", Some da); ("dd", Some dd)]%string
     [("aa", Some aa); ("da", Some da); ("ad", Some ad); ("dd", Some dd)]%string); [reflexivity|].
  intros k. cbn [dget].
  destruct (String.eqb_spec "aa" k); auto. destruct (String.eqb_spec "ad" k) as [<-|]; auto.
Qed.

(** ** dwt and idwt of arrays of any dimension *)
Lemma along_1d n T (x : nd C) N : nd_wf x -> nshape x = [N] -> zlen (T (ndata x)) = n -> along 0 n T x = mkNd [n] (T (ndata x)).
Proof.
  intros (Hs & Hl) E Hn. destruct x as [sh l]. cbn in *. subst sh. cbn [prodZ] in Hl.
  assert (HL : forall i, line (mkNd [N] l) 0 [i] = l).
  { intros i. unfold line. cbn [nshape nthz nth setn]. transitivity (tab (zlen l) (gz l)); [|apply tab_gz]. replace (zlen l) with N by lia.
    apply tab_ext. intros t Ht. unfold ndget. cbn [nshape ndata ravel prodZ]. f_equal. lia. }
  unfold along, ndtab. cbn [nshape setn prodZ]. f_equal. rewrite <- (tab_gz (T l)), Hn.
  replace (n * 1) with n by lia. apply tab_ext. intros i Hi.
  cbn [unravel prodZ]. rewrite Z.div_1_r. rewrite HL. reflexivity.
Qed.

Definition norm_axis (n a : Z) : Z := if a <? 0 then a + n else a.

Theorem py_dwt_spec (data : sarr C) w m axis (ax : nat) :
  sarr_ok C data -> ndim data <= 64 -> norm_axis (ndim data) axis = Z.of_nat ax -> (ax < List.length (sshape data))%nat ->
  wf_bank w -> min_len m <= nthz ax (sshape data) -> resources fuel (nthz ax (sshape data)) (dec_len w) ->
  prodZ (setn ax (coeff_len m (nthz ax (sshape data)) (dec_len w)) (sshape data)) < max_alloc ->
  py_dwt fuel junk data w m axis = Ok (of_nd (dax ax m (dec_lo w) (val C data)), of_nd (dax ax m (dec_hi w) (val C data))).
Proof.
  intros Hok Hn Hax Ha Hw Hm Hr Hp. unfold py_dwt.
  assert (W : nd_wf (val C data)) by (apply val_wf; auto).
  assert (En : ndim (of_nd (val C data)) = ndim data) by (unfold ndim; cbn [of_nd sshape]; rewrite nshape_val; auto).
  rewrite En. unfold norm_axis in Hax. rewrite Hax.
  replace (negb ((0 <=? Z.of_nat ax) && (Z.of_nat ax <? ndim data))) with false by (unfold ndim, zlen; lia).
  destruct (ndim data =? 1) eqn:E1.
  - assert (exists N, sshape data = [N]) as (N & EN).
    { unfold ndim, zlen in E1. destruct (sshape data) as [|a [|b t]]; cbn [List.length] in E1, Ha; [lia|eauto|lia]. }
    rewrite EN in *. cbn in Ha. assert (ax = 0%nat) as -> by lia. cbn [nthz nth] in *.
    assert (Sx : nshape (val C data) = [N]) by (rewrite nshape_val; auto).
    assert (Lx : zlen (ndata (val C data)) = N) by (destruct W as (_ & W); rewrite W, Sx; cbn; lia).
    pose proof Hw as (H1 & H2 & H3 & H4 & H5).
    assert (HN : 1 <= N) by (destruct m; cbn in Hm; lia).
    pose proof (coeff_len_bounds m N (dec_len w) HN H5) as Hcl.
    change (smem (of_nd (val C data))) with (ndata (val C data)).
    rewrite dwt_single_spec by (rewrite ?Lx; auto). cbn [bind].
    assert (L0 : zlen (analysis m (dec_lo w) (ndata (val C data))) = coeff_len m N (dec_len w))
      by (rewrite zlen_analysis by (rewrite ?Lx; unfold dec_len in *; lia); rewrite Lx; reflexivity).
    assert (L1 : zlen (analysis m (dec_hi w) (ndata (val C data))) = coeff_len m N (dec_len w))
      by (rewrite zlen_analysis by (rewrite ?Lx, ?H1; unfold dec_len in *; lia); rewrite Lx, H1; reflexivity).
    unfold dax. rewrite Sx. cbn [nthz nth].
    rewrite !(along_1d _ _ (val C data) N) by (auto; rewrite ?H1; auto).
    rewrite L0, L1, H1. reflexivity.
  - rewrite to_axis_ok by (unfold ndim, zlen in Hn; lia). cbn [bind].
    rewrite dwt_axis_spec; cbn [of_nd sshape]; rewrite ?nshape_val; auto.
    + change (mkSarr _ _ _ _) with (of_nd (val C data)) || idtac. rewrite val_of_nd by auto. reflexivity.
    + apply of_nd_ok; auto.
Qed.

Theorem py_idwt_spec (a d : sarr C) w m axis (ax : nat) sh :
  sarr_ok C a -> sarr_ok C d -> sshape a = sh -> sshape d = sh -> zlen sh <= 64 ->
  norm_axis (zlen sh) axis = Z.of_nat ax -> (ax < List.length sh)%nat ->
  wf_bank w -> 1 <= nthz ax sh -> 1 <= rec_len m (nthz ax sh) (dec_len w) -> resources fuel (nthz ax sh) (dec_len w) ->
  prodZ (setn ax (rec_len m (nthz ax sh) (dec_len w)) sh) < max_alloc ->
  py_idwt fuel junk (Some a) (Some d) w m axis =
    Ok (Some (of_nd (ndadd (sax ax m (rec_lo w) (val C a)) (sax ax m (rec_hi w) (val C d))))).
Proof.
  intros Ha Hd Sa Sd Hn Hax Hlt Hw Hsz Hrec Hr Hp. unfold py_idwt.
  assert (Wa : nd_wf (val C a)) by (apply val_wf; auto).
  assert (Wd : nd_wf (val C d)) by (apply val_wf; auto).
  assert (Ea : ndim (of_nd (val C a)) = zlen sh) by (unfold ndim; cbn [of_nd sshape]; rewrite nshape_val, Sa; auto).
  assert (Ed : ndim (of_nd (val C d)) = zlen sh) by (unfold ndim; cbn [of_nd sshape]; rewrite nshape_val, Sd; auto).
  rewrite Ea, Ed. unfold norm_axis in Hax. rewrite Hax.
  replace (negb ((0 <=? Z.of_nat ax) && (Z.of_nat ax <? zlen sh))) with false by (unfold zlen; lia).
  destruct (zlen sh =? 1) eqn:E1.
  - assert (exists N, sh = [N]) as (N & EN).
    { unfold zlen in E1. destruct sh as [|x [|b t]]; cbn [List.length] in E1, Hlt; [lia|eauto|lia]. }
    rewrite EN in *. cbn in Hlt. assert (ax = 0%nat) as -> by lia. cbn [nthz nth negb] in *.
    assert (Xa : nshape (val C a) = [N]) by (rewrite nshape_val; auto).
    assert (Xd : nshape (val C d) = [N]) by (rewrite nshape_val; auto).
    assert (La : zlen (ndata (val C a)) = N) by (destruct Wa as (_ & W); rewrite W, Xa; cbn; lia).
    assert (Ld : zlen (ndata (val C d)) = N) by (destruct Wd as (_ & W); rewrite W, Xd; cbn; lia).
    pose proof Hw as (H1 & H2 & H3 & H4 & H5).
    change (smem (of_nd (val C a))) with (ndata (val C a)). change (smem (of_nd (val C d))) with (ndata (val C d)).
    rewrite idwt_single_spec by (rewrite ?La, ?Ld; auto). cbn [bind].
    set (R := rec_len m N (dec_len w)) in *.
    assert (L0 : zlen (synthesis m (rec_lo w) (ndata (val C a))) = R)
      by (rewrite zlen_synthesis; rewrite La; rewrite ?H2; fold R; auto; lia).
    assert (L1 : zlen (synthesis m (rec_hi w) (ndata (val C d))) = R)
      by (rewrite zlen_synthesis; rewrite Ld; rewrite ?H3; fold R; auto; lia).
    unfold sax. rewrite Xa, Xd. cbn [nthz nth]. rewrite H2, H3. fold R.
    rewrite (along_1d R _ (val C a) N), (along_1d R _ (val C d) N) by auto.
    do 3 f_equal. rewrite zlen_vadd by lia. rewrite L0. unfold ndadd, ndtab. cbn [nshape prodZ]. f_equal.
    replace (R * 1) with R by lia. rewrite <- (tab_gz (vadd _ _)). rewrite zlen_vadd by lia. rewrite L0. apply tab_ext. intros i Hi. cbn [unravel prodZ].
    rewrite gz_vadd by lia. rewrite Z.div_1_r. unfold ndget. cbn [nshape ndata ravel prodZ]. f_equal; f_equal; lia.
  - rewrite to_axis_ok by (unfold zlen in *; lia). cbn [bind].
    rewrite (idwt_axis_spec C fuel junk _ _ w m ax sh); auto.
    + cbn [option_map sax2]. rewrite !val_of_nd by auto. reflexivity.
    + intros y [<-|[<-|[]]]; (split; [apply of_nd_ok; auto|]); cbn [of_nd sshape]; rewrite nshape_val; auto.
    + split; auto. split; auto. split; auto. lia.
Qed.

(** ** C21: line by line *)
Theorem py_dwt_lines (data : sarr C) w m axis (ax : nat) :
  sarr_ok C data -> ndim data <= 64 -> norm_axis (ndim data) axis = Z.of_nat ax -> (ax < List.length (sshape data))%nat ->
  wf_bank w -> min_len m <= nthz ax (sshape data) -> resources fuel (nthz ax (sshape data)) (dec_len w) ->
  prodZ (setn ax (coeff_len m (nthz ax (sshape data)) (dec_len w)) (sshape data)) < max_alloc ->
  exists cA cD, py_dwt fuel junk data w m axis = Ok (cA, cD) /\ sarr_ok C cA /\ sarr_ok C cD /\
    sshape cA = setn ax (coeff_len m (nthz ax (sshape data)) (dec_len w)) (sshape data) /\ sshape cD = sshape cA /\
    forall idx, valid (sshape cA) idx ->
      ndget (val C cA) idx = gz (analysis m (dec_lo w) (line (val C data) ax idx)) (nthz ax idx) /\
      ndget (val C cD) idx = gz (analysis m (dec_hi w) (line (val C data) ax idx)) (nthz ax idx).
Proof.
  intros Hok Hn Hax Ha Hw Hm Hr Hp. eexists _, _. split; [apply (py_dwt_spec data w m axis ax); auto|].
  assert (W : nd_wf (val C data)) by (apply val_wf; auto).
  pose proof Hw as (H1 & H2 & H3 & H4 & H5).
  assert (HN : 1 <= nthz ax (sshape data)) by (destruct m; cbn in Hm; lia).
  pose proof (coeff_len_bounds m _ (dec_len w) HN H5) as Hcl.
  assert (W0 : nd_wf (dax ax m (dec_lo w) (val C data)))
    by (apply dax_wf; auto; rewrite nshape_val; unfold dec_len in *; lia).
  assert (W1 : nd_wf (dax ax m (dec_hi w) (val C data)))
    by (apply dax_wf; auto; rewrite nshape_val; rewrite H1; unfold dec_len in *; lia).
  split; [apply of_nd_ok; auto|]. split; [apply of_nd_ok; auto|]. cbn [of_nd sshape].
  split; [reflexivity|]. split; [unfold dax; rewrite !along_shape, H1; reflexivity|].
  intros idx Hv. rewrite (val_of_nd C (dax ax m (dec_lo w) (val C data))), (val_of_nd C (dax ax m (dec_hi w) (val C data))) by auto. split; unfold dax; apply ndget_along.
  - exact Hv.
  - rewrite H1. exact Hv.
Qed.

Theorem py_idwt_lines (a d : sarr C) w m axis (ax : nat) sh :
  sarr_ok C a -> sarr_ok C d -> sshape a = sh -> sshape d = sh -> zlen sh <= 64 ->
  norm_axis (zlen sh) axis = Z.of_nat ax -> (ax < List.length sh)%nat ->
  wf_bank w -> 1 <= nthz ax sh -> 1 <= rec_len m (nthz ax sh) (dec_len w) -> resources fuel (nthz ax sh) (dec_len w) ->
  prodZ (setn ax (rec_len m (nthz ax sh) (dec_len w)) sh) < max_alloc ->
  exists r, py_idwt fuel junk (Some a) (Some d) w m axis = Ok (Some r) /\ sarr_ok C r /\
    sshape r = setn ax (rec_len m (nthz ax sh) (dec_len w)) sh /\
    forall idx, valid (sshape r) idx ->
      ndget (val C r) idx = gz (synthesis m (rec_lo w) (line (val C a) ax idx)) (nthz ax idx)
        [+] gz (synthesis m (rec_hi w) (line (val C d) ax idx)) (nthz ax idx).
Proof.
  intros Ha Hd Sa Sd Hn Hax Hlt Hw Hsz Hrec Hr Hp. eexists. split; [apply (py_idwt_spec a d w m axis ax sh); auto|].
  pose proof Hw as (H1 & H2 & H3 & H4 & H5).
  assert (Wa : nd_wf (val C a)) by (apply val_wf; auto). assert (Wd : nd_wf (val C d)) by (apply val_wf; auto).
  assert (Xa : nshape (sax ax m (rec_lo w) (val C a)) = setn ax (rec_len m (nthz ax sh) (dec_len w)) sh)
    by (unfold sax; rewrite along_shape, nshape_val, Sa, H2; reflexivity).
  assert (Xd : nshape (sax ax m (rec_hi w) (val C d)) = setn ax (rec_len m (nthz ax sh) (dec_len w)) sh)
    by (unfold sax; rewrite along_shape, nshape_val, Sd, H3; reflexivity).
  assert (W : nd_wf (ndadd (sax ax m (rec_lo w) (val C a)) (sax ax m (rec_hi w) (val C d)))).
  { apply ndtab_wf. rewrite Xa. apply shape_ok_setn; [rewrite <- Sa; apply Ha|lia]. }
  split; [apply of_nd_ok; auto|]. cbn [of_nd sshape]. split; [exact Xa|].
  intros idx Hv. rewrite val_of_nd by auto. unfold ndadd in *. cbn [ndtab nshape] in Hv. rewrite ndget_ndtab by auto. rewrite Xa in Hv.
  f_equal; unfold sax; apply ndget_along.
  - rewrite nshape_val, Sa, H2. auto.
  - rewrite nshape_val, Sd, H3. auto.
Qed.

(** Every sub-band of dwtn, in the order of itertools.product. *)
Theorem dwtn_bands (data : sarr C) w m axes plan :
  sarr_ok C data -> 1 <= ndim data <= 64 -> plan <> [] ->
  resolves C (ndim data) w m (default_axes (ndim data) axes) plan -> plan_ok C fuel plan (sshape data) ->
  dwtn fuel junk data w m axes = Ok (map (fun k => (k, of_nd (band C k plan (val C data)))) (ad_keys (List.length plan))).
Proof.
  intros Hok Hn Hne HR Hp. rewrite (dwtn_spec C fuel junk data w m axes plan) by auto.
  destruct plan; [congruence|]. reflexivity.
Qed.

(** ** C52 *)
Lemma objs_one {A} (a : A) n : objs_per_axis (One a) n = Ok (repeat a n).
Proof. reflexivity. Qed.
Lemma objs_seq1 {A} (a : A) n : objs_per_axis (Seq [a]) n = Ok (repeat a n).
Proof. reflexivity. Qed.
Lemma objs_seq {A} (l : list A) n : List.length l <> 1%nat ->
  objs_per_axis (Seq l) n = if Nat.eqb (List.length l) n then Ok l else Err ValueError.
Proof. intros H. destruct l as [|a [|b t]]; [|cbn in H; lia|]; unfold objs_per_axis; destruct (Nat.eqb _ n); reflexivity. Qed.
Theorem per_axis_spec {A} (p : per_axis A) n :
  objs_per_axis p n = match p with
  | One a => Ok (repeat a n)
  | Seq l => if Nat.eqb (List.length l) 1 then Ok (flat_map (fun a => repeat a n) l)
             else if Nat.eqb (List.length l) n then Ok l else Err ValueError
  end.
Proof.
  destruct p as [a|[|a [|b t]]]; try reflexivity.
  - destruct n; reflexivity.
  - cbn [List.length Nat.eqb flat_map]. rewrite app_nil_r. reflexivity.
  - rewrite objs_seq by (cbn; lia). reflexivity.
Qed.

End MF.
