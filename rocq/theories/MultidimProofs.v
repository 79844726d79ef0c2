(** Proofs about the separable n-D transform. *)
From Coq Require Import Ascii String.
From Verif Require Import Base BaseLemmas CConv Spec ExtLemmas Lengths Dwt DwtProofs PR Linear Swt SwtProofs Nd NdSpec NdLinear Axis AxisProofs AxisProofs2 Multidim.
From Coq Require Import Permutation.

Lemma append_assoc (a b c : string) : append (append a b) c = append a (append b c).
Proof. induction a; cbn; congruence. Qed.
Lemma append_nil_r (a : string) : append a EmptyString = a.
Proof. induction a; cbn; congruence. Qed.

Lemma ad_keys_snoc n : forall k, In k (ad_keys n) -> In (append k "a"%string) (ad_keys (S n)) /\ In (append k "d"%string) (ad_keys (S n)).
Proof.
  induction n as [|n IH]; intros k Hk.
  - cbn in Hk. destruct Hk as [<-|[]]. cbn. auto.
  - change (ad_keys (S (S n))) with (map (String "a"%char) (ad_keys (S n)) ++ map (String "d"%char) (ad_keys (S n))).
    cbn [ad_keys] in Hk. apply in_app_or in Hk.
    destruct Hk as [Hk|Hk]; apply in_map_iff in Hk; destruct Hk as (q & <- & Hq); destruct (IH q Hq) as (Ha & Hd);
      cbn [append]; split; apply in_or_app; [left|left|right|right]; apply in_map; auto.
Qed.

Lemma ad_keys_length n : forall k, In k (ad_keys n) -> String.length k = n.
Proof.
  induction n as [|n IH]; intros k Hk; cbn in Hk.
  - destruct Hk as [<-|[]]; reflexivity.
  - apply in_app_or in Hk. destruct Hk as [Hk|Hk]; apply in_map_iff in Hk; destruct Hk as (q & <- & Hq); cbn; f_equal; auto.
Qed.

Lemma ad_keys_ad n : forall k, In k (ad_keys n) -> all_ad k = true.
Proof.
  induction n as [|n IH]; intros k Hk; cbn in Hk.
  - destruct Hk as [<-|[]]; reflexivity.
  - apply in_app_or in Hk. destruct Hk as [Hk|Hk]; apply in_map_iff in Hk; destruct Hk as (q & <- & Hq); cbn; auto.
Qed.


Lemma dget_in {A} (d : dict A) k v : NoDup (map fst d) -> In (k, v) d -> dget d k = Some v.
Proof.
  induction d as [|[k' v'] d IH]; cbn; intros Hn Hi; [tauto|]. inversion Hn as [|? ? Hni Hn']; subst.
  destruct Hi as [E|Hi].
  - injection E as -> ->. rewrite String.eqb_refl. reflexivity.
  - destruct (String.eqb_spec k' k) as [->|]; [|auto]. exfalso. apply Hni. apply in_map_iff. exists (k, v). auto.
Qed.

Lemma dget_map {A} (f : string -> A) keys k : In k keys -> dget (map (fun k => (k, f k)) keys) k = Some (f k).
Proof.
  induction keys as [|a keys IH]; cbn; intros Hi; [tauto|].
  destruct (String.eqb_spec a k) as [->|]; auto. destruct Hi; [congruence|auto].
Qed.

Section MP.
Variable C : CRing.
Variable fuel : nat.

(** A step of a separable transform: axis, wavelet and mode. *)
Definition step : Type := nat * (wavelet C * mode).
Definition st_ax (s : step) : nat := fst s.
Definition st_w (s : step) : wavelet C := fst (snd s).
Definition st_m (s : step) : mode := snd (snd s).

(** The sub-band of [x] selected by the letters of [key], one letter per step. *)
Definition pick (c : ascii) (w : wavelet C) : list C := if Ascii.eqb c "a"%char then dec_lo w else dec_hi w.
Fixpoint band (key : string) (plan : list step) (x : nd C) : nd C :=
  match key, plan with
  | String c k, s :: p => band k p (dax (st_ax s) (st_m s) (pick c (st_w s)) x)
  | _, _ => x
  end.

(** Shape after one analysis step. *)
Definition step_shape (s : step) (sh : list Z) : list Z :=
  setn (st_ax s) (coeff_len (st_m s) (nthz (st_ax s) sh) (dec_len (st_w s))) sh.

Definition step_ok (s : step) (sh : list Z) : Prop :=
  (st_ax s < List.length sh)%nat /\ wf_bank (st_w s) /\ min_len (st_m s) <= nthz (st_ax s) sh /\
  resources fuel (nthz (st_ax s) sh) (dec_len (st_w s)).

(** Conditions under which every step of the decomposition is defined. *)
Fixpoint plan_ok (plan : list step) (sh : list Z) : Prop :=
  match plan with
  | [] => True
  | s :: p => step_ok s sh /\ prodZ (step_shape s sh) < max_alloc /\ plan_ok p (step_shape s sh)
  end.

Lemma zlen_pick c w : wf_bank w -> zlen (pick c w) = dec_len w.
Proof. intros (H & _). unfold pick. destruct (Ascii.eqb c _); auto. Qed.

Lemma dax_shape c s (x : nd C) : wf_bank (st_w s) ->
  nshape (dax (st_ax s) (st_m s) (pick c (st_w s)) x) = step_shape s (nshape x).
Proof. intros Hw. unfold dax. rewrite along_shape, zlen_pick by auto. reflexivity. Qed.

Lemma step_len s sh : step_ok s sh -> 1 <= nthz (st_ax s) sh /\
  1 <= coeff_len (st_m s) (nthz (st_ax s) sh) (dec_len (st_w s)) <= Z.max (nthz (st_ax s) sh) (dec_len (st_w s)).
Proof.
  intros (Ha & (H1 & H2 & H3 & H4 & H5) & Hm & Hr).
  assert (1 <= nthz (st_ax s) sh) by (destruct (st_m s); cbn in Hm; lia). split; auto.
  apply coeff_len_bounds; auto.
Qed.

Lemma dax_wf' c s (x : nd C) : nd_wf x -> step_ok s (nshape x) ->
  nd_wf (dax (st_ax s) (st_m s) (pick c (st_w s)) x).
Proof.
  intros Hx Hs. apply dax_wf; auto. destruct (step_len s _ Hs). destruct Hs as (_ & Hw & _).
  rewrite zlen_pick by auto. lia.
Qed.

Lemma band_wf plan : forall key (x : nd C), nd_wf x -> plan_ok plan (nshape x) -> nd_wf (band key plan x).
Proof.
  induction plan as [|s p IH]; intros [|c k] x Hx Hp; cbn [band]; auto.
  destruct Hp as (Hs & _ & Hp). apply IH.
  - apply dax_wf'; auto.
  - rewrite dax_shape by apply Hs. auto.
Qed.

Lemma band_shape plan : forall key (x : nd C), plan_ok plan (nshape x) -> String.length key = List.length plan ->
  nshape (band key plan x) = fold_left (fun sh s => step_shape s sh) plan (nshape x).
Proof.
  induction plan as [|s p IH]; intros [|c k] x Hp Hl; cbn [band fold_left]; auto; cbn in Hl; try lia.
  destruct Hp as (Hs & _ & Hp). rewrite IH.
  - rewrite dax_shape by apply Hs. reflexivity.
  - rewrite dax_shape by apply Hs. auto.
  - lia.
Qed.

(** ** dwtn *)
Definition to_z (s : step) : Z * (wavelet C * mode) := (Z.of_nat (st_ax s), snd s).
Definition resarr (key : string) (plan : list step) (s : sarr C) : sarr C :=
  match plan with [] => s | _ => of_nd (band key plan (val C s)) end.

Lemma to_axis_ok n : (n < 64)%nat -> to_axis (Z.of_nat n) = Ok n.
Proof.
  intros H. unfold to_axis. replace ((Z.of_nat n <? 0) || (4294967295 <? Z.of_nat n)) with false by lia.
  rewrite Nat2Z.id. reflexivity.
Qed.

Lemma dwtn_step_spec junk (D : dict (sarr C)) s sh :
  (forall k a, In (k, a) D -> sarr_ok C a /\ sshape a = sh) -> (List.length sh <= 64)%nat ->
  step_ok s sh -> prodZ (step_shape s sh) < max_alloc ->
  dwtn_step fuel junk D (to_z s) = Ok (flat_map (fun '(k, a) =>
    [(append k "a"%string, of_nd (dax (st_ax s) (st_m s) (pick "a"%char (st_w s)) (val C a)));
     (append k "d"%string, of_nd (dax (st_ax s) (st_m s) (pick "d"%char (st_w s)) (val C a)))]) D).
Proof.
  intros HD Hn Hs Hp. unfold dwtn_step, to_z. destruct s as [ax [w m]]. cbn [st_ax st_w st_m fst snd] in *.
  rewrite (mapM_ok _ (fun '(k, a) => [(append k "a"%string, of_nd (dax ax m (pick "a"%char w) (val C a)));
     (append k "d"%string, of_nd (dax ax m (pick "d"%char w) (val C a)))])).
  - cbn [bind]. rewrite flat_map_concat_map. reflexivity.
  - intros [k a] Hi. destruct (HD k a Hi) as (Hok & Hsh).
    destruct Hs as (Ha & Hw & Hm & Hr). cbn [st_ax st_w st_m fst snd] in *.
    rewrite to_axis_ok by lia. cbn [bind]. rewrite dwt_axis_spec; rewrite ?Hsh; auto.
Qed.

Lemma dwtn_loop_spec junk plan : forall (D : dict (sarr C)) sh,
  (forall k a, In (k, a) D -> sarr_ok C a /\ sshape a = sh) -> (List.length sh <= 64)%nat ->
  plan_ok plan sh ->
  foldM (dwtn_step fuel junk) D (map to_z plan)
  = Ok (flat_map (fun '(k, a) => map (fun q => (append k q, resarr q plan a)) (ad_keys (List.length plan))) D).
Proof.
  induction plan as [|s p IH]; intros D sh HD Hn Hp; cbn [map foldM].
  - f_equal. cbn. induction D as [|[k a] D IHD]; cbn; auto. rewrite append_nil_r. f_equal. apply IHD.
    intros; apply (HD k0 a0); right; auto.
  - destruct Hp as (Hs & Hpz & Hp). rewrite (dwtn_step_spec junk D s sh) by auto. cbn [bind].
    rewrite (IH _ (step_shape s sh)); auto.
    + f_equal. rewrite flat_map_concat_map, concat_map || idtac.
      clear IH Hp. induction D as [|[k a] D IHD]; cbn [flat_map]; auto. 
      cbn [app flat_map].
      rewrite <- IHD by (intros; apply (HD k0 a0); right; auto). rewrite app_assoc. f_equal.
      cbn [List.length ad_keys]. rewrite map_app, !map_map.
      destruct (HD k a (or_introl eq_refl)) as (Hok & Hsh).
      assert (W : forall c, nd_wf (dax (st_ax s) (st_m s) (pick c (st_w s)) (val C a))).
      { intros c. apply dax_wf'; [apply val_wf; auto|]. rewrite nshape_val, Hsh. auto. }
      f_equal; apply map_ext; intros q; rewrite append_assoc; f_equal; unfold resarr; cbn [band append];
        (destruct p; [destruct q; reflexivity|]); rewrite val_of_nd by auto; reflexivity.
    + intros k' a' Hi. apply in_flat_map in Hi. destruct Hi as ([k a] & Hi & Hj).
      destruct (HD k a Hi) as (Hok & Hsh).
      assert (W : forall c, nd_wf (dax (st_ax s) (st_m s) (pick c (st_w s)) (val C a))).
      { intros c. apply dax_wf'; [apply val_wf; auto|]. rewrite nshape_val, Hsh. auto. }
      destruct Hj as [Hj|[Hj|[]]]; injection Hj as <- <-; (split; [apply of_nd_ok; auto|]);
        cbn [of_nd sshape]; rewrite dax_shape by apply Hs; rewrite nshape_val, Hsh; reflexivity.
    + unfold step_shape. rewrite setn_length. auto.
Qed.

(** Resolution of the axes, wavelet and mode arguments into a plan. *)
Definition resolves (n : Z) (w : per_axis (wavelet C)) (m : per_axis mode) (axes : list Z) (plan : list step) : Prop :=
  norm_axes n axes = map (fun s => Z.of_nat (st_ax s)) plan /\
  objs_per_axis w (List.length plan) = Ok (map st_w plan) /\ objs_per_axis m (List.length plan) = Ok (map st_m plan).

Lemma combine_plan plan :
  combine (map (fun s => Z.of_nat (st_ax s)) plan) (combine (map st_w plan) (map st_m plan)) = map to_z plan.
Proof. induction plan as [|[a [w m]] p IH]; cbn; auto. f_equal. exact IH. Qed.

Definition default_axes (n : Z) (axes : option (list Z)) : list Z :=
  match axes with None => tab n (fun i => i) | Some l => l end.

Theorem dwtn_spec junk (data : sarr C) w m axes plan :
  sarr_ok C data -> 1 <= ndim data <= 64 ->
  resolves (ndim data) w m (default_axes (ndim data) axes) plan -> plan_ok plan (sshape data) ->
  dwtn fuel junk data w m axes = Ok (map (fun k => (k, resarr k plan data)) (ad_keys (List.length plan))).
Proof.
  intros Hok Hn (R1 & R2 & R3) Hp. unfold dwtn. replace (ndim data <? 1) with false by lia.
  assert (El : List.length (norm_axes (ndim data) (default_axes (ndim data) axes)) = List.length plan)
    by (rewrite R1, map_length; auto).
  change (match axes with None => tab (ndim data) (fun i => i) | Some l => l end) with (default_axes (ndim data) axes).
  rewrite El, R3. cbn [bind]. rewrite R2. cbn [bind]. rewrite R1, combine_plan.
  rewrite (dwtn_loop_spec junk plan _ (sshape data)); auto.
  - cbn [flat_map app]. rewrite app_nil_r. reflexivity.
  - intros k a [E|[]]. injection E as <- <-. auto.
  - unfold ndim, zlen in Hn. lia.
Qed.

(** Steps on other axes commute with a step. *)
Lemma dax_pax_comm ax bx m m' (h : list C) (x : nd C) : nd_wf x -> ax <> bx ->
  (ax < List.length (nshape x))%nat -> (bx < List.length (nshape x))%nat ->
  1 <= nthz ax (nshape x) -> 1 <= zlen h ->
  dax ax m h (pax C bx m' x) = pax C bx m' (dax ax m h x).
Proof.
  intros Hx Hne Ha Hb HN Hh. unfold dax, pax. rewrite !along_shape.
  rewrite (nthz_setn_ne ax bx), (nthz_setn_ne bx ax) by auto.
  assert (0 <= nthz bx (nshape x)) by (apply shape_ok_nth; apply Hx).
  apply along_comm; auto; try lia.
  - destruct m; cbn [coeff_len]; lia.
  - apply linop_analysis; auto.
  - apply linop_pad1; auto.
Qed.

Lemma dax_dax_comm ax bx m m' (h h' : list C) (x : nd C) : nd_wf x -> ax <> bx ->
  (ax < List.length (nshape x))%nat -> (bx < List.length (nshape x))%nat ->
  1 <= nthz ax (nshape x) -> 1 <= zlen h -> 1 <= nthz bx (nshape x) -> 1 <= zlen h' ->
  dax ax m h (dax bx m' h' x) = dax bx m' h' (dax ax m h x).
Proof.
  intros Hx Hne Ha Hb HN Hh HN' Hh'. unfold dax. rewrite !along_shape.
  rewrite (nthz_setn_ne ax bx), (nthz_setn_ne bx ax) by auto.
  apply along_comm; auto; try lia.
  - destruct m; cbn [coeff_len]; lia.
  - destruct m'; cbn [coeff_len]; lia.
  - apply linop_analysis; auto.
  - apply linop_analysis; auto.
Qed.

(** Plans over distinct axes, with a box [B] of memory large enough for every
    intermediate array. *)
Definition plan_good (B sh : list Z) (plan : list step) : Prop :=
  prodZ B < max_alloc /\ List.length B = List.length sh /\ shape_ok sh /\ (forall k, nthz k sh <= nthz k B) /\
  NoDup (map st_ax plan) /\
  forall s, In s plan -> step_ok s sh /\ 2 * Z.max (nthz (st_ax s) sh) (dec_len (st_w s)) <= nthz (st_ax s) B.

Lemma prodZ_mono a : forall b, shape_ok a -> List.length a = List.length b -> (forall k, nthz k a <= nthz k b) -> prodZ a <= prodZ b.
Proof.
  induction a as [|s a IH]; intros [|t b] Hs Hl H; cbn in Hl; try lia; cbn [prodZ]; try lia.
  inversion Hs; subst. assert (prodZ a <= prodZ b).
  { apply IH; auto. intros k. apply (H (S k)). }
  pose proof (H O) as Hz. cbn in Hz. assert (0 <= prodZ a) by (apply prodZ_nonneg; auto). nia.
Qed.

Lemma box_bound B sh ax n : prodZ B < max_alloc -> List.length B = List.length sh -> shape_ok sh ->
  (forall k, nthz k sh <= nthz k B) -> 0 <= n <= nthz ax B -> prodZ (setn ax n sh) < max_alloc.
Proof.
  intros HB Hl Hs Hk Hn. apply Z.le_lt_trans with (prodZ B); auto. apply prodZ_mono.
  - apply shape_ok_setn; auto; lia.
  - rewrite setn_length. auto.
  - intros k. destruct (Nat.eq_dec k ax) as [->|Hne].
    + destruct (Nat.lt_ge_cases ax (List.length sh)).
      * rewrite nthz_setn by auto. lia.
      * unfold nthz at 1. rewrite nth_overflow by (rewrite setn_length; lia). specialize (Hk ax). unfold nthz at 1 in Hk.
        rewrite nth_overflow in Hk by lia. auto.
    + rewrite nthz_setn_ne by auto. auto.
Qed.

(** Changing the size of an axis that is not in the plan. *)
Lemma plan_good_setn B sh plan ax n : plan_good B sh plan -> ~ In ax (map st_ax plan) -> 0 <= n <= nthz ax B ->
  plan_good B (setn ax n sh) plan.
Proof.
  intros (H1 & H2 & H3 & H4 & H5 & H6) Hni Hn.
  split; auto. split; [rewrite setn_length; auto|]. split; [apply shape_ok_setn; auto; lia|]. split.
  { intros k. destruct (Nat.eq_dec k ax) as [->|Hne].
    - destruct (Nat.lt_ge_cases ax (List.length sh)).
      + rewrite nthz_setn by auto. lia.
      + unfold nthz at 1. rewrite nth_overflow by (rewrite setn_length; lia). lia.
    - rewrite nthz_setn_ne; auto. }
  split; auto. intros s Hs. destruct (H6 s Hs) as ((A1 & A2 & A3 & A4) & A5).
  assert (st_ax s <> ax) by (intros <-; apply Hni; apply in_map; auto).
  unfold step_ok. rewrite setn_length, nthz_setn_ne by auto. auto.
Qed.

Lemma plan_good_tail B sh s plan : plan_good B sh (s :: plan) -> plan_good B sh plan /\ ~ In (st_ax s) (map st_ax plan) /\
  step_ok s sh /\ 2 * Z.max (nthz (st_ax s) sh) (dec_len (st_w s)) <= nthz (st_ax s) B.
Proof.
  intros (H1 & H2 & H3 & H4 & H5 & H6). inversion H5; subst.
  split; [|split; [auto|apply H6; left; auto]]. 
  exact (conj H1 (conj H2 (conj H3 (conj H4 (conj H8 (fun s' Hs' => H6 s' (or_intror Hs'))))))).
Qed.

Lemma plan_good_step B sh s plan : plan_good B sh (s :: plan) -> plan_good B (step_shape s sh) plan.
Proof.
  intros H. apply plan_good_tail in H. destruct H as (Hg & Hni & Hs & Hb).
  apply plan_good_setn; auto. destruct (step_len s sh Hs). lia.
Qed.

Lemma plan_good_ok B plan : forall sh, plan_good B sh plan -> plan_ok plan sh.
Proof.
  induction plan as [|s p IH]; intros sh H; cbn [plan_ok]; auto.
  pose proof (plan_good_tail _ _ _ _ H) as (Hg & Hni & Hs & Hb).
  split; auto. split; [|apply IH; apply plan_good_step; auto].
  destruct (step_len s sh Hs). destruct Hg as (G1 & G2 & G3 & G4 & _). apply (box_bound B); auto. lia.
Qed.

Lemma plan_good_perm B sh p q : Permutation p q -> plan_good B sh p -> plan_good B sh q.
Proof.
  intros HP (H1 & H2 & H3 & H4 & H5 & H6). refine (conj H1 (conj H2 (conj H3 (conj H4 (conj _ _))))).
  - apply (Permutation_NoDup (l := map st_ax p)); auto. apply Permutation_map. auto.
  - intros s Hs. apply H6; apply Permutation_in with q; auto; apply Permutation_sym; auto.
Qed.

Lemma band_pax plan : forall key ax m (x : nd C) B, nd_wf x -> plan_good B (nshape x) plan ->
  ~ In ax (map st_ax plan) -> (ax < List.length (nshape x))%nat -> nthz ax (nshape x) + 1 <= nthz ax B ->
  band key plan (pax C ax m x) = pax C ax m (band key plan x).
Proof.
  induction plan as [|s p IH]; intros [|c k] ax m x B Hx Hp Hni Ha HB; cbn [band]; auto.
  pose proof (plan_good_tail _ _ _ _ Hp) as (Hg & Hni' & Hs & Hb). cbn [map In] in Hni.
  destruct (step_len s _ Hs) as (HN & Hcl). pose proof Hs as (A1 & A2 & A3 & A4).
  assert (1 <= zlen (pick c (st_w s))) by (rewrite zlen_pick by auto; destruct A2 as (_ & _ & _ & _ & ?); lia).
  rewrite dax_pax_comm by (auto; intros E; apply Hni; left; auto).
  apply (IH k ax m _ B).
  - apply dax_wf'; auto.
  - rewrite dax_shape by auto. apply plan_good_step; auto.
  - intros Hi. apply Hni. right; auto.
  - rewrite dax_shape by auto. unfold step_shape. rewrite setn_length. auto.
  - rewrite dax_shape by auto. unfold step_shape. rewrite nthz_setn_ne; auto.
Qed.

Lemma band_snoc plan : forall key c s (x : nd C), String.length key = List.length plan ->
  band (append key (String c EmptyString)) (plan ++ [s]) x = dax (st_ax s) (st_m s) (pick c (st_w s)) (band key plan x).
Proof.
  induction plan as [|s' p IH]; intros [|c' k] c s x Hl; cbn in Hl; try lia; cbn [append app band]; auto.
Qed.

(** ** idwtn *)
(** One-sample extension along the odd axes of the plan. *)
Fixpoint paxs (plan : list step) (x : nd C) : nd C :=
  match plan with [] => x | s :: p => pax C (st_ax s) (st_m s) (paxs p x) end.

Lemma paxs_snoc plan s x : paxs (plan ++ [s]) x = paxs plan (pax C (st_ax s) (st_m s) x).
Proof. induction plan as [|s' p IH]; cbn; auto. rewrite IH. reflexivity. Qed.

Lemma pax_shape ax m (x : nd C) : nshape (pax C ax m x) = setn ax (nthz ax (nshape x) + nthz ax (nshape x) mod 2) (nshape x).
Proof. reflexivity. Qed.

Lemma pax_wf ax m (x : nd C) : nd_wf x -> nd_wf (pax C ax m x).
Proof.
  intros H. apply along_wf; auto. assert (0 <= nthz ax (nshape x)) by (apply shape_ok_nth; apply H). lia.
Qed.

Lemma idwt_axis_pr junk s (a d : sarr C) (x : nd C) B : nd_wf x -> pr_wavelet (st_w s) -> step_ok s (nshape x) ->
  sarr_ok C a -> val C a = dax (st_ax s) (st_m s) (dec_lo (st_w s)) x ->
  sarr_ok C d -> val C d = dax (st_ax s) (st_m s) (dec_hi (st_w s)) x ->
  prodZ B < max_alloc -> List.length B = List.length (nshape x) -> (forall k, nthz k (nshape x) <= nthz k B) ->
  nthz (st_ax s) (nshape x) + 1 <= nthz (st_ax s) B ->
  idwt_axis fuel junk (Some a) (Some d) (st_w s) (st_m s) (st_ax s) = Ok (Some (of_nd (pax C (st_ax s) (st_m s) x))).
Proof.
  intros Hx Hpr Hs Oa Va Od Vd HB Hl Hk HN1. destruct (step_len s _ Hs) as (HN & Hcl). pose proof Hs as (A1 & A2 & A3 & A4).
  pose proof A2 as (H1 & H2 & H3 & H4 & H5).
  assert (S0 : nshape (dax (st_ax s) (st_m s) (dec_lo (st_w s)) x) = step_shape s (nshape x)) by (apply (dax_shape "a"%char); auto).
  assert (S1 : nshape (dax (st_ax s) (st_m s) (dec_hi (st_w s)) x) = step_shape s (nshape x)) by (apply (dax_shape "d"%char); auto).
  assert (EN : nthz (st_ax s) (step_shape s (nshape x)) = coeff_len (st_m s) (nthz (st_ax s) (nshape x)) (dec_len (st_w s)))
    by (unfold step_shape; rewrite nthz_setn; auto).
  assert (ER : rec_len (st_m s) (coeff_len (st_m s) (nthz (st_ax s) (nshape x)) (dec_len (st_w s))) (dec_len (st_w s))
    = nthz (st_ax s) (nshape x) + nthz (st_ax s) (nshape x) mod 2) by (apply rec_coeff_len; auto).
  rewrite (idwt_axis_spec C fuel junk _ _ (st_w s) (st_m s) (st_ax s) (step_shape s (nshape x))).
  - cbn [option_map sax2]. rewrite Va, Vd. rewrite pr_ax; auto.
  - intros y [<-|[<-|[]]]; (split; [auto|]).
    + rewrite <- (nshape_val C a), Va. auto.
    + rewrite <- (nshape_val C d), Vd. auto.
  - unfold step_shape. rewrite setn_length. auto.
  - rewrite EN. split; auto. split; [unfold resources in *; lia|]. split; [lia|]. rewrite ER. lia.
  - rewrite EN, ER. unfold step_shape. rewrite setn_setn. apply (box_bound B); auto; [apply Hx|lia].
Qed.

Lemma combine_seq_app {A} (l1 l2 : list A) : combine (seq 0 (List.length (l1 ++ l2))) (l1 ++ l2)
  = combine (seq 0 (List.length l1)) l1 ++ combine (seq (List.length l1) (List.length l2)) l2.
Proof.
  rewrite app_length, seq_app. cbn [Nat.add]. generalize (seq (List.length l1) (List.length l2)) as u. intros u.
  assert (G : forall (l1 : list A) k, combine (seq k (List.length l1) ++ u) (l1 ++ l2) = combine (seq k (List.length l1)) l1 ++ combine u l2).
  { induction l0 as [|a l IH]; intros k; cbn; auto. f_equal. apply IH. }
  apply G.
Qed.

(** The dictionary [D] holds the array [y] under key [k]. *)
Definition holds (D : dict (option (sarr C))) (k : string) (y : nd C) : Prop :=
  exists s, dget D k = Some (Some s) /\ sarr_ok C s /\ val C s = y.

Theorem idwtn_loop_spec junk plan : forall (x : nd C) (D : dict (option (sarr C))) B,
  nd_wf x -> plan_good B (nshape x) plan -> (forall s, In s plan -> pr_wavelet (st_w s)) ->
  (forall k, In k (ad_keys (List.length plan)) -> holds D k (band k plan x)) ->
  exists r, foldM (idwtn_step fuel junk (zlen (nshape x))) D (rev (combine (seq 0 (List.length (map to_z plan))) (map to_z plan))) = Ok r /\
    holds r EmptyString (paxs plan x) /\
    (plan <> [] -> dget r EmptyString = Some (Some (of_nd (paxs plan x)))).
Proof.
  induction plan as [|s p IH] using rev_ind; intros x D B Hx Hp Hpr HD.
  - exists D. split; [reflexivity|]. split; [|congruence]. apply (HD EmptyString). left; reflexivity.
  - rewrite map_app. cbn [map]. rewrite combine_seq_app, rev_app_distr. cbn [List.length seq combine rev app foldM].
    assert (Hp' : plan_good B (nshape x) (s :: p)).
    { apply (plan_good_perm _ _ (p ++ [s])); auto. apply Permutation_sym, Permutation_cons_append. }
    pose proof (plan_good_tail _ _ _ _ Hp') as (Hg & Hni & Hs & Hb).
    destruct (step_len s _ Hs) as (HN & Hcl). pose proof Hs as (A1 & A2 & A3 & A4).
    pose proof A2 as (_ & _ & _ & _ & HF2).
    assert (HB1 : nthz (st_ax s) (nshape x) + 1 <= nthz (st_ax s) B) by lia.
    assert (EL : List.length (p ++ [s]) = S (List.length p)) by (rewrite app_length; cbn; lia).
    assert (E : idwtn_step fuel junk (zlen (nshape x)) D (List.length (map to_z p), to_z s)
      = Ok (map (fun k => (k, Some (of_nd (band k p (pax C (st_ax s) (st_m s) x))))) (ad_keys (List.length p)))).
    { unfold idwtn_step, to_z. destruct s as [ax [w m]]. cbn [st_ax st_w st_m fst snd] in *.
      replace ((Z.of_nat ax <? 0) || (zlen (nshape x) <=? Z.of_nat ax)) with false by (unfold zlen; lia).
      rewrite map_length. apply mapM_ok. intros k Hk.
      destruct (ad_keys_snoc _ _ Hk) as (Ka & Kd).
      destruct (HD (append k "a")%string) as (sa & Ga & Oa & Va); [rewrite EL; assumption|].
      destruct (HD (append k "d")%string) as (sd & Gd & Od & Vd); [rewrite EL; assumption|].
      rewrite Ga, Gd. rewrite Nat2Z.id.
      rewrite band_snoc in Va, Vd by (apply ad_keys_length; auto). unfold pick in Va, Vd.
      cbn [Ascii.eqb Bool.eqb st_ax st_w st_m fst snd] in Va, Vd.
      assert (Wb : nd_wf (band k p x)) by (apply band_wf; auto; apply (plan_good_ok B); auto).
      assert (Hrun : exists sh', nshape (band k p x) = sh' /\ plan_good B sh' [(ax, (w, m))]).
      { eexists. split; [reflexivity|]. clear -Hp Wb Hx. revert k x Hx Hp Wb. induction p as [|t p IHp]; intros k x Hx Hp Wb.
        - destruct k; exact Hp.
        - cbn [app] in Hp. destruct k as [|c k].
          + cbn [band]. apply (plan_good_perm B _ ((t :: p) ++ [(ax, (w, m))]) ((ax, (w, m)) :: t :: p)) in Hp;
              [|apply Permutation_sym, Permutation_cons_append].
            destruct Hp as (G1 & G2 & G3 & G4 & G5 & G6). refine (conj G1 (conj G2 (conj G3 (conj G4 (conj _ _))))).
            * constructor; [intros []|constructor].
            * intros s [<-|[]]; apply G6; left; auto.
          + pose proof (plan_good_tail _ _ _ _ Hp) as (_ & _ & Ht & _).
            cbn [band] in *. apply IHp; auto.
            * apply dax_wf'; auto.
            * rewrite dax_shape by apply Ht. apply plan_good_step; auto. }
      destruct Hrun as (sh' & Esh & (G1 & G2 & G3 & G4 & G5 & G6)).
      destruct (G6 (ax, (w, m)) (or_introl eq_refl)) as (Gs & Gb). cbn [st_ax st_w st_m fst snd] in *.
      pose proof Gs as (_ & (_ & _ & _ & _ & GF) & _).
      pose proof (idwt_axis_pr junk (ax, (w, m)) sa sd (band k p x) B) as PRR. rewrite !Esh in PRR.
      cbn [st_ax st_w st_m fst snd] in PRR. rewrite PRR; auto.
      - cbn [bind]. rewrite (band_pax p k ax m x B); auto.
      - apply (Hpr (ax, (w, m))). apply in_or_app. right; left; auto.
      - destruct (step_len _ _ Gs) as (Q1 & _). cbn [st_ax st_w st_m fst snd] in Q1. lia. }
    rewrite E. cbn [bind].
    set (D' := map (fun k => (k, Some (of_nd (band k p (pax C (st_ax s) (st_m s) x))))) (ad_keys (List.length p))) in *.
    assert (Hpg : plan_good B (nshape (pax C (st_ax s) (st_m s) x)) p)
      by (rewrite pax_shape; apply plan_good_setn; auto; lia).
    assert (Wp : nd_wf (pax C (st_ax s) (st_m s) x)) by (apply pax_wf; auto).
    assert (HD' : forall k, In k (ad_keys (List.length p)) -> dget D' k = Some (Some (of_nd (band k p (pax C (st_ax s) (st_m s) x)))))
      by (intros k Hk; apply (dget_map (fun k => Some (of_nd (band k p (pax C (st_ax s) (st_m s) x))))); auto).
    destruct (IH (pax C (st_ax s) (st_m s) x) D' B) as (r & Er & Hr & Hr').
    + auto.
    + auto.
    + intros t Ht. apply Hpr. apply in_or_app. left; auto.
    + intros k Hk. exists (of_nd (band k p (pax C (st_ax s) (st_m s) x))). split; [apply HD'; auto|].
      assert (Wb : nd_wf (band k p (pax C (st_ax s) (st_m s) x))) by (apply band_wf; auto; apply (plan_good_ok B); auto).
      split; [apply of_nd_ok; auto|apply val_of_nd; auto].
    + exists r. rewrite pax_shape in Er. unfold zlen in Er. rewrite setn_length in Er. split; [exact Er|].
      rewrite paxs_snoc. split; auto. intros _. destruct p as [|s' p'].
      * cbn in Er. injection Er as <-. apply (HD' EmptyString). left; reflexivity.
      * apply Hr'. congruence.
Qed.

End MP.
