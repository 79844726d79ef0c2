(** Proofs about the conversions that change values. *)
From Coq Require Import Ascii String.
From Verif Require Import Base CConv Lengths Dwt Swt Nd NdSpec Axis Multidim MultilevelNd SwtNd Packing Instances Dtype DtypeSpec DtypeProofs.

Lemma promote_c a b : kind_c (promote a b) = kind_c a || kind_c b.
Proof. destruct a, b; reflexivity. Qed.
Lemma promote_i a b : kind_i (promote a b) = kind_i a && kind_i b.
Proof. destruct a, b; reflexivity. Qed.
Lemma check_c d : kind_c (check_dtype (Arr d)) = kind_c d.
Proof. destruct d; reflexivity. Qed.
Lemma check_i d : kind_i (check_dtype (Arr d)) = false.
Proof. destruct d; reflexivity. Qed.

Section V.
Context {C : CRing}.
Variables (trunc : C -> C) (truth : Cplx C -> C) (fuel : nat) (junk : Z -> Cplx C).

Theorem cast_fits from to v : fits from to -> cast C trunc truth from to v = v.
Proof.
  intros (F1 & F2 & F3). unfold cast.
  destruct (dtype_eqb to Bool) eqn:E; [apply dtype_eqb_eq in E; rewrite (F3 E); subst; cbn; reflexivity|]. cbn [andb].
  assert (kind_c from && negb (kind_c to) = false) as K.
  { destruct (kind_c from) eqn:A; [|reflexivity]. rewrite (proj2 (kind_c_complex to)); [reflexivity|]. apply F1, kind_c_complex, A. }
  rewrite K. assert (kind_i to && negb (kind_i from) = false) as L.
  { destruct (kind_i to) eqn:A; [|reflexivity]. rewrite (proj2 (kind_i_integral from)); [reflexivity|]. apply F2, kind_i_integral, A. }
  rewrite L. reflexivity.
Qed.
Lemma castnd_fits from to a : fits from to -> castnd C trunc truth from to a = a.
Proof.
  intros F. unfold castnd. destruct a as [sh l]. cbn. f_equal. rewrite <- (map_id l) at 2. apply map_ext. intros v. apply cast_fits, F.
Qed.
Lemma fits_kind from to : kind_i to = false -> (kind_c from = true -> kind_c to = true) -> fits from to.
Proof.
  intros I K. split; [rewrite <- !kind_c_complex; exact K|]. split; [rewrite <- kind_i_integral; congruence|]. intros ->. discriminate.
Qed.
Lemma fits_check d : fits d (check_dtype (Arr d)).
Proof. apply fits_kind; [apply check_i|rewrite check_c; auto]. Qed.

(** ** The loop of iswtn *)
Definition clevel (ds : dict (typed C)) : bool := existsb (fun kv => kind_c (fst (snd kv))) ds.
Lemma clevel_spec ds : clevel ds = true <-> complex_level ds.
Proof.
  unfold clevel, complex_level. rewrite existsb_exists. split.
  - intros ((k, t) & H & K). exists k, t. split; [exact H|]. apply kind_c_complex, K.
  - intros (k & t & H & K). exists (k, t). split; [exact H|]. apply kind_c_complex, K.
Qed.
Lemma level_c ds : forall dt, kind_c (level_dtype C dt ds) = kind_c dt || clevel ds.
Proof.
  induction ds as [| (k, t) ds IH]; intros dt; cbn [level_dtype fold_left clevel existsb snd].
  - rewrite orb_false_r. reflexivity.
  - unfold level_dtype in IH. rewrite IH, promote_c, orb_assoc. reflexivity.
Qed.
Lemma level_i ds : forall dt, kind_i dt = false -> kind_i (level_dtype C dt ds) = false.
Proof.
  induction ds as [| (k, t) ds IH]; intros dt I; [exact I|]. cbn [level_dtype fold_left]. apply IH. rewrite promote_i, I. reflexivity.
Qed.

Lemma dget_untype d k : dget (untype_dict C d) k = option_map snd (dget d k).
Proof. induction d as [| (k', t) d IH]; [reflexivity|]. cbn. destruct (String.eqb k' k); [reflexivity|exact IH]. Qed.
Lemma dremove_untype d k : dremove (untype_dict C d) k = untype_dict C (dremove d k).
Proof. induction d as [| (k', t) d IH]; [reflexivity|]. cbn. destruct (String.eqb k' k); [reflexivity|]. cbn. f_equal. exact IH. Qed.
Lemma dremove_filter {A} (d : dict A) k : NoDup (map fst d) -> dremove d k = filter (fun kv => negb (String.eqb (fst kv) k)) d.
Proof.
  induction d as [| (k', t) d IH]; intros N; [reflexivity|]. cbn in *. inversion N; subst. destruct (String.eqb k' k) eqn:E; cbn.
  - apply String.eqb_eq in E. subst k'. clear IH N. revert H1 H2. induction d as [| (k', t') d IH]; intros H1 H2; [reflexivity|]. cbn in *.
    destruct (String.eqb k' k) eqn:E; [apply String.eqb_eq in E; tauto|]. cbn. f_equal. inversion H2; subst. apply IH; tauto.
  - rewrite IH by assumption. reflexivity.
Qed.

Definition mono (l : list (dict (typed C))) : Prop :=
  forall i j di dj, (i <= j)%nat -> nth_error l i = Some di -> nth_error l j = Some dj -> complex_level di -> complex_level dj.
Lemma mono_head d l : mono (d :: l) -> mono l /\ (complex_level d -> forall x, In x l -> complex_level x).
Proof.
  intros M. split.
  - intros i j di dj L A B. apply (M (S i) (S j)); auto. lia.
  - intros K x I. apply In_nth_error in I. destruct I as (n & E). apply (M O (S n) d x); auto. lia.
Qed.
Lemma no_loss_iff a l : no_loss a l <-> kind_c a = true \/ mono l.
Proof. unfold no_loss. rewrite kind_c_complex. reflexivity. Qed.


Lemma to_common_id od common x : fits od common -> to_common C trunc truth od common x = x.
Proof. intros F. unfold to_common. destruct (dtype_eqb od common); [reflexivity|]. apply castnd_fits, F. Qed.

Lemma iswtn_loop_untype half axes ws nt trim dt : kind_i dt = false -> forall cs od output,
  (forall it, In it cs -> dict_ok it) ->
  kind_c dt = true \/ mono (details_of trim nt cs) ->
  (kind_c od = true -> kind_c dt = true \/ forall x, In x (details_of trim nt cs) -> complex_level x) ->
  (r <- iswtn_loop_t C trunc truth fuel junk half axes ws nt trim dt od output cs ;; Ok (snd r))
  = snd (iswtn_loop fuel junk half axes ws nt trim output (map (untype C) cs)).
Proof.
  intros Idt. induction cs as [| it cs IH]; intros od output DK NL OD; [reflexivity|].
  destruct it as [t | d]; [reflexivity|]. cbn [iswtn_loop_t map untype iswtn_loop].
  assert (NoDup (map fst d)) as ND by (apply (DK (TDict _ d)); left; reflexivity).
  set (details := if trim then d else filter (fun kv => negb (String.eqb (fst kv) (all_a nt))) d).
  assert (details_of trim nt (TDict _ d :: cs) = details :: details_of trim nt cs) as ED by reflexivity.
  rewrite ED in NL, OD.
  assert (zlen (map (untype C) cs) = zlen cs) as EZ by (unfold zlen; rewrite map_length; reflexivity).
  assert (forall e, e = untype_dict C details ->
    (r <- (output' <- iswtn_level fuel junk half axes ws nt (2 ^ zlen cs) (to_common C trunc truth od (level_dtype C dt details) output) (untype_dict C details) ;;
           iswtn_loop_t C trunc truth fuel junk half axes ws nt trim dt (level_dtype C dt details) output' cs) ;; Ok (snd r))
    = (o <- iswtn_level fuel junk half axes ws nt (2 ^ zlen cs) output e ;; snd (iswtn_loop fuel junk half axes ws nt trim o (map (untype C) cs)))) as STEP.
  { intros e ->. rewrite to_common_id.
    2:{ apply fits_kind; [apply level_i, Idt|]. rewrite level_c. intros K. destruct (OD K) as [-> | H]; [reflexivity|].
        rewrite (proj2 (clevel_spec details)), orb_true_r; [reflexivity|]. apply H. left. reflexivity. }
    destruct (iswtn_level fuel junk half axes ws nt (2 ^ zlen cs) output (untype_dict C details)) as [o | | | e]; try reflexivity.
    cbn [bind]. apply IH.
    - intros it I. apply DK. right. exact I.
    - destruct NL as [NL | NL]; [left; exact NL|right; apply (mono_head _ _ NL)].
    - rewrite level_c. intros K. apply orb_true_iff in K. destruct K as [K | K]; [left; exact K|].
      destruct NL as [NL | NL]; [left; exact NL|]. right. apply (mono_head _ _ NL), clevel_spec, K. }
  destruct trim.
  - cbn [bind]. fold details. specialize (STEP _ eq_refl). cbv zeta. etransitivity; [exact STEP|]. rewrite EZ. subst details. cbn iota.
    clear STEP. destruct (iswtn_level _ _ _ _ _ _ _ _ _) as [o | | | e]; try reflexivity. cbn [bind].
    destruct (iswtn_loop fuel junk half axes ws nt true o (map (untype C) cs)). reflexivity.
  - rewrite dget_untype. destruct (dget d (all_a nt)) as [a |] eqn:G; [|reflexivity]. cbn [option_map bind]. rewrite (dremove_filter d) by exact ND. fold details.
    specialize (STEP (untype_dict C (dremove d (all_a nt))) ltac:(rewrite (dremove_filter d) by exact ND; reflexivity)).
    cbv zeta. etransitivity; [exact STEP|]. rewrite EZ, dremove_untype.
    clear STEP. destruct (iswtn_level _ _ _ _ _ _ _ _ _) as [o | | | e]; try reflexivity. cbn [bind].
    destruct (iswtn_loop fuel junk half axes ws nt false o (map (untype C) cs)). reflexivity.
Qed.


Theorem iswtn_untype half (cs : list (titem C)) w axes norm :
  (forall it, In it cs -> dict_ok it) ->
  (forall nt trim a, match rev cs with it :: _ => key_length (untype C it) = Ok nt | [] => True end -> approx_of nt cs = Some (trim, a) ->
     no_loss (fst a) (details_of trim nt cs)) ->
  (r <- iswtn_t C trunc truth fuel junk half cs w axes norm ;; Ok (of_nd (snd r)))
  = snd (iswtn fuel junk half (map (untype C) cs) w axes norm).
Proof.
  intros DK NL. unfold iswtn_t, iswtn. rewrite <- map_rev. destruct (rev cs) as [| it rc] eqn:RV; [reflexivity|]. cbn [map].
  destruct (key_length (untype C it)) as [nt | | | e] eqn:KL; try reflexivity. cbn [bind].
  destruct cs as [| c0 rest]; [reflexivity|]. cbn [map]. specialize (NL nt).
  assert (forall trim a cs', approx_of nt (c0 :: rest) = Some (trim, a) -> cs' = (if trim then rest else c0 :: rest) ->
            forall ws, (r <- iswtn_loop_t C trunc truth fuel junk half (norm_axes (ndim (snd a)) match axes with None => tab (ndim (snd a)) (fun i => i) | Some l => l end)
                   (map (norm_w norm) ws) nt trim (check_dtype (Arr (fst a))) (check_dtype (Arr (fst a)))
                   (castnd C trunc truth (fst a) (check_dtype (Arr (fst a))) (val (Cplx C) (snd a))) cs' ;; Ok (snd r))
            = snd (iswtn_loop fuel junk half (norm_axes (ndim (snd a)) match axes with None => tab (ndim (snd a)) (fun i => i) | Some l => l end)
                   (map (norm_w norm) ws) nt trim (val (Cplx C) (snd a)) (map (untype C) cs'))) as K.
  { intros trim a cs' AP -> ws. rewrite castnd_fits by apply fits_check. specialize (NL trim a eq_refl AP). apply no_loss_iff in NL.
    rewrite <- check_c in NL. apply iswtn_loop_untype.
    - apply check_i.
    - intros x I. apply DK. destruct trim; [right; exact I|exact I].
    - destruct NL as [NL | NL]; [left; exact NL|right]. destruct trim; [|exact NL].
      destruct c0 as [t | d]; [exact NL|]. cbn in AP. destruct (dget d (all_a nt)); discriminate.
    - auto. }
  destruct c0 as [a | d]; cbn [untype bind].
  - destruct (negb (Nat.eqb (List.length _) (distinct _))); [reflexivity|]. destruct (negb (Nat.eqb nt _)); [reflexivity|].
    destruct (objs_per_axis w _) as [ws | | | e]; try reflexivity. cbn [bind].
    specialize (K true a _ eq_refl eq_refl ws). cbn iota in K.
    destruct (iswtn_loop fuel junk half _ (map (norm_w norm) ws) nt true (val (Cplx C) (snd a)) (map (untype C) rest)) as [cs' r]. cbn [snd] in K |- *.
    rewrite <- K. destruct (iswtn_loop_t C trunc truth fuel junk half _ _ _ _ _ _ _ _) as [(?, ?) | | | e]; reflexivity.
  - unfold dgetE. rewrite dget_untype. destruct (dget d (all_a nt)) as [a |] eqn:G; [|reflexivity]. cbn [option_map bind].
    destruct (negb (Nat.eqb (List.length _) (distinct _))); [reflexivity|]. destruct (negb (Nat.eqb nt _)); [reflexivity|].
    destruct (objs_per_axis w _) as [ws | | | e]; try reflexivity. cbn [bind].
    specialize (K false a (TDict _ d :: rest) ltac:(cbn; rewrite G; reflexivity) eq_refl ws).
    change (NDict (untype_dict C d) :: map (untype C) rest) with (map (untype C) (TDict _ d :: rest)).
    destruct (iswtn_loop fuel junk half _ (map (norm_w norm) ws) nt false (val (Cplx C) (snd a)) (map (untype C) (TDict _ d :: rest))) as [cs' r]. cbn [snd] in K |- *.
    rewrite <- K. destruct (iswtn_loop_t C trunc truth fuel junk half _ _ _ _ _ _ _ _) as [(?, ?) | | | e]; reflexivity.
Qed.

(** ** The loop of iswt2 *)
Definition dict3 (t : typed C * typed C * typed C) : dict (typed C) := let '(h, v, d) := t in [("da", h); ("ad", v); ("dd", d)]%string.
Definition untype3 (t : typed C * typed C * typed C) : sarr (Cplx C) * sarr (Cplx C) * sarr (Cplx C) := let '(h, v, d) := t in (snd h, snd v, snd d).

Lemma iswt2_loop_untype quarter ws dt : kind_i dt = false -> forall cs od output,
  kind_c dt = true \/ mono (map dict3 cs) ->
  (kind_c od = true -> kind_c dt = true \/ forall x, In x (map dict3 cs) -> complex_level x) ->
  (r <- iswt2_loop_t C trunc truth fuel junk quarter ws dt od output cs ;; Ok (snd r))
  = iswt2_loop fuel junk quarter ws output (map untype3 cs).
Proof.
  intros Idt. induction cs as [| ((h, v), d) cs IH]; intros od output NL OD; [reflexivity|].
  cbn [iswt2_loop_t map untype3 iswt2_loop]. cbv zeta.
  assert (zlen (map untype3 cs) = zlen cs) as EZ by (unfold zlen; rewrite map_length; reflexivity). rewrite EZ. clear EZ.
  destruct (_ || _); [reflexivity|]. destruct (negb (ndim (snd h) =? 2)); [reflexivity|].
  set (common := promote _ _).
  assert (kind_c common = kind_c dt || clevel (dict3 (h, v, d))) as KC.
  { unfold common, clevel. cbn [dict3 existsb snd]. rewrite !promote_c, !check_c, orb_false_r, !orb_assoc. reflexivity. }
  assert (kind_i common = false) as KI by (unfold common; rewrite !promote_i, Idt; reflexivity).
  clearbody common. cbn [map] in NL, OD. rewrite to_common_id.
  2:{ apply fits_kind; [exact KI|]. rewrite KC. intros K. destruct (OD K) as [-> | H]; [reflexivity|].
      rewrite (proj2 (clevel_spec _)), orb_true_r; [reflexivity|]. apply H. left. reflexivity. }
  destruct (foldM _ _ _) as [o | | | e]; try reflexivity. cbn [bind]. apply IH.
  - destruct NL as [NL | NL]; [left; exact NL|right; apply (mono_head _ _ NL)].
  - rewrite KC. intros K. apply orb_true_iff in K. destruct K as [K | K]; [left; exact K|].
    destruct NL as [NL | NL]; [left; exact NL|]. right. apply (mono_head _ _ NL), clevel_spec, K.
Qed.


Lemma mapM_map {A B D} (f : B -> res D) (g : A -> B) l : mapM f (map g l) = mapM (fun a => f (g a)) l.
Proof. induction l; cbn; [reflexivity|]. rewrite IHl. reflexivity. Qed.
Lemma mapM_ok_map {A B D} (f : A -> res B) (h : A -> res D) (g : B -> D) l :
  (forall a, h a = (b <- f a ;; Ok (g b))) -> mapM h l = (r <- mapM f l ;; Ok (map g r)).
Proof.
  intros E. induction l as [| a l IH]; cbn; [reflexivity|]. rewrite E, IH. destruct (f a) as [b | | |]; cbn; try reflexivity.
  destruct (mapM f l); reflexivity.
Qed.

Definition untype_pair (p : typed C * (typed C * typed C * typed C)) := (snd (fst p), untype3 (snd p)).

Lemma details_trim0 (ds : list (typed C * (typed C * typed C * typed C))) a nt :
  details_of true nt (TArr C a :: map (fun '(_, (h, v, d)) => TDict C [("da", h); ("ad", v); ("dd", d)]%string) ds) = map dict3 (map snd ds).
Proof. cbn. induction ds as [| (?, ((h, v), d)) ds IH]; cbn; [reflexivity|]. f_equal. exact IH. Qed.
Lemma details_full (ds : list (typed C * (typed C * typed C * typed C))) :
  details_of false 2 (map (fun '(a, (h, v, d)) => TDict C [("aa", a); ("da", h); ("ad", v); ("dd", d)]%string) ds) = map dict3 (map snd ds).
Proof. induction ds as [| (?, ((h, v), d)) ds IH]; cbn; [reflexivity|]. f_equal. exact IH. Qed.

Lemma nodup_keys2 {A} (h v d : A) : NoDup (map fst [("da", h); ("ad", v); ("dd", d)]%string).
Proof. cbn. repeat constructor; cbn; intuition congruence. Qed.
Lemma nodup_keys4 {A} (a h v d : A) : NoDup (map fst [("aa", a); ("da", h); ("ad", v); ("dd", d)]%string).
Proof. cbn. repeat constructor; cbn; intuition congruence. Qed.

Theorem iswt2_untype half (cs : list (titem2 C)) w norm axes :
  (forall a, approx2_of cs = Some a -> no_loss (fst a) (details2_of cs)) ->
  (r <- iswt2_t C trunc truth fuel junk half cs w norm axes ;; Ok (of_nd (snd r)))
  = iswt2 fuel junk half (map (untype2 C) cs) w norm axes.
Proof.
  intros NL. destruct cs as [| c0 rest]; [reflexivity|].
  assert (forall ds (a : typed C), no_loss (fst a) (map dict3 (map snd ds)) -> forall half',
    (r <- (let dt := check_dtype (Arr (fst a)) in ws <- objs_per_axis w 2 ;;
           iswt2_loop_t C trunc truth fuel junk half' (map (norm_w norm) ws) dt dt (castnd C trunc truth (fst a) dt (val (Cplx C) (snd a))) (map snd ds)) ;; Ok (of_nd (snd r)))
    = (ws <- objs_per_axis w 2 ;; o <- iswt2_loop fuel junk half' (map (norm_w norm) ws) (val (Cplx C) (snd a)) (map snd (map untype_pair ds)) ;; Ok (of_nd o))) as K.
  { intros ds a N h'. cbv zeta. destruct (objs_per_axis w 2) as [ws | | |]; try reflexivity. cbn [bind].
    replace (map snd (map untype_pair ds)) with (map untype3 (map snd ds)) by (rewrite !map_map; apply map_ext; intros (?, ?); reflexivity).
    apply no_loss_iff in N. rewrite <- check_c in N. rewrite castnd_fits by apply fits_check.
    rewrite <- (iswt2_loop_untype h' (map (norm_w norm) ws) (check_dtype (Arr (fst a))) (check_i _) (map snd ds) (check_dtype (Arr (fst a)))); [|exact N|auto].
    destruct (iswt2_loop_t _ _ _ _ _ _ _ _ _ _ _) as [(?, ?) | | |]; reflexivity. }
  destruct c0 as [a | a h v d | h v d]; [| |reflexivity].
  - unfold iswt2_t, iswt2. cbn [map untype2].
    rewrite mapM_map.
    rewrite (mapM_ok_map (fun c => match c with TD2 _ h v d => Ok (a, (h, v, d)) | _ => Err ValueError end)
      (fun c => match untype2 C c with D2 h v d => Ok (snd a, (h, v, d)) | _ => Err ValueError end) untype_pair) by (intros [| |]; reflexivity).
    destruct (mapM (fun c => match c with TD2 _ h v d => Ok (a, (h, v, d)) | _ => Err ValueError end) rest) as [ds | | |] eqn:M; try reflexivity.
    assert (no_loss (fst a) (map dict3 (map snd ds))) as N.
    { specialize (NL a eq_refl). replace (map dict3 (map snd ds)) with (details2_of (TA2 C a :: rest)); [exact NL|].
      clear - M. cbn. revert ds M. induction rest as [| c rest IH]; intros ds M; [injection M as <-; reflexivity|]. cbn in M.
      destruct c as [| | h v d]; try discriminate. cbn in M. destruct (mapM _ rest) as [ds' | | |] eqn:M'; try discriminate. injection M as <-. cbn. f_equal. apply IH. reflexivity. }
    cbn [bind]. destruct (_ || _).
    + rewrite (iswtn_untype half).
      * cbn [map untype]. rewrite !map_map. do 3 f_equal. apply map_ext. intros (?, ((?, ?), ?)). reflexivity.
      * intros it I. destruct I as [<- | I]; [exact Logic.I|]. apply in_map_iff in I. destruct I as ((?, ((h, v), d)) & <- & _). apply nodup_keys2.
      * intros nt trim a' _ [= <- <-]. rewrite details_trim0. exact N.
    + apply K, N.
  - unfold iswt2_t, iswt2. cbn [map untype2].
    change (AD2 (snd a) (snd h) (snd v) (snd d) :: map (untype2 C) rest) with (map (untype2 C) (TAD2 C a h v d :: rest)).
    rewrite mapM_map.
    rewrite (mapM_ok_map (fun c => match c with TAD2 _ a h v d => Ok (a, (h, v, d)) | _ => Err ValueError end)
      (fun c => match untype2 C c with AD2 a h v d => Ok (a, (h, v, d)) | _ => Err ValueError end) untype_pair) by (intros [| |]; reflexivity).
    destruct (mapM (fun c => match c with TAD2 _ a h v d => Ok (a, (h, v, d)) | _ => Err ValueError end) (TAD2 C a h v d :: rest)) as [ds | | |] eqn:M; try reflexivity.
    assert (exists ds', ds = (a, (h, v, d)) :: ds') as (ds' & Eds).
    { cbn in M. destruct (mapM _ rest) as [ds' | | |]; try discriminate. injection M as <-. eauto. }
    assert (no_loss (fst a) (map dict3 (map snd ds))) as N.
    { specialize (NL a eq_refl). replace (map dict3 (map snd ds)) with (details2_of (TAD2 C a h v d :: rest)); [exact NL|].
      clear - M. revert ds M. generalize (TAD2 C a h v d :: rest). clear. intros cs. induction cs as [| c rest IH]; intros ds M; [injection M as <-; reflexivity|]. cbn in M.
      destruct c as [| a h v d |]; try discriminate. cbn in M. destruct (mapM _ rest) as [ds' | | |] eqn:M'; try discriminate. injection M as <-. cbn. f_equal. apply IH. reflexivity. }
    cbn [bind]. destruct (_ || _).
    + rewrite (iswtn_untype half).
      * rewrite !map_map. do 2 f_equal. apply map_ext. intros (?, ((?, ?), ?)). reflexivity.
      * intros it I. apply in_map_iff in I. destruct I as ((?, ((h', v'), d')) & <- & _). apply nodup_keys4.
      * intros nt trim a' KL AP.
        assert (nt = 2%nat) as ->.
        { rewrite <- map_rev in KL. destruct (rev ds) as [| (?, ((?, ?), ?)) r] eqn:RV; [|cbn in KL; congruence].
          apply (f_equal (@rev _)) in RV. rewrite rev_involutive in RV. subst ds. discriminate. }
        subst ds. cbn in AP. injection AP as <- <-.
        change (no_loss (fst a) (details_of false 2 (map (fun '(a, (h, v, d)) => TDict C [("aa", a); ("da", h); ("ad", v); ("dd", d)]%string) ((a, (h, v, d)) :: ds')))).
        rewrite details_full. exact N.
    + apply K, N.
Qed.

(** ** Packing *)
Lemma stored_fits cs : all_fit cs -> stored C trunc truth cs = map (pconv C snd) cs.
Proof.
  destruct cs as [| [| a | l | d] ds]; try reflexivity. cbn [all_fit stored map pconv]. intros F. f_equal. apply map_ext_in. intros x I.
  specialize (F x I). destruct x as [| t | l | d]; cbn [pconv].
  - reflexivity.
  - f_equal. apply castnd_fits, F.
  - f_equal. apply map_ext_in. intros [t |] J; cbn; [|reflexivity]. f_equal. apply castnd_fits, F, J.
  - f_equal. apply map_ext_in. intros (k, [t |]) J; cbn; [|reflexivity]. do 2 f_equal. apply (castnd_fits (fst t)), (F k), J.
Qed.
Theorem coeffs_to_array_fits junkl cs padding axes : all_fit cs ->
  (forall d p, padding = Some (d, p) -> fits d (pdtype C cs)) ->
  coeffs_to_array_t C trunc truth junkl cs padding axes = coeffs_to_array (Cplx C) junkl (map (pconv C snd) cs) (option_map snd padding) axes.
Proof.
  intros F P. unfold coeffs_to_array_t. rewrite stored_fits by exact F. f_equal. destruct padding as [(d, p) |]; cbn; [|reflexivity].
  f_equal. apply cast_fits. apply (P d p eq_refl).
Qed.
Theorem ravel_coeffs_fits cs axes : all_fit cs ->
  ravel_coeffs_t C trunc truth junk cs axes = ravel_coeffs (Cplx C) junk (map (pconv C snd) cs) axes.
Proof. intros F. unfold ravel_coeffs_t. rewrite stored_fits by exact F. reflexivity. Qed.

(** ** Packets *)
Theorem assigned_array d v : nearest d (fst (assigned C trunc truth (SrcArr C (d, v)))) /\ snd (assigned C trunc truth (SrcArr C (d, v))) = v.
Proof.
  unfold assigned. destruct (dtype_eqb d (check_dtype (Arr d))) eqn:E; cbn [fst snd].
  - apply dtype_eqb_eq in E. split; [|reflexivity]. rewrite E at 2. apply nearest_check.
  - split; [apply nearest_check|apply castnd_fits, fits_check].
Qed.
Theorem assigned_other s d v : s = SrcLst C (d, v) \/ s = SrcNode C (d, v) -> ~ complex d -> assigned C trunc truth s = (Double, v).
Proof.
  intros S N. assert (castnd C trunc truth d Double v = v) as K.
  { apply castnd_fits. split; [tauto|]. split; [intros [H | [H | []]]; discriminate|discriminate]. }
  destruct S as [-> | ->]; unfold assigned; cbn [check_dtype]; (destruct (dtype_eqb d Double) eqn:E; [apply dtype_eqb_eq in E; subst; reflexivity|rewrite K; reflexivity]).
Qed.
Theorem assigned_complex s d v : s = SrcLst C (d, v) \/ s = SrcNode C (d, v) -> complex d ->
  assigned C trunc truth s = (Double, mkNd (C := Cplx C) (nshape v) (map (fun z : Cplx C => (fst z, @r0 C) : Cplx C) (ndata v))).
Proof.
  intros S N. unfold complex in N. cbn in N. destruct S as [-> | ->]; unfold assigned; cbn [check_dtype]; destruct N as [<- | [<- | [<- | []]]]; reflexivity.
Qed.
End V.
