(** Proofs about the types of the results. *)
From Coq Require Import Ascii String.
From Verif Require Import Base CConv Lengths Dwt Swt Nd NdSpec Axis Multidim MultilevelNd SwtNd Packing Instances Dtype DtypeSpec.

Lemma kind_c_complex d : kind_c d = true <-> complex d.
Proof. unfold complex. destruct d; cbn; intuition congruence. Qed.
Lemma kind_i_integral d : kind_i d = true <-> integral d.
Proof. unfold integral. destruct d; cbn; intuition congruence. Qed.
Lemma complex_dec d : {complex d} + {~ complex d}.
Proof. unfold complex. destruct d; cbn; first [left; tauto | right; intuition congruence]. Qed.
Lemma integral_dec d : {integral d} + {~ integral d}.
Proof. unfold integral. destruct d; cbn; first [left; tauto | right; intuition congruence]. Qed.
Lemma dtype_eqb_eq a b : dtype_eqb a b = true <-> a = b.
Proof. destruct a, b; cbn; intuition congruence. Qed.
Lemma dtype_eqb_neq a b : dtype_eqb a b = false -> a <> b.
Proof. destruct a, b; cbn; intuition congruence. Qed.

Theorem nearest_check d : nearest d (check_dtype (Arr d)).
Proof. unfold nearest, supported, complex, integral. destruct d; cbn; intuition (try congruence; try lia). Qed.
Theorem nearest_unique d t u : nearest d t -> nearest d u -> t = u.
Proof.
  intros (S1 & C1 & I1 & W1) (S2 & C2 & I2 & W2). destruct (integral_dec d) as [i | i]; [rewrite (I1 i), (I2 i); reflexivity|].
  specialize (W1 i). specialize (W2 i). rewrite <- W1 in W2. assert (complex t <-> complex u) as CC by tauto.
  clear - S1 S2 W2 CC. unfold supported, complex in *. cbn in S1, S2.
  assert (F : forall x, In x [CSingle; CDouble; CLong] -> kind_c x = true) by (intros x [<-|[<-|[<-|[]]]]; reflexivity).
  destruct S1 as [<-|[<-|[<-|[<-|[]]]]]; destruct S2 as [<-|[<-|[<-|[<-|[]]]]]; try reflexivity; try discriminate W2;
    destruct CC as (CC1 & CC2); first [discriminate (F _ (CC1 ltac:(cbn; auto)))|discriminate (F _ (CC2 ltac:(cbn; auto)))].
Qed.
Theorem nearest_supported d : supported d -> nearest d d.
Proof. unfold nearest, supported, complex, integral. cbn. intuition (subst; cbn in *; try congruence; try lia). Qed.
Lemma nearest_idem d t : nearest d t -> check_dtype (Arr t) = t.
Proof. intros (S & _). unfold supported in S. cbn in S. intuition (subst; reflexivity). Qed.

(** ** joint *)
Lemma joint_one d t : nearest d t -> joint (eq d) t.
Proof.
  intros N. pose proof N as (S & CC & _). split; [exact S|]. split.
  - rewrite CC. split; [intros H; exists d; auto|intros (x & <- & H); exact H].
  - left. intros x <-. exact N.
Qed.
Lemma joint_ext (P Q : dtype -> Prop) t : (forall d, P d <-> Q d) -> joint P t -> joint Q t.
Proof.
  intros E (S & CC & W). split; [exact S|]. split.
  - rewrite CC. split; intros (x & H & K); exists x; split; auto; apply E; exact H.
  - destruct W as [W | W]; [left; intros d H; apply W, E, H|right; exact W].
Qed.
Lemma upcast_facts a b : supported (upcast a b) /\ (complex (upcast a b) <-> complex a \/ complex b) /\ width (upcast a b) = 8.
Proof. unfold supported, complex. destruct a, b; cbn; intuition congruence. Qed.
Lemma joint_join P Q t u : joint P t -> joint Q u ->
  joint (fun d => P d \/ Q d) (if dtype_eqb t u then t else upcast t u).
Proof.
  intros (S1 & C1 & W1) (S2 & C2 & W2). destruct (dtype_eqb t u) eqn:E.
  - apply dtype_eqb_eq in E. subst u. split; [exact S1|]. split.
    + split; [intros H; apply C1 in H; destruct H as (x & H & K); exists x; auto|].
      intros (x & [H | H] & K); [apply C1|apply C2]; exists x; auto.
    + destruct W1 as [W1 | W1]; [destruct W2 as [W2 | W2]; [left; intros d [H | H]; auto|right; exact W2]|right; exact W1].
  - destruct (upcast_facts t u) as (S & CC & W). split; [exact S|]. split; [|right; exact W]. rewrite CC, C1, C2. split.
    + intros [(x & H & K) | (x & H & K)]; exists x; auto.
    + intros (x & [H | H] & K); [left|right]; exists x; auto.
Qed.
Lemma upcast_sym t u : (if dtype_eqb u t then t else upcast t u) = (if dtype_eqb t u then t else upcast t u).
Proof. destruct t, u; reflexivity. Qed.

(** ** One level *)
Theorem dwt_dtype_array d : exists t, dwt_dtype (Arr d) = Ok t /\ nearest d t.
Proof. exists (check_dtype (Arr d)). split; [reflexivity|apply nearest_check]. Qed.
Theorem dwt_dtype_list d : dwt_dtype (Lst d) = if kind_c d then Err TypeError else Ok Double.
Proof. destruct d; reflexivity. Qed.


Theorem idwt_dtype_joint a d : a <> None \/ d <> None ->
  exists t, idwt_dtype (option_map Arr a) (option_map Arr d) = Ok t /\ joint (present [a; d]) t.
Proof.
  intros N. destruct a as [a |], d as [d |]; cbn [option_map idwt_dtype asarray_to bind].
  - eexists. split; [reflexivity|]. eapply joint_ext; [|apply joint_join; apply joint_one, nearest_check].
    intros x. unfold present. cbn. intuition congruence.
  - eexists. split; [reflexivity|]. eapply joint_ext; [|apply joint_one, nearest_check]. intros x. unfold present. cbn. intuition congruence.
  - eexists. split; [reflexivity|]. eapply joint_ext; [|apply joint_one, nearest_check]. intros x. unfold present. cbn. intuition congruence.
  - destruct N as [N | N]; congruence.
Qed.

(** ** dwtn, idwtn *)
Theorem dwtn_dtype_nearest n x : (1 <= n)%nat -> nearest (asarray x) (dwtn_dtype n x).
Proof.
  intros L. destruct n; [lia|]. unfold dwtn_dtype. cbn [dwtn_dtype_]. unfold dwt_axis_dtype at 1.
  assert (forall m t, check_dtype (Arr t) = t -> dwtn_dtype_ m t = t) as K.
  { induction m; intros t E; cbn [dwtn_dtype_]; [reflexivity|]. unfold dwt_axis_dtype. rewrite E. apply IHm, E. }
  rewrite K; [apply nearest_check|]. apply (nearest_idem (asarray x)), nearest_check.
Qed.

Lemma idwt_axis_same a : idwt_axis_dtypes (Some a) (Some a) = Some (check_dtype (Arr a), check_dtype (Arr a), check_dtype (Arr a)).
Proof. destruct a; reflexivity. Qed.
Theorem idwtn_pair_safe l h x y z : idwtn_pair l h = Some (x, y, z) -> x = z /\ y = z /\ supported z.
Proof.
  destruct l as [l |], h as [h |]; cbn [idwtn_pair].
  - destruct (dtype_eqb l h) eqn:E.
    + apply dtype_eqb_eq in E. subst h. rewrite idwt_axis_same. intros [= <- <- <-]. repeat split. apply nearest_check.
    + rewrite idwt_axis_same. intros [= <- <- <-]. repeat split. apply nearest_check.
  - cbn. intros [= <- <- <-]. repeat split. apply nearest_check.
  - cbn. intros [= <- <- <-]. repeat split. apply nearest_check.
  - discriminate.
Qed.
(** idwt_axis by itself. *)
Theorem idwt_axis_kind a d : (complex a <-> complex d) -> exists z, idwt_axis_dtypes (Some a) (Some d) = Some (z, z, z) /\ supported z /\ (complex z <-> complex a) /\
  (forall u v, nearest a u -> nearest d v -> ~ integral a -> ~ integral d -> width z = Z.max (width u) (width v)).
Proof.
  intros H. assert (K : forall u v, nearest a u -> nearest d v -> u = check_dtype (Arr a) /\ v = check_dtype (Arr d)).
  { intros u v Hu Hv. split; eapply nearest_unique; eauto; apply nearest_check. }
  assert (F : forall t, complex t <-> kind_c t = true).
  { intros t. destruct t; cbv; split; intros X; try reflexivity; try discriminate X; try (destruct X as [X|[X|[X|[]]]]; discriminate X); auto. }
  assert (I : forall t, kind_i t = true -> integral t) by (intros t; destruct t; cbv; intros X; try discriminate X; auto).
  assert (S : forall t, supported (check_dtype (Arr t))) by (intros t; apply nearest_check).
  assert (B : kind_c a = kind_c d).
  { pose proof (F a) as Fa. pose proof (F d) as Fd. destruct (kind_c a), (kind_c d); auto; [symmetry|]; tauto. }
  set (z := match idwt_axis_dtypes (Some a) (Some d) with Some (z, _, _) => z | None => Double end). exists z.
  assert (Z : idwt_axis_dtypes (Some a) (Some d) = Some (z, z, z) /\ (z = check_dtype (Arr a) \/ z = check_dtype (Arr d)) /\ kind_c z = kind_c a /\
    (kind_i a = false -> kind_i d = false -> width z = Z.max (width (check_dtype (Arr a))) (width (check_dtype (Arr d))))).
  { subst z. clear - B. destruct a, d; try discriminate B; (split; [reflexivity|]; split; [cbn; auto|]; split; [reflexivity|intros X Y; first [discriminate X|discriminate Y|reflexivity]]). }
  destruct Z as (Z1 & Z2 & Z3 & Z4). split; [exact Z1|]. split; [destruct Z2 as [-> | ->]; apply S|]. split; [rewrite !F, Z3; tauto|].
  intros u v Hu Hv Ia Id. destruct (K u v Hu Hv) as (-> & ->). apply Z4.
  - destruct (kind_i a) eqn:E; auto. destruct (Ia (I a E)).
  - destruct (kind_i d) eqn:E; auto. destruct (Id (I d E)).
Qed.
Theorem idwt_axis_mixed : exists a d x y z, supported a /\ supported d /\ idwt_axis_dtypes (Some a) (Some d) = Some (x, y, z) /\ y <> z.
Proof. exists CSingle, Double. do 3 eexists. split; [cbv; tauto|]. split; [cbv; tauto|]. split; [reflexivity|discriminate]. Qed.
Lemma pair_join (P Q : dtype -> Prop) l h :
  (match l with Some t => supported t -> joint P t | None => forall d, ~ P d end) ->
  (match h with Some t => supported t -> joint Q t | None => forall d, ~ Q d end) ->
  (match l with Some t => supported t | None => True end) -> (match h with Some t => supported t | None => True end) ->
  match option_map snd (idwtn_pair l h) with Some t => joint (fun d => P d \/ Q d) t | None => forall d, ~ (P d \/ Q d) end.
Proof.
  intros JP JQ SL SH. destruct l as [l |], h as [h |]; cbn [idwtn_pair].
  - specialize (JP SL). specialize (JQ SH). pose proof (joint_join P Q l h JP JQ) as J. destruct (dtype_eqb l h) eqn:E.
    + apply dtype_eqb_eq in E. subst h. rewrite idwt_axis_same. cbn [option_map snd].
      rewrite (nearest_idem l l) by (apply nearest_supported, SL). exact J.
    + rewrite idwt_axis_same. cbn [option_map snd].
      rewrite (nearest_idem _ _ (nearest_supported _ (proj1 (upcast_facts l h)))). exact J.
  - cbn [option_map snd idwt_axis_dtypes]. rewrite (nearest_idem l l) by (apply nearest_supported, SL).
    eapply joint_ext; [|exact (JP SL)]. intros d. split; [auto|intros [H | H]; [exact H|destruct (JQ d H)]].
  - cbn [option_map snd idwt_axis_dtypes]. rewrite (nearest_idem h h) by (apply nearest_supported, SH).
    eapply joint_ext; [|exact (JQ SH)]. intros d. split; [auto|intros [H | H]; [destruct (JP d H)|exact H]].
  - cbn. intros d [H | H]; [exact (JP d H)|exact (JQ d H)].
Qed.

(** Which arrays take part: the bands whose keys extend [key] by [n] letters. *)
Definition under (n : nat) (key : string) (bands : string -> option dtype) (d : dtype) : Prop :=
  exists k, ad_key n k /\ bands (key ++ k)%string = Some d.
Lemma append_assoc a b c : ((a ++ b) ++ c = a ++ (b ++ c))%string.
Proof. induction a; cbn; congruence. Qed.
Lemma append_nil a : (a ++ "" = a)%string.
Proof. induction a; cbn; congruence. Qed.
Lemma under_S n key bands d : under (S n) key bands d <-> under n (key ++ "a") bands d \/ under n (key ++ "d") bands d.
Proof.
  unfold under. split.
  - intros (k & K & B). inversion K; subst; [left|right]; exists k0; (split; [assumption|]); rewrite append_assoc; exact B.
  - intros [(k & K & B) | (k & K & B)]; rewrite append_assoc in B; cbn in B; [exists (String "a" k)|exists (String "d" k)]; split; auto; constructor; exact K.
Qed.
Lemma under_0 key bands d : under 0 key bands d <-> bands key = Some d.
Proof.
  unfold under. split; [intros (k & K & B); inversion K; subst; rewrite append_nil in B; exact B|].
  intros B. exists ""%string. split; [constructor|]. rewrite append_nil. exact B.
Qed.

Lemma pair_raw l h : match option_map snd (idwtn_pair l h) with
  | Some t => joint (fun d => l = Some d \/ h = Some d) t | None => l = None /\ h = None end.
Proof.
  destruct l as [l |], h as [h |]; cbn [idwtn_pair].
  - destruct (dtype_eqb l h) eqn:E.
    + apply dtype_eqb_eq in E. subst h. rewrite idwt_axis_same. cbn [option_map snd].
      eapply joint_ext; [|apply joint_one, nearest_check]. intros d. intuition congruence.
    + rewrite idwt_axis_same. cbn [option_map snd]. rewrite (nearest_idem _ _ (nearest_supported _ (proj1 (upcast_facts l h)))).
      destruct (upcast_facts l h) as (S & CC & W). split; [exact S|]. split; [|right; exact W]. rewrite CC. split.
      * intros [K | K]; eexists; (split; [|exact K]); auto.
      * intros (x & [[= ->] | [= ->]] & K); auto.
  - cbn. eapply joint_ext; [|apply joint_one, nearest_check]. intros d. intuition congruence.
  - cbn. eapply joint_ext; [|apply joint_one, nearest_check]. intros d. intuition congruence.
  - cbn. auto.
Qed.

Lemma idwtn_dtype_under n : forall key bands, (1 <= n)%nat ->
  match idwtn_dtype n key bands with Some t => joint (under n key bands) t | None => forall d, ~ under n key bands d end.
Proof.
  induction n; intros key bands L; [lia|]. destruct n.
  - cbn [idwtn_dtype]. pose proof (pair_raw (bands (key ++ "a")%string) (bands (key ++ "d")%string)) as H.
    destruct (option_map snd _); [|intros d; rewrite under_S, !under_0; destruct H as [H1 H2]; rewrite H1, H2; intuition congruence].
    eapply joint_ext; [|exact H]. intros x. rewrite under_S, !under_0. tauto.
  - pose proof (IHn (key ++ "a")%string bands ltac:(lia)) as HA. pose proof (IHn (key ++ "d")%string bands ltac:(lia)) as HD.
    cbn [idwtn_dtype] in *. remember (option_map snd (idwtn_pair (idwtn_dtype n ((key ++ "a") ++ "a") bands) _)) as l.
    remember (option_map snd (idwtn_pair (idwtn_dtype n ((key ++ "d") ++ "a") bands) _)) as h. clear Heql Heqh.
    pose proof (pair_join (under (S n) (key ++ "a") bands) (under (S n) (key ++ "d") bands) l h) as J.
    assert (match l with Some t => supported t | None => True end) as SL by (destruct l; [apply HA|exact I]).
    assert (match h with Some t => supported t | None => True end) as SH by (destruct h; [apply HD|exact I]).
    specialize (J ltac:(destruct l; auto) ltac:(destruct h; auto) SL SH).
    destruct (option_map snd (idwtn_pair l h)); [eapply joint_ext; [|exact J]; intros x; rewrite under_S; tauto|].
    intros x. rewrite under_S. apply J.
Qed.
Theorem idwtn_dtype_joint n bands : (1 <= n)%nat ->
  (exists k d, ad_key n k /\ bands k = Some d) ->
  exists t, idwtn_dtype n "" bands = Some t /\ joint (fun d => exists k, ad_key n k /\ bands k = Some d) t.
Proof.
  intros L (k & d & K & B). pose proof (idwtn_dtype_under n "" bands L) as H. destruct (idwtn_dtype n "" bands) as [t |].
  - exists t. split; [reflexivity|exact H].
  - destruct (H d). exists k. split; assumption.
Qed.

(** ** Several levels *)
Theorem wavedec_dtypes_nearest level x : (1 <= level)%nat ->
  exists t, nearest (asarray x) t /\ wavedec_dtypes level x = Ok (repeat t (S level)).
Proof.
  intros L. destruct level; [lia|]. set (t := check_dtype (Arr (asarray x))). exists t. split; [apply nearest_check|].
  assert (check_dtype (Arr t) = t) as E by (apply (nearest_idem (asarray x)), nearest_check).
  unfold wavedec_dtypes. cbn [wavedec_dtypes_ dwt_dtype asarray_to bind]. fold t.
  assert (forall n ds, wavedec_dtypes_ n t ds = Ok (t :: repeat t n ++ ds)) as K.
  { induction n; intros ds; cbn [wavedec_dtypes_ dwt_dtype asarray_to bind]; [reflexivity|]. rewrite E, IHn. cbn [repeat]. do 2 f_equal.
    clear. change (t :: repeat t n ++ ds) with ((t :: repeat t n) ++ ds). rewrite repeat_cons, <- app_assoc. reflexivity. }
  rewrite K. do 2 f_equal. cbn [repeat]. rewrite <- (repeat_cons level t). reflexivity.
Qed.

Lemma waverec_fold : forall ds (P : dtype -> Prop) a, joint P a ->
  exists t, foldM (fun a d => t <- idwt_dtype (option_map Arr a) (option_map Arr d) ;; Ok (Some t)) (Some a) ds = Ok (Some t) /\
    joint (fun d => P d \/ present ds d) t.
Proof.
  induction ds as [| d ds IH]; intros P a J.
  - exists a. split; [reflexivity|]. eapply joint_ext; [|exact J]. intros x. unfold present. cbn. tauto.
  - cbn [foldM]. destruct d as [d |]; cbn [option_map idwt_dtype asarray_to bind].
    + pose proof (nearest_idem a a (nearest_supported _ (proj1 J))) as E. rewrite E.
      pose proof (joint_join P (eq d) a (check_dtype (Arr d)) J (joint_one _ _ (nearest_check d))) as J'.
      destruct (IH _ _ J') as (t & F & JT). exists t. split; [exact F|]. eapply joint_ext; [|exact JT].
      intros x. unfold present. cbn. intuition congruence.
    + pose proof (nearest_idem a a (nearest_supported _ (proj1 J))) as E. rewrite E.
      destruct (IH _ _ J) as (t & F & JT). exists t. split; [exact F|]. eapply joint_ext; [|exact JT].
      intros x. unfold present. cbn. intuition congruence.
Qed.
Theorem waverec_dtype_joint a d ds : a <> None \/ d <> None ->
  exists t, waverec_dtype (a :: d :: ds) = Ok (Some t) /\ joint (present (a :: d :: ds)) t.
Proof.
  intros N. cbn [waverec_dtype foldM]. destruct (idwt_dtype_joint a d N) as (t & E & J). rewrite E. cbn [bind].
  destruct (waverec_fold ds _ t J) as (u & F & JU). exists u. split; [exact F|]. eapply joint_ext; [|exact JU].
  intros x. unfold present. cbn. tauto.
Qed.
Theorem waverec_wavedec_dtype level x : (1 <= level)%nat ->
  exists t, nearest (asarray x) t /\ (cs <- wavedec_dtypes level x ;; waverec_dtype (map Some cs)) = Ok (Some t).
Proof.
  intros L. destruct (wavedec_dtypes_nearest level x L) as (t & N & E). exists t. split; [exact N|]. rewrite E. cbn [bind repeat map waverec_dtype].
  pose proof (nearest_idem _ _ N) as I. clear E L.
  induction level; [reflexivity|]. cbn [repeat map foldM option_map idwt_dtype asarray_to bind]. rewrite I.
  replace (dtype_eqb t t) with true by (symmetry; apply dtype_eqb_eq; reflexivity). exact IHlevel.
Qed.

Theorem iswt_dtype_joint a ds : exists t, iswt_dtype a ds = Ok t /\ joint (fun d => In d (a :: ds)) t.
Proof.
  unfold iswt_dtype. cbn [asarray_to bind].
  assert (forall l P o, joint P o -> exists t, foldM (fun o d => let t := check_dtype (Arr d) in Ok (if dtype_eqb t o then o else upcast o t)) o l = Ok t /\
            joint (fun d => P d \/ In d l) t) as K.
  { induction l as [| d l IH]; intros P o J; cbn [foldM bind].
    - exists o. split; [reflexivity|]. eapply joint_ext; [|exact J]. cbn. tauto.
    - cbv zeta. cbn [bind]. rewrite upcast_sym.
      destruct (IH _ _ (joint_join P (eq d) o (check_dtype (Arr d)) J (joint_one _ _ (nearest_check d)))) as (t & F & JT).
      exists t. split; [exact F|]. eapply joint_ext; [|exact JT]. intros x. cbn. tauto. }
  destruct (K ds _ _ (joint_one _ _ (nearest_check a))) as (t & F & J). exists t. split; [exact F|]. eapply joint_ext; [|exact J].
  intros x. cbn. tauto.
Qed.

Theorem cwt_dtype_spec cplx d : exists t, cwt_dtype cplx (Arr d) = Ok t /\ supported t /\
  (complex t <-> cplx = true \/ complex d) /\ (forall u, nearest d u -> width t = width u).
Proof.
  unfold cwt_dtype. cbn [asarray_to bind]. eexists. split; [reflexivity|].
  assert (forall u, nearest d u -> u = check_dtype (Arr d)) as U by (intros u N; exact (nearest_unique d _ _ N (nearest_check d))).
  unfold supported, complex. destruct cplx, d; cbn; (split; [tauto|]; split; [intuition congruence|]; intros u N; rewrite (U u N); reflexivity).
Qed.
