(** Packet trees built up from the data of the leaves. *)
From Coq Require Import Permutation String Ascii.
From Verif Require Import Base Multilevel Swt Nd Multidim MultidimProofs MultilevelNd SwtNd SwtNdArgs Packets PacketsInv PacketsPath PacketsPath2 PacketsRead PacketsLevel.
Open Scope list_scope.

(** Shapes of complete trees: a leaf, or one subtree for every part. *)
Inductive ptree : Type := PLeaf | PSplit (sub : string -> ptree).
(** The leaves and their data if [band p] is the analysis for part [p]. *)
Fixpoint leaf_data {D} (ps : list string) (band : string -> D -> D) (T : ptree) (d : D) : list (string * D) :=
  match T with
  | PLeaf => [(EmptyString, d)]
  | PSplit sub => flat_map (fun p => map (fun '(s, v) => (append p s, v)) (leaf_data ps band (sub p) (band p d))) ps
  end.
Fixpoint depth_le (ps : list string) (T : ptree) (k : nat) : Prop :=
  match T, k with
  | PLeaf, _ => True
  | PSplit sub, S k' => forall p, In p ps -> depth_le ps (sub p) k'
  | PSplit _, O => False
  end.

Definition prefix (s t : string) : Prop := exists u, t = append s u.

Lemma NoDup_app_intro {A} (l1 l2 : list A) : NoDup l1 -> NoDup l2 -> (forall x, In x l1 -> In x l2 -> False) -> NoDup (l1 ++ l2).
Proof.
  induction l1 as [|a l IH]; cbn; intros H1 H2 H; auto. inversion H1 as [|? ? Ha Hl]; subst. constructor.
  - intros Hi. apply in_app_or in Hi. destruct Hi as [Hi|Hi]; [auto|eapply H; eauto].
  - apply IH; auto. intros x Hx Hy. eapply H; eauto.
Qed.

Section Rebuild.
Context {D : Type}.
Variable K : wpclass D.
Hypothesis HK : class_ok K.
Variable M : Z.
Local Notation at_path := (@at_path D).

Lemma words_length k : forall t, In t (words K k) -> String.length t = (k * plen K)%nat.
Proof.
  destruct HK as (_ & _ & K3). induction k as [|k IH]; intros t Ht; cbn [words] in Ht.
  - destruct Ht as [<-|[]]. reflexivity.
  - apply in_flat_map in Ht. destruct Ht as (q & Hq & Ht). apply in_map_iff in Ht. destruct Ht as (u & <- & Hu).
    rewrite append_length, (K3 q Hq), (IH u Hu). lia.
Qed.

(** ** Assignment adds slots only along the path *)
Definition noshape (h : nheap D) : Prop := forall k x, nth_error h k = Some x -> ndshape x = None.
Definition adds (h h' : nheap D) (n : nat) (path : string) : Prop :=
  forall k x' q e, nth_error h' k = Some x' -> dget (nkids x') q = Some e ->
    (exists x, nth_error h k = Some x /\ dget (nkids x) q = Some e) \/
    ((List.length h <= e)%nat /\ exists u t, path = append u (append q t) /\ at_path h' n u k).

Lemma set_step j : forall f n x path d h, inv2 K M h -> noshape h -> nth_error h n = Some x -> In path (words K j) ->
  nlevel x + Z.of_nat j <= M -> (j < f)%nat ->
  exists h', setitem_ K f n path d h = (h', Ok tt) /\ inv2 K M h' /\ noshape h' /\ (List.length h <= List.length h')%nat /\ adds h h' n path.
Proof.
  induction j as [|j IH]; intros [|f] n x path d h Hi Hs Hx Hin Hl Hf; try lia; cbn [setitem_].
  - cbn [words In] in Hin. destruct Hin as [<-|[]]. unfold bindM. rewrite (maxlevel_lev K M n h (proj2 Hi)), Hx. unfold get. rewrite Hx.
    destruct (proj1 Hi n x Hx) as (_ & A2 & A3 & _). unfold too_long. cbn [String.length].
    rewrite (proj2 (Z.ltb_ge _ _)) by nia. pose proof (nth_lt _ _ _ Hx) as Ln. eexists. split; [reflexivity|].
    split; [apply (kp_put K M h n x (set_data x (Some d)) Hx); [repeat split; auto|reflexivity|auto]|].
    assert (E : forall k, nth_error (set_nth n (set_data x (Some d)) h) k = if Nat.eqb n k then Some (set_data x (Some d)) else nth_error h k).
    { intros k. apply nth_set_nth. auto. }
    split; [intros k y Hy; rewrite E in Hy; destruct (Nat.eqb n k); [injection Hy as <-; cbn; eapply Hs; eauto|eapply Hs; eauto]|].
    split; [rewrite set_nth_length; auto|].
    intros k y q e Hy Hq. rewrite E in Hy. left. destruct (Nat.eqb_spec n k) as [<-|]; [injection Hy as <-; exists x; auto|eauto].
  - pose proof (words_length _ _ Hin) as Lp. cbn [words] in Hin. apply in_flat_map in Hin. destruct Hin as (p & Hp & Hin). apply in_map_iff in Hin. destruct Hin as (s & <- & Hs').
    assert (Lq : String.length p = plen K) by (apply HK; auto). assert (K1 : (0 < plen K)%nat) by apply HK.
    unfold bindM at 1. rewrite (maxlevel_lev K M n h (proj2 Hi)), Hx. unfold bindM at 1, get at 1. rewrite Hx.
    destruct (proj1 Hi n x Hx) as (_ & A2 & A3 & A4 & _). unfold too_long. rewrite (proj2 (Z.ltb_ge _ _)) by nia.
    destruct (append p s) as [|c0 t0] eqn:Ea; [destruct p; [cbn in Lq; lia|discriminate]|]. rewrite <- Ea in *. clear c0 t0 Ea.
    replace (take (plen K) (append p s)) with p by (rewrite <- Lq, take_app; auto).
    replace (drop (plen K) (append p s)) with s by (rewrite <- Lq, drop_app; auto).
    assert (Gs : forall h y, nth_error h n = Some y -> get_subnode K n p false h = (h, Ok (dget (nkids y) p))).
    { intros h1 y Hy. unfold get_subnode. rewrite (part_ok_in K p Hp). cbn [negb]. unfold bindM, get. rewrite Hy. destruct (dget (nkids y) p); reflexivity. }
    unfold bindM at 1. rewrite (Gs h x Hx). destruct (dget (nkids x) p) as [c|] eqn:Ek.
    + unfold bindM, ret. destruct (A4 p c Ek) as (_ & _ & y & Hy & _ & _ & Ly).
      destruct (IH f c y s d h Hi Hs Hy Hs' ltac:(lia) ltac:(lia)) as (h' & E & I' & N' & L' & A').
      exists h'. split; [exact E|]. split; auto. split; auto. split; auto.
      destruct (setitem_at_ K HK f c s d h h' (proj1 Hi) E) as (KS & _). destruct (KS n x Hx) as (x' & Hx' & S).
      intros k z q e Hz Hq. destruct (A' k z q e Hz Hq) as [?|(Le & u & t & -> & Ha)]; auto. right. split; auto.
      exists (append p u), t. rewrite append_assoc_s. split; [reflexivity|]. econstructor; eauto.
    + unfold bindM at 1. unfold bindM at 1. rewrite (create_lev K M n x p None h (proj2 Hi) Hx Hp).
      set (h1 := mk K M n x p None h). pose proof (nth_lt _ _ _ Hx) as Ln.
      assert (N1 : forall k, nth_error h1 k = if Nat.eqb n k then Some (set_kid x p (Some (List.length h))) else
        if Nat.eqb k (List.length h) then Some (child K n x p None (Some M)) else nth_error h k) by (intros k; apply nth_mk; auto).
      assert (Hx1 : nth_error h1 n = Some (set_kid x p (Some (List.length h)))) by (rewrite N1, Nat.eqb_refl; reflexivity).
      rewrite (Gs h1 _ Hx1). cbn [set_kid nkids]. rewrite dget_dset, String.eqb_refl.
      assert (Hi1 : inv2 K M h1).
      { pose proof (kp_create K HK M n x p None h Hx ltac:(lia) Hi) as Q. rewrite (create_lev K M n x p None h (proj2 Hi) Hx Hp) in Q. exact Q. }
      assert (Hy : nth_error h1 (List.length h) = Some (child K n x p None (Some M))).
      { rewrite N1. destruct (Nat.eqb_spec n (List.length h)); [lia|]. rewrite Nat.eqb_refl. reflexivity. }
      assert (Hs1 : noshape h1).
      { intros k z. rewrite N1. destruct (Nat.eqb n k); [intros E; injection E as <-; cbn; eapply Hs; eauto|].
        destruct (Nat.eqb k (List.length h)); [intros E; injection E as <-; reflexivity|apply Hs]. }
      assert (L1 : List.length h1 = S (List.length h)) by (unfold h1, mk; rewrite set_nth_length, app_length; cbn; lia).
      destruct (IH f (List.length h) _ s d h1 Hi1 Hs1 Hy Hs' ltac:(cbn; lia) ltac:(lia)) as (h' & E & I' & N' & L' & A').
      exists h'. split; [exact E|]. split; auto. split; auto. split; [lia|].
      destruct (setitem_at_ K HK f _ s d h1 h' (proj1 Hi1) E) as (KS & _). destruct (KS n _ Hx1) as (x' & Hx' & S).
      assert (Sp : dget (nkids x') p = Some (List.length h)) by (apply S; cbn; rewrite dget_dset, String.eqb_refl; reflexivity).
      intros k z q e Hz Hq. destruct (A' k z q e Hz Hq) as [(z1 & Hz1 & Hq1)|(Le & u & t & -> & Ha)].
      * rewrite N1 in Hz1. destruct (Nat.eqb_spec n k) as [<-|].
        -- injection Hz1 as <-. cbn [set_kid nkids] in Hq1. rewrite dget_dset in Hq1. destruct (String.eqb_spec p q) as [<-|].
           ++ injection Hq1 as <-. right. split; auto. exists EmptyString, s. split; [reflexivity|]. econstructor; eauto.
           ++ left. eauto.
        -- destruct (Nat.eqb k (List.length h)); [injection Hz1 as <-; discriminate|left; eauto].
      * right. split; [lia|]. exists (append p u), t. rewrite append_assoc_s. split; [reflexivity|]. econstructor; eauto.
Qed.

(** ** The tree after some assignments *)
Definition built (l : list (string * D)) (h : nheap D) : Prop :=
  inv2 K M h /\ noshape h /\ (exists r, nth_error h 0 = Some r /\ npath r = EmptyString /\ nlevel r = 0) /\
  (forall s v, In (s, v) l -> exists c y, at_path h 0 s c /\ nth_error h c = Some y /\ ndat y = Some v) /\
  (forall s c, at_path h 0 s c -> s = EmptyString \/ exists t v, In (t, v) l /\ prefix s t).

Lemma at_new h h' path : inv2 K M h -> inv2 K M h' -> (exists r, nth_error h 0 = Some r) -> (exists r, nth_error h' 0 = Some r /\ npath r = EmptyString) -> adds h h' 0 path ->
  forall k s c, (String.length s <= k)%nat -> at_path h' 0 s c -> at_path h 0 s c \/ prefix s path /\ (List.length h <= c)%nat.
Proof.
  intros Hi0 Hi (r0 & Hr0) (r & Hr & Er) Ha. induction k as [|k IH]; intros s c Hk Hat.
  - destruct s; [|cbn in Hk; lia]. left. assert (c = 0%nat) by (apply (at_path_fun K HK h' 0 EmptyString c 0 (proj1 Hi) Hat); econstructor; eauto).
    subst c. econstructor; eauto.
  - destruct s as [|a s'] eqn:Es; [apply IH; auto; cbn; lia|]. rewrite <- Es in *.
    destruct (at_snoc h' 0 s c (slot_nonempty K HK h' (proj1 Hi)) Hat ltac:(subst; discriminate)) as (q & p & x & part & Eq & Aq & Hx & Hp).
    assert (Hne : part <> EmptyString) by (eapply (slot_nonempty K HK h'); eauto; apply Hi).
    assert (Lq : (String.length q <= k)%nat).
    { rewrite Eq, append_length in Hk. destruct part; [congruence|cbn in Hk; lia]. }
    rewrite Eq. destruct (Ha p x part c Hx Hp) as [(x0 & Hx0 & Hp0)|(Lc & u & t & Et & Au)].
    + destruct (IH q p Lq Aq) as [A0|(_ & Lp)]; [|pose proof (nth_lt _ _ _ Hx0); lia].
      left. destruct (tree_slot K h p x0 part c (proj1 Hi0) Hx0 Hp0) as (_ & z & Hz).
      clear - A0 Hx0 Hp0 Hz. induction A0 as [n y Hy|n y pt e s d Hy He A IH].
      * cbn. rewrite <- (append_nil_r part). apply (at_down h n x0 part c EmptyString c Hx0 Hp0). econstructor; eauto.
      * rewrite append_assoc_s. econstructor; eauto.
    + right. split; auto. exists t. rewrite append_assoc_s. rewrite Et. f_equal.
      destruct (at_path_node K HK h' 0 q p (proj1 Hi) Aq r Hr) as (y & Hy & E1 & _).
      destruct (at_path_node K HK h' 0 u p (proj1 Hi) Au r Hr) as (y2 & Hy2 & E2 & _). rewrite Er in E1, E2. cbn in E1, E2. congruence.
Qed.

Lemma built_step l s v k h : built l h -> In s (words K k) -> Z.of_nat k <= M -> ~ In s (map fst l) ->
  built (l ++ [(s, v)]) (fst (do_op K (OSet 0 s v) h)).
Proof.
  intros (Hi & Hs & (r & Hr & Er & Lr) & HA & HB) Hin Hk Hnew. cbn [do_op]. unfold setitem.
  assert (Lw : (k <= String.length s)%nat) by (rewrite (words_length _ _ Hin); destruct HK as (K1 & _); nia).
  destruct (set_step k (S (String.length s)) 0 r s v h Hi Hs Hr Hin ltac:(lia) ltac:(lia)) as (h' & E & I' & N' & L' & A').
  rewrite E. cbn [fst]. split; auto. split; auto.
  destruct (setitem_at K HK 0 s v h h' (proj1 Hi) E) as (Hmon & c & Hc & (y & Hy & Ey) & Hoth).
  pose proof (ok_setitem_ K HK (S (String.length s)) 0 s v h (proj1 Hi)) as (_ & G). rewrite E in G. cbn [fst] in G.
  destruct (proj2 G 0%nat r Hr) as (r' & Hr' & Er' & Lr').
  split; [exists r'; repeat split; [auto|congruence|lia]|]. split.
  - intros t w Ht. apply in_app_or in Ht. destruct Ht as [Ht|[Ht|[]]].
    + destruct (HA t w Ht) as (e & z & Ae & Hz & Ez). exists e. assert (Ne : e <> c).
      { intros ->. apply Hmon in Ae. destruct (at_path_node K HK h' 0 t c (proj1 I') Ae r' Hr') as (y1 & Hy1 & P1 & _).
        destruct (at_path_node K HK h' 0 s c (proj1 I') Hc r' Hr') as (y2 & Hy2 & P2 & _). rewrite Er', Er in P1, P2. cbn in P1, P2.
        apply Hnew. apply in_map_iff. exists (t, w). split; auto. cbn. congruence. }
      destruct (Hoth e z Hz Ne) as (z' & Hz' & Ez'). exists z'. split; auto. split; auto. congruence.
    + injection Ht as <- <-. exists c, y. auto.
  - intros t e Ht. destruct (at_new h h' s Hi I' (ex_intro _ r Hr) (ex_intro _ r' (conj Hr' (eq_trans Er' Er))) A' (String.length t) t e (Nat.le_refl _) Ht) as [H0|(Hp & _)].
    + destruct (HB t e H0) as [->|(u & w & Hu & Hp)]; [auto|]. right. exists u, w. split; auto. apply in_or_app; auto.
    + right. exists s, v. split; auto. apply in_or_app. cbn. auto.
Qed.
Lemma built_run l2 : forall l1 h, built l1 h -> NoDup (map fst (l1 ++ l2)) ->
  (forall s v, In (s, v) l2 -> exists k, In s (words K k) /\ Z.of_nat k <= M) ->
  built (l1 ++ l2) (run K h (map (fun '(s, v) => OSet 0 s v) l2)).
Proof.
  induction l2 as [|[s v] l2 IH]; intros l1 h Hb Hn Hw; cbn [map].
  - rewrite app_nil_r. exact Hb.
  - unfold run. cbn [fold_left]. fold (run K (fst (do_op K (OSet 0 s v) h)) (map (fun '(s, v) => OSet 0 s v) l2)).
    replace (l1 ++ (s, v) :: l2) with ((l1 ++ [(s, v)]) ++ l2) in * by (rewrite <- app_assoc; reflexivity).
    destruct (Hw s v (or_introl eq_refl)) as (k & Hk1 & Hk2). apply IH; auto.
    + apply (built_step l1 s v k); auto. rewrite map_app, map_app in Hn. cbn in Hn. rewrite <- app_assoc in Hn. cbn in Hn.
      intros Hi. apply NoDup_remove_2 in Hn. apply Hn. apply in_or_app. auto.
    + intros t w Ht. apply (Hw t w). right; auto.
Qed.
Lemma root_built : 0 <= M -> built [] [root_node K None (Some M)].
Proof.
  intros HM. split; [apply root_inv2; auto|]. split; [intros [|[|k]] x Hx; cbn in Hx; try discriminate; injection Hx as <-; reflexivity|].
  split; [eexists; repeat split; reflexivity|]. split; [intros s v []|].
  intros s c H. left. destruct H as [n x Hx|n x part e s d Hx He A]; auto. destruct n as [|[|n]]; cbn in Hx; try discriminate. injection Hx as <-. discriminate.
Qed.

(** ** The leaves *)
Variable band : string -> D -> D.
Lemma leaf_words T : forall k d s v, depth_le (parts K) T k -> In (s, v) (leaf_data (parts K) band T d) -> exists j, In s (words K j) /\ (j <= k)%nat.
Proof.
  induction T as [|sub IH]; intros k d s v Hd Hin; cbn [leaf_data depth_le] in *.
  - destruct Hin as [E|[]]. injection E as <- <-. exists 0%nat. cbn. split; [auto|lia].
  - destruct k as [|k]; [tauto|]. apply in_flat_map in Hin. destruct Hin as (p & Hp & Hin). apply in_map_iff in Hin. destruct Hin as ((t & w) & E & Hin).
    injection E as <- <-. destruct (IH p k _ t w (Hd p Hp) Hin) as (j & Hj & Lj). exists (S j). split; [|lia]. cbn [words].
    apply in_flat_map. exists p. split; auto. apply in_map. auto.
Qed.
Lemma leaf_some T : forall k d, depth_le (parts K) T k -> parts K <> [] -> leaf_data (parts K) band T d <> [].
Proof.
  induction T as [|sub IH]; intros k d Hd Hne; cbn [leaf_data depth_le] in *; [discriminate|]. destruct k as [|k]; [tauto|].
  destruct (parts K) as [|p ps] eqn:Ep; [congruence|]. cbn [flat_map]. specialize (IH p k (band p d) (Hd p (or_introl eq_refl)) Hne).
  destruct (leaf_data (p :: ps) band (sub p) (band p d)) as [|[s v] l]; [congruence|discriminate].
Qed.
Lemma part_prefix p q s t : In p (parts K) -> In q (parts K) -> append p s = append q t -> p = q /\ s = t.
Proof.
  intros Hp Hq E. destruct HK as (_ & _ & K3). pose proof (K3 p Hp) as L1. pose proof (K3 q Hq) as L2.
  pose proof (f_equal (take (plen K)) E) as E1. pose proof (f_equal (drop (plen K)) E) as E2.
  assert (T : forall a b, String.length a = plen K -> take (plen K) (append a b) = a /\ drop (plen K) (append a b) = b).
  { intros a b <-. split; [apply take_app|apply drop_app]. }
  destruct (T p s L1) as (P1 & P2). destruct (T q t L2) as (Q1 & Q2). split; congruence.
Qed.
Lemma leaf_nodup T : forall k d, depth_le (parts K) T k -> NoDup (map fst (leaf_data (parts K) band T d)).
Proof.
  induction T as [|sub IH]; intros k d Hd; cbn [leaf_data depth_le] in *; [repeat constructor; auto|]. destruct k as [|k]; [tauto|].
  assert (Hs : forall l, (forall p, In p l -> In p (parts K)) -> NoDup l ->
    NoDup (map fst (flat_map (fun p => map (fun '(s, v) => (append p s, v)) (leaf_data (parts K) band (sub p) (band p d))) l))).
  { induction l as [|p l IHl]; intros Hl Hn; cbn [flat_map map]; [constructor|]. rewrite map_app. inversion Hn as [|? ? Hni Hn']; subst.
    assert (Hp : In p (parts K)) by (apply Hl; left; auto).
    assert (F : forall q, map fst (map (fun '(s, v) => (append q s, v)) (leaf_data (parts K) band (sub q) (band q d))) = map (append q) (map fst (leaf_data (parts K) band (sub q) (band q d)))).
    { intros q. rewrite !map_map. apply map_ext. intros (s & v). reflexivity. }
    apply NoDup_app_intro.
    - rewrite F. apply FinFun.Injective_map_NoDup; [intros a b; apply append_inj|]. apply (IH p k); auto.
    - apply IHl; auto. intros q Hq. apply Hl. right; auto.
    - intros s H1 H2. rewrite F in H1. apply in_map_iff in H1. destruct H1 as (t & <- & _).
      apply in_map_iff in H2. destruct H2 as ((u & v) & E & Hu). cbn in E. subst u. apply in_flat_map in Hu. destruct Hu as (q & Hq & Hu).
      apply in_map_iff in Hu. destruct Hu as ((u & w) & E & _). injection E as E _. destruct (part_prefix q p u t); auto; [apply Hl; right; auto|]. subst. auto. }
  apply Hs; auto. apply HK.
Qed.

(** ** Reconstruction *)
Variable good : Z -> D -> Prop.
(** Synthesis inverts analysis without trimming. *)
Definition exact_pr : Prop := parts K <> [] /\ forall l d, 0 <= l < M -> good l d ->
  (forall p, In p (parts K) -> good (l + 1) (band p d)) /\ inv K (map (fun p => (p, Some (band p d))) (parts K)) = Ok (Some d).
Hypothesis Hpr : exact_pr.

Lemma at_part h n x p s c : tree_ok K h -> nth_error h n = Some x -> In p (parts K) -> at_path h n (append p s) c ->
  exists e, dget (nkids x) p = Some e /\ at_path h e s c.
Proof.
  intros Ht Hx Hp H. remember (append p s) as w eqn:E. destruct H as [n y Hy|n y part e s' d Hy He A].
  - exfalso. assert (L : String.length p = plen K) by (apply HK; auto). destruct HK as (K1 & _). destruct p; [cbn in L; lia|discriminate].
  - assert (y = x) by congruence. subst y. destruct (Ht n x Hx) as (_ & _ & _ & A4 & _). destruct (A4 part e He) as (Hq & _).
    destruct (part_prefix part p s' s Hq Hp E) as (-> & ->). eauto.
Qed.
Lemma recon_leaves h : inv2 K M h -> noshape h -> forall T f n x k d, nth_error h n = Some x -> depth_le (parts K) T k -> 0 <= nlevel x -> nlevel x + Z.of_nat k <= M ->
  good (nlevel x) d -> (List.length h - n < f)%nat ->
  (forall s v, In (s, v) (leaf_data (parts K) band T d) -> exists c y, at_path h n s c /\ nth_error h c = Some y /\ ndat y = Some v) ->
  (forall s c, at_path h n s c -> s = EmptyString \/ exists t v, In (t, v) (leaf_data (parts K) band T d) /\ prefix s t) ->
  recon K f h n = Ok (Some d).
Proof.
  intros Hi Hs. induction T as [|sub IH]; intros f n x k d Hx Hd H0 Hk Hg Hf HA HB; (destruct f as [|f]; [lia|]); cbn [recon]; rewrite Hx;
    destruct (proj1 Hi n x Hx) as (_ & _ & _ & A4 & _).
  - assert (E : has_any_subnode K x = false).
    { unfold has_any_subnode. destruct (existsb _ _) eqn:E; auto. apply existsb_exists in E. destruct E as (p & Hp & E).
      destruct (dget (nkids x) p) as [c|] eqn:Ec; [|discriminate]. destruct (A4 p c Ec) as (_ & _ & y & Hy & _).
      destruct (HB (append p EmptyString) c) as [E1|(t & v & [E1|[]] & u & E2)]; [econstructor; eauto; econstructor; eauto| |].
      - exfalso. rewrite append_nil_r in E1. exact (slot_nonempty K HK h (proj1 Hi) n x p c Hx Ec E1).
      - exfalso. injection E1 as <- <-. rewrite append_nil_r in E2. pose proof (slot_nonempty K HK h (proj1 Hi) n x p c Hx Ec). destruct p; [congruence|discriminate]. }
    rewrite E. cbn [negb]. destruct (HA EmptyString d (or_introl eq_refl)) as (c & y & Ac & Hy & Ey).
    assert (c = n) by (apply (at_path_fun K HK h n EmptyString c n (proj1 Hi) Ac); econstructor; eauto). subst c. congruence.
  - cbn [depth_le] in Hd. destruct k as [|k]; [tauto|]. destruct Hpr as (Hne & HP).
    destruct (HP (nlevel x) d ltac:(lia) Hg) as (Hgb & Hinv).
    assert (Hsub : forall p, In p (parts K) -> exists e y, dget (nkids x) p = Some e /\ (n < e)%nat /\ nth_error h e = Some y /\ nlevel y = nlevel x + 1 /\ recon K f h e = Ok (Some (band p d))).
    { intros p Hp. assert (exists e, dget (nkids x) p = Some e) as (e & He).
      { pose proof (leaf_some (sub p) k (band p d) (Hd p Hp) Hne) as Hl. destruct (leaf_data (parts K) band (sub p) (band p d)) as [|[s v] l] eqn:El; [congruence|].
        destruct (HA (append p s) v) as (c & y & Ac & _).
        { cbn [leaf_data]. apply in_flat_map. exists p. split; auto. apply in_map_iff. exists (s, v). rewrite El. cbn. auto. }
        destruct (at_part h n x p s c (proj1 Hi) Hx Hp Ac) as (e & He & _). eauto. }
      destruct (A4 p e He) as (_ & Le & y & Hy & _ & _ & Ly). exists e, y. split; auto. split; auto. split; auto. split; auto.
      apply (IH p f e y k (band p d)); auto; try lia.
      - rewrite Ly. auto.
      - pose proof (nth_lt _ _ _ Hy). lia.
      - intros s v Hin. destruct (HA (append p s) v) as (c & z & Ac & Hz & Ez).
        { cbn [leaf_data]. apply in_flat_map. exists p. split; auto. apply in_map_iff. exists (s, v). auto. }
        destruct (at_part h n x p s c (proj1 Hi) Hx Hp Ac) as (e' & He' & Ae). assert (e' = e) by congruence. subst e'. exists c, z. auto.
      - intros s c Hat. destruct (HB (append p s) c) as [E1|(t & v & Hin & u & Et)]; [econstructor; eauto| |].
        + exfalso. pose proof (slot_nonempty K HK h (proj1 Hi) n x p e Hx He). destruct p; [congruence|discriminate].
        + right. cbn [leaf_data] in Hin. apply in_flat_map in Hin. destruct Hin as (q & Hq & Hin). apply in_map_iff in Hin. destruct Hin as ((t' & v') & E1 & Hin).
          injection E1 as E1 E2. subst v'. rewrite <- E1, append_assoc_s in Et. destruct (part_prefix q p t' (append s u) Hq Hp Et) as (-> & ->).
          exists (append s u), v. split; auto. exists u. reflexivity. }
    assert (E : has_any_subnode K x = true).
    { unfold has_any_subnode. apply existsb_exists. destruct (parts K) as [|p ps] eqn:Ep; [congruence|]. exists p. split; [left; auto|].
      destruct (Hsub p (or_introl eq_refl)) as (e & y & -> & _). reflexivity. }
    rewrite E. cbn [negb].
    assert (EM : mapM (fun part => match dget (nkids x) part with
                                 | Some c => v <- recon K f h c ;; Ok (part, v)
                                 | None => Ok (part, None) end) (parts K) = Ok (map (fun p => (p, Some (band p d))) (parts K))).
    { clear Hne Hinv E. revert Hsub. generalize (parts K) as l. induction l as [|p l IHl]; intros Hsub; cbn [mapM map]; [reflexivity|].
      destruct (Hsub p (or_introl eq_refl)) as (e & y & -> & _ & _ & _ & ->). cbn [bind]. rewrite IHl by (intros q Hq; apply Hsub; right; auto). reflexivity. }
    rewrite EM. cbn [bind].
    assert (EF : forallb (fun '(_, v) => match v with None => true | Some _ => false end) (map (fun p => (p, Some (band p d))) (parts K)) = false).
    { destruct (parts K) as [|p l] eqn:Ep; [congruence|]. reflexivity. }
    rewrite EF, andb_false_r, Hinv. cbn [bind]. rewrite (Hs n x Hx). destruct (trims K); reflexivity.
Qed.

(** Assigning the data of all leaves to an empty tree, in any order, and
    reconstructing. *)
Theorem rebuild T d l u : 0 <= M -> good 0 d -> depth_le (parts K) T (Z.to_nat M) -> Permutation l (leaf_data (parts K) band T d) ->
  let h := run K [root_node K None (Some M)] (map (fun '(s, v) => OSet 0 s v) l) in
  snd (reconstruct K 0 u h) = Ok (Some d) /\ snd (root_reconstruct K None 0 u h) = Ok (Some d).
Proof.
  intros HM Hg Hd HP h.
  assert (Hb : built l h).
  { apply (built_run l [] _ (root_built HM)); cbn [app].
    - eapply Permutation_NoDup; [apply Permutation_map, Permutation_sym; exact HP|]. eapply leaf_nodup; eauto.
    - intros s v Hin. apply (Permutation_in _ HP) in Hin. destruct (leaf_words T _ d s v Hd Hin) as (j & Hj & Lj). exists j. split; auto. lia. }
  destruct Hb as (Hi & Hs & (r & Hr & Er & Lr) & HA & HB).
  assert (ER : forall f, (List.length h < f)%nat -> recon K f h 0 = Ok (Some d)).
  { intros f Hf. apply (recon_leaves h Hi Hs T f 0 r (Z.to_nat M) d); auto; try lia.
    - rewrite Lr. auto.
    - intros s v Hin. apply HA. eapply Permutation_in; [apply Permutation_sym; exact HP|auto].
    - intros s c Hat. destruct (HB s c Hat) as [->|(t & v & Hin & Hp)]; [auto|]. right. exists t, v. split; auto. eapply Permutation_in; eauto. }
  pose proof (ER (S (List.length h)) ltac:(lia)) as E1. pose proof E1 as E1'. cbn [recon] in E1'. rewrite Hr in E1'.
  assert (R : exists h', reconstruct K 0 u h = (h', Ok (Some d))).
  { unfold reconstruct, bindM at 1, get at 1. rewrite Hr. destruct (has_any_subnode K r) eqn:Eh; cbn [negb] in *.
    - unfold bindM at 1. rewrite E1. destruct u; eexists; reflexivity.
    - unfold ret. exists h. congruence. }
  destruct R as (h' & R). split; [rewrite R; reflexivity|].
  unfold root_reconstruct, bindM at 1, get at 1. rewrite Hr. destruct (has_any_subnode K r) eqn:Eh; cbn [negb] in *.
  - unfold bindM at 1. rewrite R. destruct u; [|reflexivity]. unfold bindM, get.
    assert (exists r', nth_error h' 0 = Some r') as (r' & ->).
    { unfold reconstruct, bindM at 1, get at 1 in R. rewrite Hr, Eh in R. cbn [negb] in R. unfold bindM at 1 in R. rewrite E1 in R.
      unfold bindM, put, ret in R. assert (Eh' : h' = set_nth 0 (set_data r (Some d)) h) by congruence. rewrite Eh', nth_set_nth_same by (eapply nth_lt; eauto). eauto. }
    reflexivity.
  - unfold ret. cbn. congruence.
Qed.
End Rebuild.
