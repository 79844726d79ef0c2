(** Reading a packet tree: what getitem, decompose, get_level and reconstruct
    keep; reconstruction. *)
From Coq Require Import Ascii String.
From Verif Require Import Base Dwt Multilevel Swt Multidim MultidimProofs MultilevelNd SwtNd SwtNdArgs Packets PacketsInv PacketsPath PacketsPath2.

(** ** Operations that only look at subnodes through get_subnode *)
Section Generic.
Context {D : Type}.
Variable K : wpclass D.
Variable G : nheap D -> Prop.
Variable R : nheap D -> nheap D -> Prop.
Definition pv {A} (h : nheap D) (m : M A) : Prop := G h -> G (fst (m h)) /\ R h (fst (m h)).
Hypothesis Rrefl : forall h, R h h.
Hypothesis Rtrans : forall a b c, R a b -> R b c -> R a c.
Hypothesis Hmax : forall n h, pv h (maxlevel K n).
Hypothesis Hsub : forall n part dec h, pv h (get_subnode K n part dec).

Lemma pv_pure {A} h (m : M A) : fst (m h) = h -> pv h m.
Proof. intros E H. rewrite E. auto. Qed.
Lemma pv_bind {A B} h (m : M A) (f : A -> M B) :
  pv h m -> (forall a h', m h = (h', Ok a) -> G h' -> pv h' (f a)) -> pv h (bindM m f).
Proof.
  intros Hm Hf Hh. destruct (Hm Hh) as (H1 & R1). unfold bindM. destruct (m h) as [h' r] eqn:E. cbn [fst] in *.
  destruct r as [a| | |e]; cbn [fst]; auto. destruct (Hf a h' eq_refl H1 H1) as (H2 & R2). split; auto. eapply Rtrans; eauto.
Qed.
Lemma pv_get {B} h n (f : node D -> M B) : (forall x, nth_error h n = Some x -> pv h (f x)) -> pv h (bindM (get n) f).
Proof.
  intros Hf. apply pv_bind; [apply pv_pure; reflexivity|]. intros a h' E _. unfold get in E. destruct (nth_error h n) eqn:En; [|discriminate].
  injection E as <- <-. apply Hf. reflexivity.
Qed.
Lemma pv_getitem_ f : forall n path h, pv h (getitem_ K f n path).
Proof.
  induction f as [|f IH]; intros n path h; cbn [getitem_]; [apply pv_pure; reflexivity|].
  apply pv_bind; [apply Hmax|]. intros m h1 _ _. destruct (too_long _ _ _); [apply pv_pure; reflexivity|].
  destruct path as [|c path]; [apply pv_pure; reflexivity|]. apply pv_bind; [apply Hsub|].
  intros [k|] h2 _ _; [apply IH|apply pv_pure; reflexivity].
Qed.
Lemma pv_walk_parts sub dec n : (forall c acc h, pv h (sub c acc)) -> forall l acc h, pv h (walk_parts K sub dec n l acc).
Proof.
  intros Hs. induction l as [|part l IH]; intros acc h; cbn [walk_parts]; [apply pv_pure; reflexivity|].
  apply pv_bind; [apply Hsub|]. intros c h1 _ _. apply pv_bind; [destruct c; [apply Hs|apply pv_pure; reflexivity]|].
  intros acc1 h2 _ _. apply IH.
Qed.
Lemma pv_walk func dec : (forall n acc h, pv h (func n acc)) -> forall f n acc h, pv h (walk K f func dec n acc).
Proof.
  intros Hf. induction f as [|f IH]; intros n acc h; cbn [walk]; [apply pv_pure; reflexivity|].
  apply pv_bind; auto. intros [acc1 b] h1 _ _. cbn [fst snd]. destruct (negb b); [apply pv_pure; reflexivity|].
  apply pv_get. intros x _. apply pv_bind; [apply Hmax|]. intros [m|] h2 _ _; [|apply pv_pure; reflexivity].
  destruct (negb _); [apply pv_pure; reflexivity|]. apply pv_walk_parts; auto.
Qed.
Lemma pv_leaf dec n acc h : pv h (leaf_collect K dec n acc).
Proof.
  unfold leaf_collect. apply pv_get. intros x _. apply pv_bind; [apply Hmax|]. intros m h1 _ _. cbv zeta.
  destruct (_ && _); [apply pv_pure; reflexivity|]. destruct (_ && _); apply pv_pure; reflexivity.
Qed.
Lemma pv_levcol level n acc h : pv h (level_collect level n acc).
Proof. unfold level_collect. apply pv_get. intros x _. destruct (_ =? _); apply pv_pure; reflexivity. Qed.
Lemma pv_level f n level dec h : pv h (level_nodes K f n level dec).
Proof.
  unfold level_nodes. apply pv_bind; [apply Hmax|]. intros [m|] h1 _ _; [|apply pv_pure; reflexivity].
  destruct (_ <? _); [apply pv_pure; reflexivity|]. apply pv_walk. intros. apply pv_levcol.
Qed.
Lemma pv_seq {A} (m : M A) h : pv h m -> pv h (bindM m (fun _ => ret tt)).
Proof. intros H. apply pv_bind; auto. intros. apply pv_pure; reflexivity. Qed.
End Generic.

Section Read.
Context {D : Type}.
Variable K : wpclass D.
Hypothesis HK : class_ok K.
Local Notation at_path := (@at_path D).

(** fwd gives exactly the parts. *)
Definition fwd_keys (cs : dict D) : Prop := NoDup (map fst cs) /\ forall p, In p (map fst cs) <-> In p (parts K).

(** The nodes made by decompose. *)
Definition made (M : Z) (n : nat) (x : node D) (cs : dict D) (h h' : nheap D) : Prop :=
  (List.length h <= List.length h')%nat /\
  (exists ks, nth_error h' n = Some (mkNode (nparent x) (npath x) (nlevel x) (ndat x) (ndshape x) (nmaxl x) ks) /\
     (forall p, ~ In p (map fst cs) -> dget ks p = dget (nkids x) p) /\
     (forall p v, In (p, v) cs -> exists c, (List.length h <= c)%nat /\ dget ks p = Some c /\
        nth_error h' c = Some (child K n x p (Some v) (Some M)))) /\
  (forall k, k <> n -> (k < List.length h)%nat -> nth_error h' k = nth_error h k) /\
  (forall k y, (List.length h <= k)%nat -> nth_error h' k = Some y -> exists p v, In (p, v) cs /\ y = child K n x p (Some v) (Some M)).

Lemma iter_create M n cs : NoDup (map fst cs) -> (forall p, In p (map fst cs) -> In p (parts K)) ->
  forall h x, lev M h -> nth_error h n = Some x -> nlevel x < M ->
  exists h', iterM (fun '(part, v) => create_subnode K n part (Some v)) cs h = (h', Ok tt) /\ made M n x cs h h'.
Proof.
  induction cs as [|[p v] cs IH]; intros Hnd Hp h x Hl Hx Hm.
  - exists h. split; [reflexivity|]. split; [lia|]. split.
    { exists (nkids x). split; [destruct x; auto|]. split; auto. intros p v []. }
    split; auto. intros k y Hk Hy. apply nth_lt in Hy. lia.
  - cbn [map fst] in Hnd. inversion Hnd as [|? ? Hnin Hnd']; subst. cbn [iterM]. unfold bindM at 1.
    rewrite (create_lev K M n x p (Some v) h Hl Hx) by (apply Hp; cbn; auto).
    set (h1 := mk K M n x p (Some v) h). pose proof (nth_lt _ _ _ Hx) as Ln.
    assert (N1 : forall k, nth_error h1 k = _) by (intros k; apply (nth_mk K M n x p (Some v) h k Ln)).
    assert (L1 : List.length h1 = S (List.length h)) by (unfold h1, mk; rewrite set_nth_length, app_length; cbn; lia).
    pose proof (lev_mk K M n x p (Some v) h Hl Hx Hm) as Hl1. fold h1 in Hl1.
    set (x1 := set_kid x p (Some (List.length h))).
    assert (Hx1 : nth_error h1 n = Some x1) by (rewrite N1, Nat.eqb_refl; reflexivity).
    destruct (IH Hnd' (fun q Hq => Hp q (or_intror Hq)) h1 x1 Hl1 Hx1 Hm) as (h' & E & (A1 & (ks & A2 & A3 & A4) & A5 & A6)).
    exists h'. split; [exact E|]. split; [lia|]. split; [|split].
    + exists ks. split; [exact A2|]. split.
      * intros q Hq. cbn [map fst In] in Hq. rewrite A3 by tauto. cbn [x1 set_kid nkids]. rewrite dget_dset.
        destruct (String.eqb_spec p q); auto. subst; tauto.
      * intros q u [Eq|Hq].
        -- injection Eq as <- <-. exists (List.length h). split; [lia|]. split.
           ++ rewrite A3 by auto. cbn [x1 set_kid nkids]. rewrite dget_dset, String.eqb_refl. reflexivity.
           ++ rewrite A5 by lia. rewrite N1. destruct (Nat.eqb_spec n (List.length h)); [lia|]. rewrite Nat.eqb_refl. reflexivity.
        -- destruct (A4 q u Hq) as (c & Hc & Ec & Hn). exists c. split; [lia|]. split; auto.
    + intros k Hk Hkl. rewrite A5 by lia. rewrite N1. destruct (Nat.eqb_spec n k); [congruence|]. destruct (Nat.eqb_spec k (List.length h)); [lia|auto].
    + intros k y Hk Hy. destruct (Nat.eq_dec k (List.length h)) as [->|].
      * rewrite A5 in Hy by lia. rewrite N1 in Hy. destruct (Nat.eqb_spec n (List.length h)); [lia|]. rewrite Nat.eqb_refl in Hy.
        injection Hy as <-. exists p, v. cbn. auto.
      * destruct (A6 k y ltac:(lia) Hy) as (q & u & Hq & Ey). exists q, u. cbn. auto.
Qed.

(** decompose, get_subnode of a node with data. *)
Hypothesis Hkeys : forall d cs, fwd K d = Ok cs -> fwd_keys cs.
Lemma decompose_made M n x d h : lev M h -> nth_error h n = Some x -> ndat x = Some d ->
  fst (decompose K n h) = h /\ snd (decompose K n h) <> Ok tt \/
  nlevel x < M /\ exists cs h', fwd K d = Ok cs /\ decompose K n h = (h', Ok tt) /\ made M n x cs h h'.
Proof.
  intros Hl Hx Hd. unfold decompose, bindM. rewrite (maxlevel_lev K M n h Hl), Hx. unfold get. rewrite Hx.
  destruct (Z.ltb_spec (nlevel x) M); [|left; split; [reflexivity|discriminate]].
  unfold decompose_, bindM, get. rewrite Hx, Hd. unfold lift. destruct (fwd K d) as [cs| | |e] eqn:Ef; try (left; split; [reflexivity|discriminate]).
  right. split; auto. destruct (Hkeys d cs Ef) as (Hnd & Hi).
  destruct (iter_create M n cs Hnd (fun p Hp => proj1 (Hi p) Hp) h x Hl Hx H) as (h' & E & Hm). exists cs, h'. auto.
Qed.

(** ** Full trees: every node has all its subnodes or none *)
Definition full (h : nheap D) : Prop := forall k x, nth_error h k = Some x ->
  (forall p, dget (nkids x) p = None) \/ forall p, In p (parts K) -> dget (nkids x) p <> None.

Lemma made_full M n x cs h h' : fwd_keys cs -> nth_error h n = Some x -> full h -> made M n x cs h h' -> full h'.
Proof.
  intros (_ & Hk) Hx Hf (A1 & (ks & A2 & A3 & A4) & A5 & A6) k y Hy.
  destruct (Nat.eq_dec k n) as [->|Hn].
  - right. intros p Hp. rewrite A2 in Hy. injection Hy as <-. cbn [nkids]. apply Hk in Hp. apply in_map_iff in Hp. destruct Hp as ((q & v) & <- & Hin).
    destruct (A4 q v Hin) as (c & _ & E & _). cbn. congruence.
  - destruct (Nat.ltb_spec k (List.length h)).
    + rewrite A5 in Hy by auto. apply (Hf k y Hy).
    + destruct (A6 k y H Hy) as (p & v & _ & ->). left. reflexivity.
Qed.
Lemma made_mono M n x cs h h' : nth_error h n = Some x -> (forall p, dget (nkids x) p = None) -> made M n x cs h h' -> mono h h'.
Proof.
  intros Hx He (A1 & (ks & A2 & A3 & A4) & A5 & A6) k y Hy. destruct (Nat.eq_dec k n) as [->|Hn].
  - eexists. split; [exact A2|]. assert (y = x) by congruence. subst y. split; [|reflexivity]. intros p c Hc. rewrite He in Hc. discriminate.
  - exists y. split; [rewrite A5; auto; eapply nth_lt; eauto|]. split; [intros p c Hc; auto|reflexivity].
Qed.

Definition fullG M (h : nheap D) : Prop := inv2 K M h /\ full h.
Lemma full_sub M n part dec h : pv (fullG M) mono h (get_subnode K n part dec).
Proof.
  intros (Hi & Hf). pose proof (kp_get_subnode K HK M n part dec h Hi) as Hi'.
  assert (Z : full h /\ mono h h) by (split; auto using mono_refl).
  cut (full (fst (get_subnode K n part dec h)) /\ mono h (fst (get_subnode K n part dec h))); [intros (H1 & H2); split; [split; [exact Hi'|exact H1]|exact H2]|].
  clear Hi'. unfold get_subnode. destruct (part_ok K part) eqn:Ep; cbn [negb]; [|exact Z]. unfold bindM, get.
  destruct (nth_error h n) as [x|] eqn:Hx; [|exact Z]. destruct (dget (nkids x) part) eqn:Ek; [exact Z|]. destruct dec; [|exact Z].
  destruct (ndat x) as [d|] eqn:Hd; [|exact Z].
  assert (He : forall p, dget (nkids x) p = None).
  { destruct (Hf n x Hx) as [He|He]; auto. exfalso. apply (He part); auto. apply existsb_part. auto. }
  destruct (decompose_made M n x d h (proj2 Hi) Hx Hd) as [(E1 & E2)|(_ & cs & h' & Ef & E & Hm)].
  - destruct (decompose K n h) as [h' [[]| | |e]]; cbn [fst snd] in *; subst; auto; congruence.
  - rewrite E. pose proof (made_full M n x cs h h' (Hkeys d cs Ef) Hx Hf Hm). pose proof (made_mono M n x cs h h' Hx He Hm).
    destruct (nth_error h' n); cbn [fst]; auto.
Qed.
Lemma full_max M n h : pv (fullG M) mono h (maxlevel K n).
Proof. intros (Hi & Hf). rewrite (maxlevel_lev K M n h (proj2 Hi)). cbn [fst]. split; [split; auto|apply mono_refl]. Qed.

(** The operations that read. *)
Definition reading (o : op D) : bool :=
  match o with OGet _ _ | OSubnode _ _ _ | OReconstruct _ false | ORoot _ _ false | OMaxlevel _ | OLevel _ _ _ _ | OLeaves _ _ _ => true | _ => false end.

Lemma reconstruct_pure n h : fst (reconstruct K n false h) = h.
Proof.
  unfold reconstruct, bindM, get. destruct (nth_error h n) as [x|]; [|reflexivity]. destruct (negb _); [reflexivity|].
  destruct (recon K (S (List.length h)) h n); reflexivity.
Qed.
Lemma root_pure size n h : fst (root_reconstruct K size n false h) = h.
Proof.
  unfold root_reconstruct, bindM at 1, get. destruct (nth_error h n) as [x|]; [|reflexivity]. destruct (negb _); [reflexivity|].
  unfold bindM. pose proof (reconstruct_pure n h) as E. destruct (reconstruct K n false h) as [h' [r| | |e]]; cbn [fst] in *; subst; auto.
  destruct size as [s|]; [|reflexivity]. destruct r as [rec|]; [|reflexivity]. destruct (negb _); reflexivity.
Qed.

Lemma full_op M o h : reading o = true -> pv (fullG M) mono h (do_op K o).
Proof.
  pose proof (fun n h => full_max M n h) as Hmax. pose proof (fun n part dec h => full_sub M n part dec h) as Hsub.
  destruct o; cbn [reading do_op]; try discriminate; intros Hr; try apply (pv_seq (fullG M) mono mono_refl mono_trans).
  - apply pv_getitem_; auto using mono_refl. exact mono_trans.
  - apply Hsub.
  - destruct update; [discriminate|]. apply pv_pure; auto using mono_refl. apply reconstruct_pure.
  - destruct update; [discriminate|]. apply pv_pure; auto using mono_refl. apply root_pure.
  - apply Hmax.
  - apply pv_level; auto using mono_refl. exact mono_trans.
  - apply pv_walk; auto using mono_refl; [exact mono_trans|]. intros. apply pv_leaf; auto using mono_refl. exact mono_trans.
Qed.
Theorem run_reads M ops : forallb reading ops = true -> forall h, fullG M h -> fullG M (run K h ops) /\ mono h (run K h ops).
Proof.
  unfold run. induction ops as [|o ops IH]; cbn [forallb fold_left]; intros Hr h Hh; [split; auto using mono_refl|].
  apply andb_true_iff in Hr. destruct Hr as (Ho & Hr). destruct (full_op M o h Ho Hh) as (H1 & M1). destruct (IH Hr _ H1) as (H2 & M2).
  split; auto. eapply mono_trans; eauto.
Qed.

(** ** Coherent trees: the subnodes hold the transform of the node *)
Section Coh.
Variable M : Z.
Variable good : Z -> D -> Prop.
(** Analysis followed by synthesis and trimming gives the data back. *)
Definition pr_class : Prop := parts K <> [] /\ forall l d cs, 0 <= l < M -> good l d -> fwd K d = Ok cs ->
  fwd_keys cs /\ (forall p v, In (p, v) cs -> good (l + 1) v) /\
  exists r, inv K (map (fun p => (p, dget cs p)) (parts K)) = Ok (Some r) /\
    (if trims K then if shape_eqb (shp K r) (shp K d) then r else cut K (shp K d) r else r) = d.
Hypothesis Hpr : pr_class.

Definition node_coh (h : nheap D) (x : node D) : Prop := exists d, ndat x = Some d /\ ndshape x = Some (shp K d) /\ good (nlevel x) d /\
  ((forall p, dget (nkids x) p = None) \/
   nlevel x < M /\ exists cs, fwd K d = Ok cs /\ forall p v, In (p, v) cs -> exists c y, dget (nkids x) p = Some c /\ nth_error h c = Some y /\ ndat y = Some v).
Definition coh (h : nheap D) : Prop := inv2 K M h /\ forall k x, nth_error h k = Some x -> node_coh h x.
(** Nodes keep their data. *)
Definition same_data (h h' : nheap D) : Prop := forall k x, nth_error h k = Some x -> exists x', nth_error h' k = Some x' /\ ndat x' = ndat x.
Lemma sd_refl h : same_data h h. Proof. intros k x H. eauto. Qed.
Lemma sd_trans a b c : same_data a b -> same_data b c -> same_data a c.
Proof. intros H1 H2 k x Hx. destruct (H1 k x Hx) as (y & Hy & E1). destruct (H2 k y Hy) as (z & Hz & E2). exists z. split; auto. congruence. Qed.
Lemma node_coh_sd h h' x : same_data h h' -> node_coh h x -> node_coh h' x.
Proof.
  intros Hs (d & E1 & E2 & E3 & [He|(Hm & cs & Ef & Hc)]); exists d; repeat split; auto.
  right. split; auto. exists cs. split; auto. intros p v Hin. destruct (Hc p v Hin) as (c & y & F1 & F2 & F3).
  destruct (Hs c y F2) as (y' & Hy' & E). exists c, y'. repeat split; auto. congruence.
Qed.
Lemma made_coh n x d cs h h' : nth_error h n = Some x -> ndat x = Some d -> nlevel x < M -> fwd K d = Ok cs -> coh h -> inv2 K M h' ->
  made M n x cs h h' -> coh h' /\ same_data h h'.
Proof.
  intros Hx Hd Hm Ef (Hi & Hc) Hi' (A1 & (ks & A2 & A3 & A4) & A5 & A6).
  assert (S : same_data h h').
  { intros k y Hy. destruct (Nat.eq_dec k n) as [->|Hn].
    - eexists. split; [exact A2|]. cbn. congruence.
    - exists y. split; auto. rewrite A5; auto. eapply nth_lt; eauto. }
  split; auto. split; auto. destruct (Hc n x Hx) as (d0 & E1 & E2 & E3 & _). assert (d0 = d) by congruence. subst d0.
  destruct (proj1 Hi n x Hx) as (_ & L0 & _).
  intros k y Hy. destruct (Nat.eq_dec k n) as [->|Hn].
  - rewrite A2 in Hy. injection Hy as <-. exists d. cbn. repeat split; auto. right. split; auto. exists cs. split; auto.
    intros p v Hin. destruct (A4 p v Hin) as (c & _ & F1 & F2). exists c. eexists. split; auto. split; [exact F2|reflexivity].
  - destruct (Nat.ltb_spec k (List.length h)).
    + rewrite A5 in Hy by auto. apply (node_coh_sd h h'); auto. apply (Hc k y Hy).
    + destruct (A6 k y H Hy) as (p & v & Hin & ->). exists v. cbn. split; [reflexivity|]. split; [reflexivity|]. split; [|left; reflexivity].
      destruct (proj2 Hpr (nlevel x) d cs (conj L0 Hm) E3 Ef) as (_ & Hg & _). apply (Hg p v Hin).
Qed.
Lemma coh_decompose n h : pv coh same_data h (decompose K n).
Proof.
  intros Hc. pose proof (kp_decompose K HK M n h (proj1 Hc)) as Hi'.
  destruct (nth_error h n) as [x|] eqn:Hx.
  - destruct (proj2 Hc n x Hx) as (d & Hd & _).
    destruct (decompose_made M n x d h (proj2 (proj1 Hc)) Hx Hd) as [(E1 & _)|(Hm & cs & h' & Ef & E & Hmade)].
    + rewrite E1. split; auto using sd_refl.
    + rewrite E in *. cbn [fst] in *. eapply made_coh; eauto.
  - unfold decompose, bindM. rewrite (maxlevel_lev K M n h (proj2 (proj1 Hc))), Hx. cbn. split; auto using sd_refl.
Qed.
Lemma coh_sub n part dec h : pv coh same_data h (get_subnode K n part dec).
Proof.
  unfold get_subnode. destruct (negb _); [apply pv_pure; auto using sd_refl|].
  apply (pv_get coh same_data sd_refl sd_trans). intros x Hx.
  destruct (dget (nkids x) part); [apply pv_pure; auto using sd_refl|]. destruct dec; [|apply pv_pure; auto using sd_refl].
  destruct (ndat x); [|apply pv_pure; auto using sd_refl]. apply pv_bind; [exact sd_trans|apply coh_decompose|]. intros _ h' _ _.
  apply (pv_get coh same_data sd_refl sd_trans). intros y Hy. apply pv_pure; auto using sd_refl.
Qed.
Lemma coh_max n h : pv coh same_data h (maxlevel K n).
Proof. intros Hc. rewrite (maxlevel_lev K M n h (proj2 (proj1 Hc))). cbn [fst]. split; auto using sd_refl. Qed.

(** Reconstruction of a coherent tree. *)
Lemma coh_recon h : coh h -> forall f n x d, nth_error h n = Some x -> ndat x = Some d -> (List.length h - n < f)%nat -> recon K f h n = Ok (Some d).
Proof.
  intros Hc. induction f as [|f IH]; intros n x d Hx Hd Hf; [lia|]. cbn [recon]. rewrite Hx.
  destruct (has_any_subnode K x) eqn:Hs; cbn [negb]; [|congruence].
  destruct (proj2 Hc n x Hx) as (d0 & E1 & E2 & E3 & E4). assert (d0 = d) by congruence. subst d0.
  destruct E4 as [He|(Hm & cs & Ef & Hk)].
  { exfalso. unfold has_any_subnode in Hs. apply existsb_exists in Hs. destruct Hs as (p & _ & Hp). rewrite He in Hp. discriminate. }
  destruct (proj1 (proj1 Hc) n x Hx) as (_ & L0 & _ & A4 & _).
  destruct Hpr as (Hne & HP). destruct (HP (nlevel x) d cs (conj L0 Hm) E3 Ef) as ((Hnd & Hkey) & _ & r & Er & Et).
  assert (EM : mapM (fun part => match dget (nkids x) part with
                                 | Some c => v <- recon K f h c ;; Ok (part, v)
                                 | None => Ok (part, None) end) (parts K) = Ok (map (fun p => (p, dget cs p)) (parts K))).
  { assert (Hall : forall p, In p (parts K) -> In p (map fst cs)) by (intros p; apply Hkey). clear Hne Er Hkey Hs. revert Hall.
    generalize (parts K) as l. induction l as [|p l IHl]; intros Hall; cbn [mapM map]; [reflexivity|].
    assert (Hp : In p (map fst cs)) by (apply Hall; cbn; auto). apply in_map_iff in Hp. destruct Hp as ((q & v) & Eq & Hin). cbn in Eq. subst q.
    destruct (Hk p v Hin) as (c & y & F1 & F2 & F3). rewrite F1. destruct (A4 p c F1) as (_ & Lc & _).
    rewrite (IH c y v F2 F3) by (pose proof (nth_lt _ _ _ F2); lia). cbn [bind].
    rewrite IHl by (intros q Hq; apply Hall; cbn; auto). cbn [bind]. rewrite (dget_in cs p v Hnd Hin). reflexivity. }
  rewrite EM. cbn [bind].
  assert (EF : forallb (fun '(_, v) => match v with None => true | Some _ => false end) (map (fun p => (p, dget cs p)) (parts K)) = false).
  { destruct (parts K) as [|p l] eqn:Ep; [congruence|]. cbn [map forallb].
    assert (Hp : In p (map fst cs)) by (apply Hkey; cbn; auto). apply in_map_iff in Hp. destruct Hp as ((q & v) & Eq & Hin). cbn in Eq. subst q.
    rewrite (dget_in cs p v Hnd Hin). reflexivity. }
  rewrite EF, andb_false_r, Er. cbn [bind]. rewrite E2. destruct (trims K); rewrite Et; reflexivity.
Qed.
Lemma set_data_same (x : node D) d : ndat x = Some d -> set_data x (Some d) = x.
Proof. destruct x; cbn. intros ->. reflexivity. Qed.
Theorem coh_reconstruct n x d u h : coh h -> nth_error h n = Some x -> ndat x = Some d -> reconstruct K n u h = (h, Ok (Some d)).
Proof.
  intros Hc Hx Hd. unfold reconstruct, bindM, get. rewrite Hx. destruct (negb _); [unfold ret; congruence|].
  rewrite (coh_recon h Hc _ n x d Hx Hd) by lia. destruct u; [|reflexivity]. unfold put. rewrite (set_data_same x d Hd), (set_nth_id n x h Hx). reflexivity.
Qed.
Theorem coh_root n x d size u h : coh h -> nth_error h n = Some x -> ndat x = Some d ->
  fst (root_reconstruct K size n u h) = h /\
  (size = None \/ size = Some (shp K d) -> root_reconstruct K size n u h = (h, Ok (Some d))).
Proof.
  intros Hc Hx Hd.
  assert (E : root_reconstruct K size n u h = (h, if negb (has_any_subnode K x) then Ok (Some d) else
     match size with Some s => if shape_eqb (shp K d) s then Ok (Some d) else Err IndexError | None => Ok (Some d) end)).
  { unfold root_reconstruct, bindM at 1, get at 1. rewrite Hx. destruct (has_any_subnode K x); cbn [negb]; [|unfold ret; congruence].
    unfold bindM at 1. rewrite (coh_reconstruct n x d u h Hc Hx Hd).
    assert (U : (if u then bindM (get n) (fun x0 => bindM (put n (set_data x0 (Some d))) (fun _ => ret (Some d))) else ret (Some d)) h = (h, Ok (Some d))).
    { destruct u; [|reflexivity]. unfold bindM, get. rewrite Hx. unfold put, ret. rewrite (set_data_same x d Hd), (set_nth_id n x h Hx). reflexivity. }
    destruct size as [s|]; [|exact U]. destruct (shape_eqb (shp K d) s); cbn [negb]; [exact U|reflexivity]. }
  rewrite E. split; [reflexivity|]. intros [->| ->]; [destruct (negb _); reflexivity|].
  unfold shape_eqb. destruct (list_eq_dec Z.eq_dec (shp K d) (shp K d)); [|congruence]. destruct (negb _); reflexivity.
Qed.

(** Operations that decompose or reconstruct, in any order. *)
Definition analysing (o : op D) : bool := match o with OSet _ _ _ | ODel _ _ | OData _ _ => false | _ => true end.
Lemma coh_op o h : analysing o = true -> pv coh same_data h (do_op K o).
Proof.
  pose proof coh_max as Hmax. pose proof coh_sub as Hsub.
  destruct o; cbn [analysing do_op]; try discriminate; intros _; try apply (pv_seq coh same_data sd_refl sd_trans).
  - apply pv_getitem_; auto using sd_refl. exact sd_trans.
  - apply coh_decompose.
  - apply Hsub.
  - intros Hc. destruct (nth_error h n) as [x|] eqn:Hx.
    + destruct (proj2 Hc n x Hx) as (d & Hd & _). rewrite (coh_reconstruct n x d update h Hc Hx Hd). split; auto using sd_refl.
    + unfold reconstruct, bindM, get. rewrite Hx. cbn. split; auto using sd_refl.
  - intros Hc. destruct (nth_error h n) as [x|] eqn:Hx.
    + destruct (proj2 Hc n x Hx) as (d & Hd & _). rewrite (proj1 (coh_root n x d size update h Hc Hx Hd)). split; auto using sd_refl.
    + unfold root_reconstruct, bindM, get. rewrite Hx. cbn. split; auto using sd_refl.
  - apply Hmax.
  - apply pv_level; auto using sd_refl. exact sd_trans.
  - apply pv_walk; auto using sd_refl; [exact sd_trans|]. intros. apply pv_leaf; auto using sd_refl. exact sd_trans.
Qed.
Theorem run_analysing ops : forallb analysing ops = true -> forall h, coh h -> coh (run K h ops) /\ same_data h (run K h ops).
Proof.
  unfold run. induction ops as [|o ops IH]; cbn [forallb fold_left]; intros Hr h Hh; [split; auto using sd_refl|].
  apply andb_true_iff in Hr. destruct Hr as (Ho & Hr). destruct (coh_op o h Ho Hh) as (H1 & M1). destruct (IH Hr _ H1) as (H2 & M2).
  split; auto. eapply sd_trans; eauto.
Qed.
Lemma root_coh d : 0 <= M -> good 0 d -> coh [root_node K (Some d) (Some M)].
Proof.
  intros Hm Hg. split; [apply root_inv2; auto|]. intros [|[|k]] x Hx; cbn in Hx; try discriminate. injection Hx as <-.
  exists d. cbn. repeat split; auto.
Qed.

(** Whatever is decomposed or reconstructed on the way: every node reconstructs
    to its data, the root to the original data, and nothing changes. *)
Theorem packet_pr d ops n x u : 0 <= M -> good 0 d -> forallb analysing ops = true ->
  nth_error (run K [root_node K (Some d) (Some M)] ops) n = Some x ->
  (exists dn, ndat x = Some dn /\ reconstruct K n u (run K [root_node K (Some d) (Some M)] ops) = (run K [root_node K (Some d) (Some M)] ops, Ok (Some dn))) /\
  root_reconstruct K (Some (shp K d)) 0 u (run K [root_node K (Some d) (Some M)] ops) = (run K [root_node K (Some d) (Some M)] ops, Ok (Some d)).
Proof.
  intros Hm Hg Ho Hx. destruct (run_analysing ops Ho _ (root_coh d Hm Hg)) as (Hc & Hs). split.
  - destruct (proj2 Hc n x Hx) as (dn & Hd & _). exists dn. split; auto. eapply coh_reconstruct; eauto.
  - destruct (Hs 0%nat _ eq_refl) as (r & Hr & Er). apply (coh_root 0 r d (Some (shp K d)) u _ Hc Hr Er). auto.
Qed.
End Coh.
End Read.
