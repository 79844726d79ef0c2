(** The loops of mran and mra2: each term is the inverse of the coefficients
    with one array kept; for an additive inverse the terms add up. *)
From Coq Require Import Ascii String.
From Verif Require Import Base BaseLemmas CConv Spec Lengths Dwt DwtProofs Swt SwtProofs Nd NdSpec NdLinear Axis AxisProofs Multidim MultidimProofs MultidimFacts MultilevelNd MultilevelNdProofs SwtNd SwtNdArgs Mra MraProofs.

Lemma NoDup_app_j {A} (l1 l2 : list A) : NoDup l1 -> NoDup l2 -> (forall x, In x l1 -> In x l2 -> False) -> NoDup (l1 ++ l2).
Proof.
  induction 1 as [|x l1 H1 H2 IH]; intros H3 H4; cbn; auto. constructor.
  - rewrite in_app_iff. intros [H|H]; [auto|]. apply (H4 x); cbn; auto.
  - apply IH; auto. intros y Hy. apply H4. right; auto.
Qed.

Section Lists.
Context {A : Type}.
Lemma setl_setl j (v v' : A) l : setl j v (setl j v' l) = setl j v l.
Proof. revert l. induction j as [|j IH]; intros [|a l]; cbn; auto. f_equal. auto. Qed.
Lemma setl_same j (v : A) l : nth_error l j = Some v -> setl j v l = l.
Proof. revert l. induction j as [|j IH]; intros [|a l] H; cbn in *; try discriminate; [congruence|]. f_equal. auto. Qed.
Lemma nth_setl_same j (v : A) l : (j < List.length l)%nat -> nth_error (setl j v l) j = Some v.
Proof. intros H. rewrite nth_setl, Nat.eqb_refl. replace (j <? List.length l)%nat with true by (symmetry; apply Nat.ltb_lt; auto). reflexivity. Qed.
Lemma nth_setl_other j i (v : A) l : i <> j -> nth_error (setl j v l) i = nth_error l i.
Proof. intros H. rewrite nth_setl. replace (Nat.eqb j i) with false by (symmetry; apply Nat.eqb_neq; auto). reflexivity. Qed.
Lemma dset_dset (d : dict A) k v v' : dset (dset d k v') k v = dset d k v.
Proof.
  induction d as [|[q u] d IH]; cbn; [rewrite String.eqb_refl; auto|].
  destruct (String.eqb_spec q k) as [->|E]; cbn; [rewrite String.eqb_refl; auto|].
  replace (String.eqb q k) with false by (symmetry; apply String.eqb_neq; auto). f_equal. auto.
Qed.
Lemma dset_same (d : dict A) k v : dget d k = Some v -> dset d k v = d.
Proof. induction d as [|[q u] d IH]; cbn; [discriminate|]. destruct (String.eqb_spec q k) as [->|E]; [congruence|]. intros H. f_equal. auto. Qed.
Lemma dset_keys (d : dict A) k v : In k (map fst d) -> map fst (dset d k v) = map fst d.
Proof.
  induction d as [|[q u] d IH]; cbn; [tauto|]. destruct (String.eqb_spec q k) as [->|E]; cbn; auto.
  intros [H|H]; [congruence|]. f_equal. auto.
Qed.
End Lists.

Section L.
Context {C : CRing}.
Definition zdict (d : dict (sarr C)) : dict (sarr C) := map (fun '(k, v) => (k, ndzeros_like v)) d.

Lemma zdict_keys (d : dict (sarr C)) : map fst (zdict d) = map fst d.
Proof. unfold zdict. rewrite map_map. apply map_ext. intros [k v]. reflexivity. Qed.
Lemma zdict_get (d : dict (sarr C)) k : dget (zdict d) k = option_map ndzeros_like (dget d k).
Proof. induction d as [|[q u] d IH]; cbn; auto. destruct (String.eqb q k); auto. Qed.
Lemma in_keys (d : dict (sarr C)) k : In k (map fst d) -> exists v, dget d k = Some v.
Proof.
  induction d as [|[q u] d IH]; cbn; [tauto|]. destruct (String.eqb_spec q k) as [->|E]; eauto. intros [H|H]; [congruence|auto].
Qed.

Lemma mran_keys inverse sh (ds : list (dict (sarr C))) d j (R : string -> sarr C) :
  nth_error ds j = Some d -> NoDup (map fst d) ->
  (forall k v, dget d k = Some v -> inverse (setl j (dset (zdict d) k v) (map zdict ds)) = Ok (R k)) ->
  foldM (mran_key inverse sh d j) (map zdict ds, []) (map fst d) = Ok (map zdict ds, map (fun k => (k, trim_to sh (R k))) (map fst d)).
Proof.
  intros Ej ND HR. assert (Ez : nth_error (map zdict ds) j = Some (zdict d)) by (apply map_nth_error; exact Ej).
  assert (Lj : (j < List.length (map zdict ds))%nat) by (apply nth_error_Some; congruence).
  assert (G : forall l out, (forall k, In k l -> In k (map fst d)) -> NoDup (map fst out ++ l) ->
    foldM (mran_key inverse sh d j) (map zdict ds, out) l = Ok (map zdict ds, out ++ map (fun k => (k, trim_to sh (R k))) l)).
  { induction l as [|k l IH]; intros out Hl Hn; cbn [foldM map]; [rewrite app_nil_r; reflexivity|].
    destruct (in_keys d k (Hl k (or_introl eq_refl))) as (v & Ev).
    unfold mran_key at 1. rewrite (getE_ok _ _ _ Ez). cbn [bind]. unfold dgetE at 1. rewrite zdict_get, Ev. cbn [option_map bind].
    unfold dgetE at 1. rewrite Ev. cbn [bind]. rewrite (HR k v Ev). cbn [bind].
    rewrite (getE_ok _ _ (dset (zdict d) k v)) by (apply nth_setl_same; auto). cbn [bind].
    rewrite setl_setl, dset_dset, (dset_same (zdict d) k) by (rewrite zdict_get, Ev; reflexivity). rewrite setl_same by auto.
    rewrite dset_not_in.
    2: { intros Hi. apply NoDup_remove_2 in Hn. apply Hn. apply in_or_app. auto. }
    rewrite IH.
    - rewrite <- app_assoc. reflexivity.
    - intros q Hq. apply Hl. right; auto.
    - rewrite map_app. cbn [map fst]. rewrite <- app_assoc. exact Hn. }
  rewrite G; auto.
Qed.

Theorem mran_loop_spec inverse sh (a : sarr C) (ds : list (dict (sarr C))) K (R0 : sarr C) (R : nat -> string -> sarr C) :
  NoDup K -> (forall d, In d ds -> map fst d = K) -> inverse a (map zdict ds) = Ok R0 ->
  (forall j d k v, nth_error ds j = Some d -> dget d k = Some v ->
     inverse (ndzeros_like a) (setl j (dset (zdict d) k v) (map zdict ds)) = Ok (R j k)) ->
  mran_loop inverse sh a ds = Ok (trim_to sh R0, map (fun j => map (fun k => (k, trim_to sh (R j k))) K) (seq 0 (List.length ds))).
Proof.
  intros HK Hd H0 HR. unfold mran_loop. change (map (map (fun '(k, v) => (k, ndzeros_like v))) ds) with (map zdict ds). rewrite H0. cbn [bind].
  assert (G : forall n k out, (k + n = List.length ds)%nat ->
    foldM (mran_level (inverse (ndzeros_like a)) sh ds) (map zdict ds, out) (seq k n) =
    Ok (map zdict ds, out ++ map (fun j => map (fun k => (k, trim_to sh (R j k))) K) (seq k n))).
  { induction n as [|n IH]; intros k out Hk; cbn [seq foldM map]; [rewrite app_nil_r; reflexivity|].
    destruct (nth_error ds k) as [d|] eqn:Ed; [|apply nth_error_None in Ed; lia].
    assert (Ek : map fst d = K) by (apply Hd; eapply nth_error_In; eauto).
    unfold mran_level at 1. rewrite (getE_ok _ _ _ Ed). cbn [bind].
    rewrite (mran_keys (inverse (ndzeros_like a)) sh ds d k (R k) Ed); [|congruence|intros; eapply HR; eauto].
    cbn [bind]. rewrite IH by lia. rewrite Ek, <- app_assoc. reflexivity. }
  rewrite G by lia. reflexivity.
Qed.

(** mra2: the entries 0, 1, 2 of each level. *)
Lemma mra2_entries inverse sh (ds : list (list (sarr C))) d j (R : nat -> sarr C) :
  nth_error ds j = Some d -> List.length d = 3%nat ->
  (forall n v, nth_error d n = Some v -> inverse (setl j (setl n v (map ndzeros_like d)) (map (map ndzeros_like) ds)) = Ok (R n)) ->
  foldM (mra2_entry inverse sh d j) (map (map ndzeros_like) ds, []) (seq 0 3) = Ok (map (map ndzeros_like) ds, map (fun n => trim_to sh (R n)) (seq 0 3)).
Proof.
  intros Ej L3 HR. assert (Ez : nth_error (map (map ndzeros_like) ds) j = Some (map ndzeros_like d)) by (apply map_nth_error; exact Ej).
  assert (Lj : (j < List.length (map (map ndzeros_like) ds))%nat) by (apply nth_error_Some; congruence).
  assert (G : forall n k out, (k + n = 3)%nat ->
    foldM (mra2_entry inverse sh d j) (map (map ndzeros_like) ds, out) (seq k n) = Ok (map (map ndzeros_like) ds, out ++ map (fun n => trim_to sh (R n)) (seq k n))).
  { induction n as [|n IH]; intros k out Hk; cbn [seq foldM map]; [rewrite app_nil_r; reflexivity|].
    destruct (nth_error d k) as [v|] eqn:Ev; [|apply nth_error_None in Ev; lia].
    assert (Ezv : nth_error (map ndzeros_like d) k = Some (ndzeros_like v)) by (apply map_nth_error; exact Ev).
    unfold mra2_entry at 1. rewrite (getE_ok _ _ _ Ez). cbn [bind]. rewrite (getE_ok _ _ _ Ezv). cbn [bind].
    rewrite (getE_ok _ _ _ Ev). cbn [bind]. rewrite (HR k v Ev). cbn [bind].
    rewrite (getE_ok _ _ (setl k v (map ndzeros_like d))) by (apply nth_setl_same; auto). cbn [bind].
    rewrite setl_setl, setl_setl, (setl_same k) by auto. rewrite setl_same by auto.
    rewrite IH by lia. rewrite <- app_assoc. reflexivity. }
  rewrite G by lia. reflexivity.
Qed.
Theorem mra2_loop_spec inverse sh (a : sarr C) (ds : list (list (sarr C))) (R0 : sarr C) (R : nat -> nat -> sarr C) :
  (forall d, In d ds -> List.length d = 3%nat) -> inverse a (map (map ndzeros_like) ds) = Ok R0 ->
  (forall j d n v, nth_error ds j = Some d -> nth_error d n = Some v ->
     inverse (ndzeros_like a) (setl j (setl n v (map ndzeros_like d)) (map (map ndzeros_like) ds)) = Ok (R j n)) ->
  mra2_loop inverse sh a ds = Ok (trim_to sh R0, map (fun j => map (fun n => trim_to sh (R j n)) (seq 0 3)) (seq 0 (List.length ds))).
Proof.
  intros Hd H0 HR. unfold mra2_loop. rewrite H0. cbn [bind].
  assert (G : forall n k out, (k + n = List.length ds)%nat ->
    foldM (mra2_level (inverse (ndzeros_like a)) sh ds) (map (map ndzeros_like) ds, out) (seq k n) =
    Ok (map (map ndzeros_like) ds, out ++ map (fun j => map (fun n => trim_to sh (R j n)) (seq 0 3)) (seq k n))).
  { induction n as [|n IH]; intros k out Hk; [cbn [seq foldM map]; rewrite app_nil_r; reflexivity|].
    change (seq k (S n)) with (k :: seq (S k) n). cbn [foldM]. rewrite map_cons.
    destruct (nth_error ds k) as [d|] eqn:Ed; [|apply nth_error_None in Ed; lia].
    unfold mra2_level at 1. rewrite (getE_ok _ _ _ Ed). cbn [bind].
    rewrite (mra2_entries (inverse (ndzeros_like a)) sh ds d k (R k) Ed); [|apply Hd; eapply nth_error_In; eauto|intros; eapply HR; eauto].
    cbn [bind]. rewrite IH by lia. rewrite <- app_assoc. reflexivity. }
  rewrite G by lia. reflexivity.
Qed.
End L.

(** ** Additive operators on families of arrays *)
Section Add.
Variable C : CRing.
Add Ring Cring_ring_mrl : (rth C).
Notation fam := (nat -> string -> nd C).

Definition pos_eqb (p q : nat * string) : bool := Nat.eqb (fst p) (fst q) && String.eqb (snd p) (snd q).
Lemma pos_eqb_spec p q : pos_eqb p q = true <-> p = q.
Proof.
  unfold pos_eqb. rewrite andb_true_iff, Nat.eqb_eq, String.eqb_eq. destruct p, q; cbn. split; [intros (-> & ->)|intros [= -> ->]]; auto.
Qed.
(** The family with the arrays outside [P] zeroed. *)
Definition restr (shs : nat -> list Z) (P : list (nat * string)) (V : fam) : fam :=
  fun j k => if existsb (pos_eqb (j, k)) P then V j k else ndzero (shs j).
Definition fam_ok (n : nat) (K : list string) (shs : nat -> list Z) (V : fam) : Prop :=
  forall j k, (j < n)%nat -> In k K -> nd_wf (V j k) /\ nshape (V j k) = shs j.

Lemma ndzero_wf sh : shape_ok sh -> nd_wf (ndzero (C := C) sh).
Proof. intros. apply ndtab_wf. auto. Qed.
Lemma ndadd_zero_l (x : nd C) : nd_wf x -> ndadd (ndzero (nshape x)) x = x.
Proof.
  intros W. apply nd_ext; auto; [apply ndtab_wf; apply W|]. cbn [nshape ndadd ndtab ndzero]. intros idx V. unfold ndadd.
  rewrite ndget_ndtab by auto. unfold ndzero. rewrite ndget_ndtab by auto. ring.
Qed.
Lemma ndadd_zero_r (x : nd C) : nd_wf x -> ndadd x (ndzero (nshape x)) = x.
Proof.
  intros W. apply nd_ext; auto; [apply ndtab_wf; apply W|]. cbn [nshape ndadd ndtab]. intros idx V. unfold ndadd.
  rewrite ndget_ndtab by auto. unfold ndzero. rewrite ndget_ndtab by auto. ring.
Qed.

Definition additive (n : nat) (K : list string) (sha : list Z) (shs : nat -> list Z) (T : nd C -> fam -> nd C) : Prop :=
  (forall a V V', (forall j k, (j < n)%nat -> In k K -> V j k = V' j k) -> T a V = T a V') /\
  (forall a a' V V', nd_wf a -> nd_wf a' -> nshape a = sha -> nshape a' = sha -> fam_ok n K shs V -> fam_ok n K shs V' ->
     T (ndadd a a') (fun j k => ndadd (V j k) (V' j k)) = ndadd (T a V) (T a' V')).

Lemma restr_ok n K shs P V : (forall j, (j < n)%nat -> shape_ok (shs j)) -> fam_ok n K shs V -> fam_ok n K shs (restr shs P V).
Proof. intros Hs HV j k Hj Hk. unfold restr. destruct (existsb _ P); [apply HV; auto|]. split; [apply ndzero_wf; auto|reflexivity]. Qed.

Definition all_pos (n : nat) (K : list string) : list (nat * string) := flat_map (fun j => map (fun k => (j, k)) K) (seq 0 n).
Lemma in_all_pos n K j k : In (j, k) (all_pos n K) <-> (j < n)%nat /\ In k K.
Proof.
  unfold all_pos. rewrite in_flat_map. split.
  - intros (j' & H1 & H2). apply in_map_iff in H2 as (k' & [= -> ->] & H2). apply in_seq in H1. split; auto. lia.
  - intros (H1 & H2). exists j. split; [apply in_seq; lia|apply in_map; auto].
Qed.
Lemma all_pos_nodup n K : NoDup K -> NoDup (all_pos n K).
Proof.
  intros HK. unfold all_pos. generalize (seq_NoDup n 0). induction (seq 0 n) as [|j l IH]; intros Hl; cbn [flat_map]; [constructor|].
  inversion Hl; subst. apply NoDup_app_j.
  - clear IH. induction HK as [|k K H3 H4 IHK]; cbn [map]; constructor; auto. rewrite in_map_iff. intros (q & [= ->] & Hq). auto.
  - auto.
  - intros [j' k'] Hin1 Hin2. apply in_map_iff in Hin1 as (q & [= <- <-] & Hq). apply in_flat_map in Hin2 as (i & Hi & Hi2).
    apply in_map_iff in Hi2 as (q2 & [= -> ->] & _). auto.
Qed.

Fixpoint psum {A} (f : A -> C) (l : list A) : C := match l with [] => r0 | p :: t => f p [+] psum f t end.
Lemma psum_app {A} (f : A -> C) l1 l2 : psum f (l1 ++ l2) = psum f l1 [+] psum f l2.
Proof. induction l1 as [|p l IH]; cbn; [ring|]. rewrite IH. ring. Qed.
Lemma psum_ext {A} (f g : A -> C) l : (forall p, In p l -> f p = g p) -> psum f l = psum g l.
Proof. induction l as [|p l IH]; intros H; cbn; auto. rewrite (H p) by (left; auto). f_equal. apply IH. intros; apply H; right; auto. Qed.
Lemma psum_map {A B} (f : B -> C) (g : A -> B) l : psum f (map g l) = psum (fun x => f (g x)) l.
Proof. induction l as [|p l IH]; cbn; auto. rewrite IH. auto. Qed.
Lemma psum_concat {A} (f : A -> C) ls : psum f (concat ls) = psum (psum f) ls.
Proof. induction ls as [|l ls IH]; cbn; auto. rewrite psum_app, IH. reflexivity. Qed.

Theorem restr_sum n K sha shs T (a : nd C) V idx :
  additive n K sha shs T -> NoDup K -> nd_wf a -> nshape a = sha -> fam_ok n K shs V -> (forall j, (j < n)%nat -> shape_ok (shs j)) ->
  (forall P, valid (nshape (T a (restr shs P V))) idx) ->
  ndget (T a V) idx = ndget (T a (restr shs [] V)) idx [+] psum (fun p => ndget (T (ndzero sha) (restr shs [p] V)) idx) (all_pos n K).
Proof.
  intros (Hext & Hadd) HK Wa Sa HV Hs Hidx.
  assert (G : forall P, NoDup P -> (forall p, In p P -> In p (all_pos n K)) ->
    ndget (T a (restr shs P V)) idx = ndget (T a (restr shs [] V)) idx [+] psum (fun p => ndget (T (ndzero sha) (restr shs [p] V)) idx) P).
  { induction P as [|p P IH]; intros HN HP; [cbn; ring|]. inversion HN; subst.
    assert (Wz : nd_wf (ndzero (C := C) (nshape a))) by (apply ndzero_wf; apply Wa).
    assert (E : T a (restr shs (p :: P) V) = ndadd (T a (restr shs P V)) (T (ndzero (nshape a)) (restr shs [p] V))).
    { rewrite <- Hadd; auto using restr_ok. rewrite ndadd_zero_r by auto. apply Hext. intros j k Hj Hk. destruct (HV j k Hj Hk) as (W & S).
      unfold restr. cbn [existsb]. rewrite orb_false_r. destruct (pos_eqb (j, k) p) eqn:Ep; cbn [orb].
      - apply pos_eqb_spec in Ep. subst p. replace (existsb (pos_eqb (j, k)) P) with false.
        + rewrite <- S, ndadd_zero_l; auto.
        + symmetry. apply not_true_iff_false. intros Hx. apply existsb_exists in Hx as (q & Hq & Eq). apply pos_eqb_spec in Eq. subst q. auto.
      - destruct (existsb _ P); rewrite <- S; [rewrite ndadd_zero_r; auto|].
        change (ndzero (nshape (V j k))) with (ndzero (C := C) (nshape (ndzero (C := C) (nshape (V j k))))) at 3. rewrite ndadd_zero_r; auto. apply ndzero_wf. apply W. }
    rewrite E. unfold ndadd. rewrite ndget_ndtab by apply Hidx. rewrite IH by (auto; intros; apply HP; right; auto). cbn [psum]. ring. }
  rewrite <- (G (all_pos n K)); auto using all_pos_nodup.
  f_equal. apply Hext. intros j k Hj Hk. unfold restr. replace (existsb (pos_eqb (j, k)) (all_pos n K)) with true; auto.
  symmetry. apply existsb_exists. exists (j, k). split; [apply in_all_pos; auto|apply pos_eqb_spec; auto].
Qed.
End Add.
