(** n-dimensional arrays as mathematical objects (specification side): a shape
    and the elements in row-major order, and the application of a 1-D
    operation to every line along one axis. *)
From Verif Require Import Base BaseLemmas.

Fixpoint prodZ (l : list Z) : Z := match l with [] => 1 | s :: t => s * prodZ t end.

(** Row-major position of a multi-index, and back. *)
Fixpoint ravel (sh idx : list Z) : Z :=
  match sh, idx with s :: sh', i :: idx' => i * prodZ sh' + ravel sh' idx' | _, _ => 0 end.
Fixpoint unravel (sh : list Z) (i : Z) : list Z :=
  match sh with [] => [] | s :: sh' => i / prodZ sh' :: unravel sh' (i mod prodZ sh') end.

(** A multi-index of an array of the given shape. *)
Fixpoint valid (sh idx : list Z) : Prop :=
  match sh, idx with
  | [], [] => True
  | s :: sh', i :: idx' => 0 <= i < s /\ valid sh' idx'
  | _, _ => False
  end.
Definition shape_ok (sh : list Z) : Prop := Forall (fun s => 0 <= s) sh.

Fixpoint dot (idx st : list Z) : Z :=
  match idx, st with i :: idx', s :: st' => i * s + dot idx' st' | _, _ => 0 end.

(** [l] with the entry [k] replaced by [v]; entry [k]. *)
Fixpoint setn (k : nat) (v : Z) (l : list Z) : list Z :=
  match l, k with [], _ => [] | _ :: t, O => v :: t | h :: t, S k' => h :: setn k' v t end.
Definition nthz (k : nat) (l : list Z) : Z := nth k l 0.

Lemma prodZ_nonneg sh : shape_ok sh -> 0 <= prodZ sh.
Proof. induction 1; cbn; lia. Qed.

Lemma valid_len sh : forall idx, valid sh idx -> length idx = length sh.
Proof. induction sh as [|s sh IH]; intros [|i idx]; cbn; intuition. Qed.

Lemma valid_shape_pos sh : forall idx, valid sh idx -> Forall (fun s => 1 <= s) sh.
Proof.
  induction sh as [|s sh IH]; intros [|i idx] H; cbn in H; try tauto; constructor; [lia|].
  apply (IH idx). tauto.
Qed.

Lemma prodZ_pos sh : Forall (fun s => 1 <= s) sh -> 1 <= prodZ sh.
Proof. induction 1; cbn; nia. Qed.

Lemma prodZ_pos_inv sh : shape_ok sh -> 1 <= prodZ sh -> Forall (fun s => 1 <= s) sh.
Proof.
  induction 1 as [|s sh Hs H IH]; cbn; intros Hp; constructor; pose proof (prodZ_nonneg sh H).
  - nia.
  - apply IH. nia.
Qed.

Lemma ravel_bound sh : forall idx, valid sh idx -> 0 <= ravel sh idx < prodZ sh.
Proof.
  induction sh as [|s sh IH]; intros [|i idx] H; cbn in *; try tauto; try lia.
  destruct H as (Hi & Hv). specialize (IH idx Hv). nia.
Qed.

Lemma unravel_valid sh : shape_ok sh -> forall i, 0 <= i < prodZ sh -> valid sh (unravel sh i).
Proof.
  induction 1 as [|s sh Hs H IH]; intros i Hi; cbn in *; auto.
  pose proof (prodZ_nonneg sh H). assert (0 < prodZ sh) by nia. split.
  - split; [apply Z.div_pos; lia|]. apply Z.div_lt_upper_bound; nia.
  - apply IH. apply Z.mod_pos_bound. auto.
Qed.

Lemma ravel_unravel sh : shape_ok sh -> forall i, 0 <= i < prodZ sh -> ravel sh (unravel sh i) = i.
Proof.
  induction 1 as [|s sh Hs H IH]; intros i Hi; cbn in *; [lia|].
  pose proof (prodZ_nonneg sh H). assert (0 < prodZ sh) by nia.
  rewrite IH by (apply Z.mod_pos_bound; auto). pose proof (Z.div_mod i (prodZ sh)). lia.
Qed.

Lemma unravel_ravel sh : forall idx, valid sh idx -> unravel sh (ravel sh idx) = idx.
Proof.
  induction sh as [|s sh IH]; intros [|i idx]; cbn; intuition.
  pose proof (ravel_bound sh idx H1). rewrite Z.add_comm.
  rewrite Z_div_plus_full, Z.div_small, Z.add_0_l by lia. rewrite Z_mod_plus_full, Z.mod_small by lia.
  rewrite IH by auto. reflexivity.
Qed.

Lemma setn_nil k v : setn k v [] = [].
Proof. destruct k; reflexivity. Qed.
Lemma setn_length k v l : length (setn k v l) = length l.
Proof. revert k. induction l; intros [|k]; cbn; auto. Qed.
Lemma setn_setn k v u l : setn k v (setn k u l) = setn k v l.
Proof. revert k. induction l as [|h t IH]; intros [|k]; cbn; auto. rewrite IH. reflexivity. Qed.
Lemma setn_comm j k u v l : j <> k -> setn j u (setn k v l) = setn k v (setn j u l).
Proof. revert j k. induction l as [|h t IH]; intros [|j] [|k] H; cbn; auto; try congruence. rewrite IH by congruence. reflexivity. Qed.
Lemma nthz_setn k v l : (k < length l)%nat -> nthz k (setn k v l) = v.
Proof. unfold nthz. revert k. induction l as [|h t IH]; intros [|k] H; cbn in *; auto; try lia. apply IH. lia. Qed.
Lemma nthz_setn_ne j k v l : j <> k -> nthz j (setn k v l) = nthz j l.
Proof. unfold nthz. revert j k. induction l as [|h t IH]; intros [|j] [|k] H; cbn in *; auto; try congruence. Qed.
Lemma setn_nthz k l : setn k (nthz k l) l = l.
Proof. unfold nthz. revert k. induction l as [|h t IH]; intros [|k]; cbn; auto. rewrite IH. reflexivity. Qed.

Lemma valid_nth sh : forall idx k, valid sh idx -> (k < length sh)%nat -> 0 <= nthz k idx < nthz k sh.
Proof. unfold nthz. induction sh as [|s sh IH]; intros [|i idx] [|k]; cbn; intuition; try lia; apply IH; auto; lia. Qed.

Lemma valid_setn sh : forall idx k v n, valid sh idx -> 0 <= v < n -> valid (setn k n sh) (setn k v idx).
Proof. induction sh as [|s sh IH]; intros [|i idx] [|k]; cbn; intuition. Qed.

Lemma valid_setn' sh idx k v : valid sh idx -> 0 <= v < nthz k sh -> valid sh (setn k v idx).
Proof. intros H Hv. rewrite <- (setn_nthz k sh). apply valid_setn; auto. Qed.

Lemma shape_ok_setn sh k n : shape_ok sh -> 0 <= n -> shape_ok (setn k n sh).
Proof. unfold shape_ok. intros H Hn. revert k. induction H; intros [|k]; cbn; constructor; auto. Qed.

Lemma shape_ok_nth sh k : shape_ok sh -> 0 <= nthz k sh.
Proof. unfold nthz. intros H. revert k. induction H; intros [|k]; cbn; auto; lia. Qed.

Section Nd.
Context {C : CRing}.

Record nd : Type := mkNd { nshape : list Z; ndata : list C }.
Definition nd_wf (a : nd) : Prop := shape_ok (nshape a) /\ zlen (ndata a) = prodZ (nshape a).
Definition ndget (a : nd) (idx : list Z) : C := gz (ndata a) (ravel (nshape a) idx).
Definition ndtab (sh : list Z) (f : list Z -> C) : nd := mkNd sh (tab (prodZ sh) (fun i => f (unravel sh i))).

(** The line of [a] along axis [ax] through the multi-index [idx]. *)
Definition line (a : nd) (ax : nat) (idx : list Z) : list C :=
  tab (nthz ax (nshape a)) (fun t => ndget a (setn ax t idx)).

(** Apply the 1-D operation [T], giving lines of [n] samples, along axis [ax]. *)
Definition along (ax : nat) (n : Z) (T : list C -> list C) (a : nd) : nd :=
  ndtab (setn ax n (nshape a)) (fun idx => gz (T (line a ax idx)) (nthz ax idx)).

Lemma ndtab_wf sh f : shape_ok sh -> nd_wf (ndtab sh f).
Proof. intros H. split; cbn; auto. apply zlen_tab. apply prodZ_nonneg. auto. Qed.

Lemma ndget_ndtab sh f idx : valid sh idx -> ndget (ndtab sh f) idx = f idx.
Proof.
  intros H. unfold ndget, ndtab. cbn. rewrite gz_tab by (apply ravel_bound; auto).
  rewrite unravel_ravel by auto. reflexivity.
Qed.

Lemma nd_ext a b : nd_wf a -> nd_wf b -> nshape a = nshape b ->
  (forall idx, valid (nshape a) idx -> ndget a idx = ndget b idx) -> a = b.
Proof.
  intros (Ha & Hla) (Hb & Hlb) Hs H. destruct a as [sa da], b as [sb db]. cbn in *. subst sb. f_equal.
  apply list_ext; [congruence|]. intros i Hi. rewrite Hla in Hi.
  specialize (H (unravel sa i) (unravel_valid sa Ha i Hi)). unfold ndget in H. cbn in H.
  rewrite ravel_unravel in H; auto.
Qed.

Lemma ndtab_ext sh f g : shape_ok sh -> (forall idx, valid sh idx -> f idx = g idx) -> ndtab sh f = ndtab sh g.
Proof.
  intros Hs H. unfold ndtab. f_equal. apply tab_ext. intros i Hi. apply H. apply unravel_valid; auto.
Qed.

Lemma ndtab_ndget a : nd_wf a -> ndtab (nshape a) (ndget a) = a.
Proof.
  intros H. apply nd_ext; auto; [apply ndtab_wf; apply H|]. intros idx Hi. cbn in Hi. apply ndget_ndtab. auto.
Qed.

Lemma along_wf ax n T a : nd_wf a -> 0 <= n -> nd_wf (along ax n T a).
Proof. intros (H & _) Hn. apply ndtab_wf. apply shape_ok_setn; auto. Qed.
Lemma along_shape ax n T a : nshape (along ax n T a) = setn ax n (nshape a).
Proof. reflexivity. Qed.

Lemma line_setn a ax t idx : line a ax (setn ax t idx) = line a ax idx.
Proof. unfold line. apply tab_ext. intros i _. rewrite setn_setn. reflexivity. Qed.
Lemma zlen_line a ax idx : nd_wf a -> zlen (line a ax idx) = nthz ax (nshape a).
Proof. intros (H & _). unfold line. apply zlen_tab. apply shape_ok_nth. auto. Qed.

Lemma ndget_along ax n T a idx : valid (setn ax n (nshape a)) idx ->
  ndget (along ax n T a) idx = gz (T (line a ax idx)) (nthz ax idx).
Proof. intros H. unfold along. apply ndget_ndtab. auto. Qed.

Lemma line_along ax n T a idx : (ax < length (nshape a))%nat -> valid (setn ax n (nshape a)) idx ->
  zlen (T (line a ax idx)) = n -> line (along ax n T a) ax idx = T (line a ax idx).
Proof.
  intros Hax Hv Hn. unfold line at 1. rewrite along_shape, nthz_setn by auto.
  rewrite <- (tab_gz (T (line a ax idx))), Hn. apply tab_ext. intros t Ht.
  rewrite ndget_along.
  - rewrite line_setn, nthz_setn; auto. rewrite (valid_len _ _ Hv), setn_length. auto.
  - apply valid_setn'; auto. rewrite nthz_setn; auto.
Qed.

End Nd.
Arguments nd : clear implicits.
