(** What iswtn does to the dictionaries of its caller. *)
From Coq Require Import Ascii String.
From Verif Require Import Base BaseLemmas Lengths Dwt Swt Nd NdSpec Axis Multidim MultidimProofs MultidimFacts MultilevelNd MultilevelNdProofs SwtNd.

(** Two list elements look the same to the caller, apart from the dictionary
    keys in [except]. *)
Definition same_item {C : CRing} (except : string -> Prop) (a b : swtn_item C) : Prop :=
  match a, b with
  | NArr x, NArr y => x = y
  | NDict d, NDict e => forall k, ~ except k -> dget d k = dget e k
  | _, _ => False
  end.
(** The key of the approximation coefficients of an n-dimensional transform. *)
Definition approx_key (k : string) : Prop := exists n, k = all_a n.

Lemma dget_dremove_other {A} (d : dict A) k k' : k' <> k -> dget (dremove d k) k' = dget d k'.
Proof.
  induction d as [|[j v] d IH]; cbn; auto. intros Hk. destruct (String.eqb_spec j k) as [->|Hj].
  - destruct (String.eqb_spec k k'); [congruence|reflexivity].
  - cbn. destruct (String.eqb_spec j k'); auto.
Qed.
Lemma dget_dset {A} (d : dict A) k v k' : dget (dset d k v) k' = if String.eqb k k' then Some v else dget d k'.
Proof.
  induction d as [|[j u] d IH]; cbn.
  - reflexivity.
  - destruct (String.eqb_spec j k) as [->|Hj]; cbn.
    + destruct (String.eqb_spec k k'); reflexivity.
    + rewrite IH. destruct (String.eqb_spec j k') as [->|]; auto. destruct (String.eqb_spec k k'); [congruence|reflexivity].
Qed.
Lemma dget_restored {A} (d : dict A) k a : dget d k = Some a -> forall k', dget (dset (dremove d k) k a) k' = dget d k'.
Proof.
  intros Ha k'. rewrite dget_dset. destruct (String.eqb_spec k k') as [<-|Hk]; [auto|]. apply dget_dremove_other. congruence.
Qed.

Section A.
Variable C : CRing.
Variable fuel : nat.
Variable junk : Z -> C.

Lemma same_item_refl P (a : swtn_item C) : same_item P a a.
Proof. destruct a; cbn; auto. Qed.
Lemma same_items_refl P (l : list (swtn_item C)) : Forall2 (same_item P) l l.
Proof. induction l; constructor; auto using same_item_refl. Qed.

Lemma loop_trim half axes ws nt : forall cs output, fst (iswtn_loop fuel junk half axes ws nt true output cs) = cs.
Proof.
  induction cs as [|[a|d] cs IH]; intros output; cbn [iswtn_loop]; auto.
  destruct (iswtn_level fuel junk half axes ws nt (2 ^ zlen cs) output d) as [o| | |]; auto.
  specialize (IH o). destruct (iswtn_loop fuel junk half axes ws nt true o cs) as [rest r]. cbn in *. congruence.
Qed.

Lemma loop_items half axes ws nt : forall cs output,
  Forall2 (same_item (fun k => k = all_a nt)) cs (fst (iswtn_loop fuel junk half axes ws nt false output cs)).
Proof.
  induction cs as [|[a|d] cs IH]; intros output; cbn [iswtn_loop]; [constructor|apply same_items_refl|].
  destruct (dget d (all_a nt)) as [a|] eqn:Ea; cbn [bind]; [|apply same_items_refl].
  assert (G : Forall2 (same_item (fun k => k = all_a nt)) (NDict d :: cs) (NDict (dremove d (all_a nt)) :: cs)).
  { constructor; [|apply same_items_refl]. cbn. intros k Hk. rewrite dget_dremove_other; auto. }
  destruct (iswtn_level fuel junk half axes ws nt (2 ^ zlen cs) output (dremove d (all_a nt))) as [o| | |]; auto.
  specialize (IH o). destruct (iswtn_loop fuel junk half axes ws nt false o cs) as [rest r]. cbn in *. constructor; auto.
  cbn. intros k Hk. rewrite dget_restored; auto.
Qed.

Lemma loop_success half axes ws nt : forall cs output r cs',
  iswtn_loop fuel junk half axes ws nt false output cs = (cs', Ok r) -> Forall2 (same_item (fun _ => False)) cs cs'.
Proof.
  induction cs as [|[a|d] cs IH]; intros output r cs' E; cbn [iswtn_loop] in E.
  - injection E as <- _. constructor.
  - discriminate.
  - destruct (dget d (all_a nt)) as [a|] eqn:Ea; cbn [bind] in E; [|discriminate].
    destruct (iswtn_level fuel junk half axes ws nt (2 ^ zlen cs) output (dremove d (all_a nt))) as [o| | |]; try discriminate.
    destruct (iswtn_loop fuel junk half axes ws nt false o cs) as [rest q] eqn:El. injection E as <- ->.
    constructor; [|apply (IH o r); auto]. cbn. intros k _. rewrite dget_restored; auto.
Qed.

Ltac steps E := repeat match type of E with
  | context [match ?x with _ => _ end] => destruct x eqn:?; try discriminate E
  end.

(** Whatever happens, the caller's list keeps its length and arrays, and every
    dictionary keeps all entries except possibly that of the approximation. *)
Theorem iswtn_always half coeffs w axes norm cs' r : iswtn fuel junk half coeffs w axes norm = (cs', r) ->
  Forall2 (same_item approx_key) coeffs cs'.
Proof.
  intros E. unfold iswtn in E.
  assert (R : forall l : list (swtn_item C), Forall2 (same_item approx_key) l l) by (intros; apply same_items_refl).
  destruct (match rev coeffs with [] => Err IndexError | it :: _ => key_length it end) as [nt| | |];
    try (injection E as <- _; apply R).
  destruct coeffs as [|c0 rest]; [injection E as <- _; apply R|].
  destruct (match c0 with NArr a => Ok (true, a) | NDict d => ' a <- dgetE d (all_a nt);; Ok (false, a) end) as [[trim cA]| | |] eqn:Et;
    try (injection E as <- _; apply R).
  cbv zeta in E.
  destruct (negb _) eqn:H1 in E; [injection E as <- _; apply R|].
  destruct (negb _) eqn:H2 in E; [injection E as <- _; apply R|].
  destruct (objs_per_axis w _) as [ws| | |] in E; try (injection E as <- _; apply R).
  destruct (iswtn_loop _ _ _ _ _ _ _ _ _) as [l q] eqn:El in E. injection E as <- _.
  destruct trim.
  - pose proof (loop_trim half (norm_axes (ndim cA) match axes with Some l => l | None => tab (ndim cA) (fun i => i) end)
      (map (norm_w norm) ws) nt rest (val C cA)) as T. rewrite El in T. cbn in T. subst l. apply R.
  - pose proof (loop_items half (norm_axes (ndim cA) match axes with Some l => l | None => tab (ndim cA) (fun i => i) end)
      (map (norm_w norm) ws) nt (c0 :: rest) (val C cA)) as T. rewrite El in T. cbn [fst] in T.
    revert T. generalize (c0 :: rest). clear. induction 1 as [|x y u v Hxy Huv IH]; constructor; auto. clear -Hxy. revert Hxy. revert x y. intros [a|d] [b|e]; cbn; auto. intros H k Hk. apply H. intros ->. apply Hk. exists nt. reflexivity.
Qed.

(** With trimmed coefficients nothing at all changes. *)
Theorem iswtn_trimmed half a rest w axes norm :
  fst (iswtn fuel junk half (NArr a :: rest) w axes norm) = NArr a :: rest.
Proof.
  unfold iswtn. destruct (match rev (NArr a :: rest) with [] => Err IndexError | it :: _ => key_length it end) as [nt| | |]; auto.
  cbv zeta. destruct (negb _); auto. destruct (negb _); auto. destruct (objs_per_axis w _) as [ws| | |]; auto.
  destruct (iswtn_loop _ _ _ _ _ _ _ _ _) as [l q] eqn:El.
  cbn [fst]. f_equal. rewrite <- (loop_trim half (norm_axes (ndim a) match axes with Some l => l | None => tab (ndim a) (fun i => i) end)
      (map (norm_w norm) ws) nt rest (val C a)). rewrite El. reflexivity.
Qed.

(** If it returns, every entry is what it was. *)
Theorem iswtn_success half coeffs w axes norm cs' r : iswtn fuel junk half coeffs w axes norm = (cs', Ok r) ->
  Forall2 (same_item (fun _ => False)) coeffs cs'.
Proof.
  intros E. destruct coeffs as [|[a|d] rest]; [cbn in E; discriminate| |].
  - pose proof (iswtn_trimmed half a rest w axes norm) as T. rewrite E in T. cbn in T. subst. apply same_items_refl.
  - unfold iswtn in E.
    destruct (match rev (NDict d :: rest) with [] => Err IndexError | it :: _ => key_length it end) as [nt| | |]; try discriminate.
    destruct (dgetE d (all_a nt)) as [cA| | |] eqn:Et; cbn [bind] in E; try discriminate.
    cbv zeta in E.
    destruct (negb _) eqn:H1 in E; [discriminate|].
    destruct (negb _) eqn:H2 in E; [discriminate|].
    destruct (objs_per_axis w _) as [ws| | |] in E; try discriminate.
    destruct (iswtn_loop _ _ _ _ _ _ _ _ _) as [l q] eqn:El in E. injection E as <- Eq.
    destruct q as [o| | |]; try discriminate. apply loop_success in El. exact El.
Qed.

End A.
