(** The packet classes, and what reading does to the nodes in any history. *)
From Coq Require Import Permutation String Ascii Sorted.
From Verif Require Import Base BaseLemmas CConv Spec Lengths Dwt Multilevel Swt Nd NdSpec Axis Multidim MultilevelNd SwtNd.
From Verif Require Import Packets PacketsInv PacketsPath PacketsPath2 PacketsRead PacketsSpec PacketsLevel PacketsClasses PacketsFacts.
Open Scope list_scope. Open Scope Z_scope.

(** The three classes of trees, for all arguments. *)
Inductive packet_class {C : CRing} (fuel : nat) (junk : Z -> C) : wpclass (nd C) -> Prop :=
  | is_wp1 w m axis : packet_class fuel junk (wp1 fuel junk w m axis)
  | is_wp2 w m axes : packet_class fuel junk (wp2 fuel junk w m axes)
  | is_wpn w m axes : axes <> [] -> packet_class fuel junk (wpn fuel junk w m axes).

Section F3.
Context {C : CRing}.
Variable fuel : nat.
Variable junk : Z -> C.
Variable K : wpclass (nd C).
Hypothesis HC : packet_class fuel junk K.

Lemma pc_ok : class_ok K.
Proof. destruct HC; [apply wp1_class|apply wp2_class|apply wpn_class; auto]. Qed.
Lemma pc_keys : forall d cs, fwd K d = Ok cs -> fwd_keys K cs.
Proof. destruct HC; [apply wp1_keys|apply wp2_keys|apply wpn_keys]. Qed.

(** Nodes, whatever happened before: paths, levels, parents and subnodes fit. *)
Theorem packet_tree data maxl ops n x : let h := run K [root_node K data maxl] ops in nth_error h n = Some x ->
  0 <= nlevel x /\ Z.of_nat (String.length (npath x)) = nlevel x * Z.of_nat (plen K) /\ NoDup (map fst (nkids x)) /\
  (forall p, nparent x = Some p -> (p < n)%nat /\ exists y part, nth_error h p = Some y /\ In part (parts K) /\
     npath x = append (npath y) part /\ nlevel x = nlevel y + 1) /\
  (forall part c, dget (nkids x) part = Some c -> In part (parts K) /\ (n < c)%nat /\ exists y, nth_error h c = Some y /\
     nparent y = Some n /\ npath y = append (npath x) part /\ nlevel y = nlevel x + 1).
Proof.
  intros h Hx. destruct (run_ok K pc_ok ops _ (root_ok K data maxl)) as (H & _).
  destruct (H n x Hx) as (A1 & A2 & A3 & A4 & A5). split; [auto|]. split; [auto|]. split; [auto|]. split; [exact A5|exact A4].
Qed.
Theorem packet_lookup data maxl ops n x path h' c : let h := run K [root_node K data maxl] ops in nth_error h n = Some x ->
  getitem K n path h = (h', Ok c) ->
  at_path h' n path c /\ (forall d, at_path h' n path d -> d = c) /\
  exists y, nth_error h' c = Some y /\ npath y = append (npath x) path.
Proof.
  intros h Hx E. destruct (run_ok K pc_ok ops _ (root_ok K data maxl)) as (H & _). fold h in H.
  pose proof (getitem_at K pc_ok n path h h' c H E) as Ha.
  pose proof (ok_getitem_ K pc_ok (S (String.length path)) n path h H) as (T & G). unfold getitem in E. rewrite E in T, G. cbn [fst] in T, G.
  split; [exact Ha|]. split; [intros d Hd; eapply at_path_fun; eauto using pc_ok|].
  destruct (proj2 G n x Hx) as (x' & Hx' & Ep & _). destruct (at_path_node K pc_ok h' n path c T Ha x' Hx') as (y & Hy & Ey & _).
  exists y. rewrite Ey, Ep. auto.
Qed.
Theorem packet_found data M ops n path c : 0 <= M -> let h := run K [root_node K data (Some M)] ops in
  at_path h n path c -> getitem K n path h = (h, Ok c).
Proof. intros HM h Ha. apply (at_getitem K pc_ok M); auto. apply run_inv2; [apply pc_ok|]. apply root_inv2. auto. Qed.
Theorem packet_set data maxl ops n path d h' : let h := run K [root_node K data maxl] ops in setitem K n path d h = (h', Ok tt) ->
  (forall m s c, at_path h m s c -> at_path h' m s c) /\
  exists c, at_path h' n path c /\ (exists y, nth_error h' c = Some y /\ ndat y = Some d) /\
    forall k x, nth_error h k = Some x -> k <> c -> exists x', nth_error h' k = Some x' /\ ndat x' = ndat x.
Proof. intros h. apply setitem_at; [apply pc_ok|]. apply run_ok; [apply pc_ok|apply root_ok]. Qed.
Theorem packet_del data maxl ops n path h' : let h := run K [root_node K data maxl] ops in path <> EmptyString ->
  delitem K n path h = (h', Ok tt) ->
  exists h1 c, getitem K n path h = (h1, Ok c) /\
  (forall d, ~ at_path h' n path d) /\
  (forall s d, at_path h1 n s d -> (forall t, s <> append path t) -> at_path h' n s d) /\
  (forall k x, nth_error h1 k = Some x -> exists x', nth_error h' k = Some x' /\ ndat x' = ndat x).
Proof. intros h. apply delitem_at; [apply pc_ok|]. apply run_ok; [apply pc_ok|apply root_ok]. Qed.

(** ** Reading *)
Lemma obj_sub M n part dec h : pv (inv2 K M) same_data h (get_subnode K n part dec).
Proof.
  intros Hi. split; [apply kp_get_subnode; [apply pc_ok|auto]|].
  unfold get_subnode. destruct (negb _); [apply sd_refl|]. unfold bindM at 1, get at 1. destruct (nth_error h n) as [x|] eqn:Hx; [|apply sd_refl].
  destruct (dget (nkids x) part) eqn:Ek; [apply sd_refl|]. destruct dec; [|apply sd_refl]. destruct (ndat x) as [d|] eqn:Hd; [|apply sd_refl].
  destruct (decompose_made K pc_keys M n x d h (proj2 Hi) Hx Hd) as [(E1 & E2)|(_ & cs & h1 & Ef & E & (A1 & (ks & A2 & A3 & A4) & A5 & A6))].
  - unfold bindM at 1. destruct (decompose K n h) as [h1 [[]| | |e]]; cbn [fst snd] in *; subst; try apply sd_refl. congruence.
  - unfold bindM at 1. rewrite E. unfold bindM, get. rewrite A2. cbn [ret fst].
    intros k y Hy. destruct (Nat.eq_dec k n) as [->|Hn].
    + eexists. split; [exact A2|]. cbn. congruence.
    + exists y. split; auto. rewrite A5; auto. eapply nth_lt; eauto.
Qed.
Lemma obj_max M n h : pv (inv2 K M) (@same_data (nd C)) h (maxlevel K n).
Proof. intros Hi. rewrite (maxlevel_lev K M n h (proj2 Hi)). cbn [fst]. split; [auto|apply sd_refl]. Qed.
Lemma obj_op M o h : reading o = true -> pv (inv2 K M) same_data h (do_op K o).
Proof.
  pose proof (fun n h => obj_max M n h) as Hmax. pose proof (fun n part dec h => obj_sub M n part dec h) as Hsub.
  pose proof (@sd_refl (nd C)) as R1. pose proof (@sd_trans (nd C)) as R2.
  destruct o; cbn [reading do_op]; try discriminate; intros Ho; try apply (pv_seq (inv2 K M) same_data R1 R2).
  - apply pv_getitem_; auto.
  - apply Hsub.
  - destruct update; [discriminate|]. apply pv_pure; auto. apply reconstruct_pure.
  - destruct update; [discriminate|]. apply pv_pure; auto. apply root_pure.
  - apply Hmax.
  - apply pv_level; auto.
  - apply pv_walk; auto. intros. apply pv_leaf; auto.
Qed.
(** No node object loses its data, in any tree. *)
Theorem packet_read_objects data M ops1 ops2 : 0 <= M -> forallb reading ops2 = true ->
  same_data (run K [root_node K data (Some M)] ops1) (run K [root_node K data (Some M)] (ops1 ++ ops2)).
Proof.
  intros HM Hr. unfold run. rewrite fold_left_app. fold (run K [root_node K data (Some M)] ops1).
  assert (Hi : inv2 K M (run K [root_node K data (Some M)] ops1)) by (apply run_inv2; [apply pc_ok|apply root_inv2; auto]).
  revert Hi. generalize (run K [root_node K data (Some M)] ops1) as h. induction ops2 as [|o l IH]; cbn [forallb fold_left] in *; intros h Hi; [apply sd_refl|].
  apply andb_true_iff in Hr. destruct Hr as (Ho & Hr). destruct (obj_op M o h Ho Hi) as (H1 & S1).
  eapply sd_trans; [exact S1|]. apply IH; auto.
Qed.
(** In a tree where every node has all its subnodes or none, the nodes also stay
    where they are. *)
Theorem packet_read_full data M ops1 ops2 path c x : 0 <= M -> forallb reading ops2 = true ->
  let h1 := run K [root_node K data (Some M)] ops1 in let h2 := run K [root_node K data (Some M)] (ops1 ++ ops2) in
  full K h1 -> at_path h1 0 path c -> nth_error h1 c = Some x ->
  at_path h2 0 path c /\ exists x', nth_error h2 c = Some x' /\ ndat x' = ndat x.
Proof.
  intros HM Hr h1 h2 Hf Ha Hx.
  assert (Hi : inv2 K M h1) by (apply run_inv2; [apply pc_ok|apply root_inv2; auto]).
  assert (E : h2 = run K h1 ops2) by (unfold h2, h1, run; rewrite fold_left_app; reflexivity).
  destruct (run_reads K pc_ok pc_keys M ops2 Hr h1 (conj Hi Hf)) as (_ & Hm). rewrite <- E in Hm.
  split; [apply (at_keeps h1 h2); auto; apply mono_keeps; auto|]. destruct (Hm c x Hx) as (x' & Hx' & _ & Ed). eauto.
Qed.
(** Reading only never makes a tree that is not full. *)
Theorem packet_stays_full data M ops : 0 <= M -> forallb reading ops = true -> full K (run K [root_node K data (Some M)] ops).
Proof.
  intros HM Hr. apply (run_reads K pc_ok pc_keys M ops Hr). split; [apply root_inv2; auto|].
  intros [|[|k]] x Hx; cbn in Hx; try discriminate. injection Hx as <-. left. reflexivity.
Qed.
Theorem packet_recon_pure size n h : fst (reconstruct K n false h) = h /\ fst (root_reconstruct K size n false h) = h.
Proof. clear HC. split; [apply reconstruct_pure|apply root_pure]. Qed.
End F3.
