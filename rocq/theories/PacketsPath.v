(** Addressing nodes by paths, after any history. *)
From Coq Require Import Ascii String.
From Verif Require Import Base Multidim MultilevelNd SwtNd Packets PacketsInv.

Section Path.
Context {D : Type}.
Variable K : wpclass D.
Hypothesis HK : class_ok K.
Local Notation at_path := (@at_path D).

(** ** The cached maximum level *)
(** All nodes know the maximum level [M] and none is deeper. *)
Definition lev (M : Z) (h : nheap D) : Prop := forall n x, nth_error h n = Some x -> nmaxl x = Some M /\ nlevel x <= M.

Lemma maxlevel_lev M n h : lev M h -> maxlevel K n h = (h, match nth_error h n with Some _ => Ok (Some M) | None => OOB end).
Proof.
  intros H. unfold maxlevel, bindM, get. destruct (nth_error h n) as [x|] eqn:E; [|reflexivity].
  destruct (H n x E) as (-> & _). reflexivity.
Qed.
Definition mk (M : Z) n x part data (h : nheap D) : nheap D :=
  set_nth n (set_kid x part (Some (List.length h))) (h ++ [child K n x part data (Some M)]).
Lemma part_ok_in part : In part (parts K) -> part_ok K part = true.
Proof. intros H. unfold part_ok. apply existsb_exists. exists part. split; auto. apply String.eqb_refl. Qed.
Lemma create_lev M n x part data h : lev M h -> nth_error h n = Some x -> In part (parts K) ->
  create_subnode K n part data h = (mk M n x part data h, Ok tt).
Proof.
  intros Hl Hx Hp. unfold create_subnode, new_node. rewrite (part_ok_in part Hp). cbn [negb]. unfold bindM.
  rewrite (maxlevel_lev M n h Hl), Hx. unfold get. rewrite Hx, nth_error_app1, Hx by (eapply nth_lt; eauto). reflexivity.
Qed.
Lemma nth_mk M n x part data h k : (n < List.length h)%nat ->
  nth_error (mk M n x part data h) k =
    if Nat.eqb n k then Some (set_kid x part (Some (List.length h))) else
    if Nat.eqb k (List.length h) then Some (child K n x part data (Some M)) else nth_error h k.
Proof.
  intros Hn. unfold mk. rewrite nth_set_nth by (rewrite app_length; lia). destruct (Nat.eqb_spec n k); auto.
  destruct (Nat.eqb_spec k (List.length h)) as [->|].
  - rewrite nth_error_app2, Nat.sub_diag by lia. reflexivity.
  - destruct (Nat.ltb_spec k (List.length h)); [apply nth_error_app1; auto|].
    rewrite nth_error_app2 by lia. rewrite (proj2 (nth_error_None h k)) by lia.
    destruct (k - List.length h)%nat as [|j] eqn:E; [lia|]. destruct j; reflexivity.
Qed.
Lemma lev_mk M n x part data h : lev M h -> nth_error h n = Some x -> nlevel x < M -> lev M (mk M n x part data h).
Proof.
  intros Hl Hx Hm k z. rewrite nth_mk by (eapply nth_lt; eauto). destruct (Hl n x Hx) as (E1 & E2).
  destruct (Nat.eqb n k); [intros E; injection E as <-; cbn; auto|].
  destruct (Nat.eqb k (List.length h)); [intros E; injection E as <-; cbn; split; [reflexivity|lia]|apply Hl].
Qed.
Lemma lev_put M h n x y : lev M h -> nth_error h n = Some x -> nmaxl y = nmaxl x -> nlevel y = nlevel x -> lev M (set_nth n y h).
Proof.
  intros Hl Hx E1 E2 k z. rewrite nth_set_nth by (eapply nth_lt; eauto). destruct (Nat.eqb_spec n k) as [<-|]; [|apply Hl].
  intros E. injection E as <-. rewrite E1, E2. apply Hl with n. auto.
Qed.

(** ** Both invariants *)
Definition inv2 (M : Z) (h : nheap D) : Prop := tree_ok K h /\ lev M h.
Definition kp {A} (M : Z) (h : nheap D) (m : Packets.M A) : Prop := inv2 M h -> inv2 M (fst (m h)).
Lemma kp_pure {A} M h (m : Packets.M A) : fst (m h) = h -> kp M h m.
Proof. intros E H. rewrite E. auto. Qed.
Lemma kp_bind {A B} M h (m : Packets.M A) (f : A -> Packets.M B) :
  kp M h m -> (forall a h', m h = (h', Ok a) -> inv2 M h' -> kp M h' (f a)) -> kp M h (bindM m f).
Proof.
  intros Hm Hf Hh. specialize (Hm Hh). unfold bindM. destruct (m h) as [h' r] eqn:E. cbn [fst] in *.
  destruct r as [a| | |e]; cbn [fst]; auto. apply Hf; auto.
Qed.
Lemma kp_get {B} M h n (f : node D -> Packets.M B) : (forall x, nth_error h n = Some x -> kp M h (f x)) -> kp M h (bindM (get n) f).
Proof.
  intros Hf. apply kp_bind; [apply kp_pure; reflexivity|]. intros a h' E _. unfold get in E. destruct (nth_error h n) eqn:En; [|discriminate].
  injection E as <- <-. apply Hf. reflexivity.
Qed.
Lemma kp_lev {A} M h (m : Packets.M A) : ok K h m -> (inv2 M h -> lev M (fst (m h))) -> kp M h m.
Proof. intros H1 H2 H. split; [apply H1, H|auto]. Qed.
Lemma kp_put M h n x y : nth_error h n = Some x -> same_struct x y -> nmaxl y = nmaxl x -> kp M h (put n y).
Proof.
  intros Hx Hs E. apply kp_lev; [eapply ok_put; eauto|]. intros (_ & Hl). cbn. destruct Hs as (_ & _ & El & _).
  eapply lev_put; eauto.
Qed.
Lemma kp_maxlevel M n h : kp M h (maxlevel K n).
Proof. intros H. rewrite (maxlevel_lev M n h (proj2 H)). auto. Qed.
Lemma kp_create M n x part data h : nth_error h n = Some x -> nlevel x < M -> kp M h (create_subnode K n part data).
Proof.
  intros Hx Hm. apply kp_lev; [apply ok_create; auto|]. intros (Ht & Hl).
  destruct (part_ok K part) eqn:Ep.
  - rewrite (create_lev M n x part data h Hl Hx) by (apply existsb_part; auto). cbn [fst]. apply lev_mk; auto.
  - unfold create_subnode. rewrite Ep. cbn. auto.
Qed.
Lemma create_node n part data h x : nth_error h n = Some x -> exists x', nth_error (fst (create_subnode K n part data h)) n = Some x' /\ nlevel x' = nlevel x.
Proof.
  intros Hx. destruct (maxlevel_heap K n h) as [E|(y & v & Hy & _ & E)];
  (destruct (create_cases K n part data h) as [(F & _)|(_ & [(F & _)|(m & z & _ & Hz & F)])]; rewrite F; cbn [fst]; rewrite ?E; eauto).
  - rewrite nth_set_nth_same by (rewrite app_length; pose proof (nth_lt _ _ _ Hx); lia). eexists. split; [reflexivity|].
    rewrite E in Hz. cbn. congruence.
  - rewrite nth_set_nth_same by (eapply nth_lt; eauto). eexists; split; [reflexivity|]. cbn. congruence.
  - rewrite E in Hz. rewrite nth_set_nth_same by (rewrite app_length, set_nth_length; pose proof (nth_lt _ _ _ Hx); lia).
    eexists. split; [reflexivity|]. rewrite nth_set_nth_same in Hz by (eapply nth_lt; eauto). injection Hz as <-. cbn. congruence.
Qed.
Lemma kp_iter {A} M n (f : A -> Packets.M unit) l : (forall a h, ok K h (f a)) ->
  (forall a h x, nth_error h n = Some x -> nlevel x < M -> kp M h (f a)) ->
  forall h x, nth_error h n = Some x -> nlevel x < M -> kp M h (iterM f l).
Proof.
  intros Ho Hf. induction l as [|a l IH]; intros h x Hx Hm; cbn [iterM]; [apply kp_pure; reflexivity|].
  intros Hh. pose proof (Hf a h x Hx Hm Hh) as H1. destruct (Ho a h (proj1 Hh)) as (_ & _ & G). destruct (G n x Hx) as (x' & Hx' & _ & El).
  unfold bindM. destruct (f a h) as [h1 [b| | |e]]; cbn [fst] in *; auto. apply (IH h1 x' Hx'); [lia|auto].
Qed.
Lemma kp_decompose_ M n x h : nth_error h n = Some x -> nlevel x < M -> kp M h (decompose_ K n).
Proof.
  intros Hx Hm. unfold decompose_. apply kp_get. intros x0 H0. destruct (ndat x0) as [d|].
  - apply kp_bind; [apply kp_pure; reflexivity|]. intros cs h' E _. injection E as <- _.
    apply (kp_iter M n) with x; [intros [part v] g; apply ok_create; auto| |exact Hx|exact Hm]. intros [part v] g y Hy Hl. eapply kp_create; eauto.
  - apply (kp_iter M n) with x; [| |exact Hx|exact Hm].
    + intros part g. apply ok_get. intros y Hy. destruct (_ && _); [apply ok_pure; reflexivity|apply ok_create; auto].
    + intros part g y Hy Hl. apply kp_get. intros z Hz. destruct (_ && _); [apply kp_pure; reflexivity|]. apply kp_create with y; auto.
Qed.
Lemma kp_decompose M n h : kp M h (decompose K n).
Proof.
  intros Hh. unfold decompose, bindM. rewrite (maxlevel_lev M n h (proj2 Hh)). unfold get.
  destruct (nth_error h n) as [x|] eqn:Hx; [|exact Hh].
  destruct (Z.ltb_spec (nlevel x) M); [|exact Hh]. apply (kp_decompose_ M n x h); auto.
Qed.
Lemma kp_get_subnode M n part dec h : kp M h (get_subnode K n part dec).
Proof.
  unfold get_subnode. destruct (negb _); [apply kp_pure; reflexivity|]. apply kp_get. intros x Hx.
  destruct (dget (nkids x) part); [apply kp_pure; reflexivity|]. destruct dec; [|apply kp_pure; reflexivity].
  destruct (ndat x); [|apply kp_pure; reflexivity]. apply kp_bind; [apply kp_decompose|]. intros _ h' _ _.
  apply kp_get. intros y Hy. apply kp_pure; reflexivity.
Qed.
Lemma kp_getitem_ M f : forall n path h, kp M h (getitem_ K f n path).
Proof.
  induction f as [|f IH]; intros n path h; cbn [getitem_]; [apply kp_pure; reflexivity|].
  apply kp_bind; [apply kp_maxlevel|]. intros m h1 _ _. destruct (too_long _ _ _); [apply kp_pure; reflexivity|].
  destruct path as [|c path]; [apply kp_pure; reflexivity|]. apply kp_bind; [apply kp_get_subnode|].
  intros [k|] h2 _ _; [apply IH|apply kp_pure; reflexivity].
Qed.
Lemma take_length n s : String.length (take n s) = n -> (n <= String.length s)%nat.
Proof. revert s. induction n as [|n IH]; intros [|c s] H; cbn in *; try lia. injection H as H. apply IH in H. lia. Qed.
Lemma kp_setitem_ M f : forall n path d h, kp M h (setitem_ K f n path d).
Proof.
  induction f as [|f IH]; intros n path d h; cbn [setitem_]; [apply kp_pure; reflexivity|].
  intros Hh. revert Hh. unfold kp. intros Hh. unfold bindM at 1. rewrite (maxlevel_lev M n h (proj2 Hh)).
  destruct (nth_error h n) as [x|] eqn:Hx; [|exact Hh].
  revert Hh. apply kp_get. intros x0 H0. assert (x0 = x) by congruence. subst x0.
  destruct (too_long _ _ _) eqn:Et; [apply kp_pure; reflexivity|]. destruct path as [|a path].
  { eapply kp_put; eauto. repeat split. }
  apply kp_bind; [apply kp_get_subnode|]. intros c h1 E1 Hh1.
  apply kp_bind.
  { destruct c as [c|]; [apply kp_pure; reflexivity|].
    apply kp_bind.
    - destruct (part_ok K (take (plen K) (String a path))) eqn:Ep.
      + unfold get_subnode, bindM, get in E1. rewrite Ep in E1. cbn [negb] in E1. rewrite Hx in E1.
        destruct (dget (nkids x) (take (plen K) (String a path))); [discriminate|]. injection E1 as <-.
        apply (kp_create M n x); auto. destruct Hh1 as (Ht & Hl). destruct (Ht n x Hx) as (_ & A2 & A3 & _).
        destruct HK as (K1 & K2 & K3). apply existsb_part in Ep. apply K3 in Ep. apply take_length in Ep.
        unfold too_long in Et. apply Z.ltb_ge in Et. rewrite Nat2Z.inj_add, A3 in Et. nia.
      + unfold create_subnode. rewrite Ep. cbn. apply kp_pure. reflexivity.
    - intros _ h2 _ _. apply kp_get_subnode. }
  intros [c'|] h2 _ _; [apply IH|apply kp_pure; reflexivity].
Qed.
Lemma kp_delitem M n path h : kp M h (delitem K n path).
Proof.
  apply kp_lev; [apply ok_delitem; auto|]. intros Hh. pose proof (kp_getitem_ M (S (String.length path)) n path h Hh) as (_ & H1).
  fold (getitem K n path) in H1. unfold delitem, bindM at 1. destruct (getitem K n path h) as [h1 [c| | |e]]; cbn [fst] in *; auto.
  unfold bindM, get, put. destruct (nth_error h1 c) as [x|] eqn:Hx; [|exact H1].
  pose proof (lev_put M h1 c x (set_orphan x) H1 Hx eq_refl eq_refl) as H2.
  destruct (nparent x) as [p|]; [|exact H2]. cbv zeta. destruct (String.eqb _ _); [exact H2|].
  destruct (nth_error (set_nth c (set_orphan x) h1) p) as [y|] eqn:Hy; [|exact H2]. cbn [fst]. eapply lev_put; eauto.
Qed.
Lemma kp_reconstruct M n u h : kp M h (reconstruct K n u).
Proof.
  unfold reconstruct. apply kp_get. intros x Hx. destruct (negb _); [apply kp_pure; reflexivity|].
  apply kp_bind; [apply kp_pure; reflexivity|]. intros r h' E _. injection E as <- _. destruct u; [|apply kp_pure; reflexivity].
  apply kp_bind; [|intros; apply kp_pure; reflexivity]. eapply kp_put; eauto. repeat split.
Qed.
Lemma kp_root M size n u h : kp M h (root_reconstruct K size n u).
Proof.
  unfold root_reconstruct. apply kp_get. intros x Hx. destruct (negb _); [apply kp_pure; reflexivity|].
  apply kp_bind; [apply kp_reconstruct|]. intros r h' _ _.
  assert (U : kp M h' (if u then bindM (get n) (fun x0 => bindM (put n (set_data x0 r)) (fun _ => ret r)) else ret r)).
  { destruct u; [|apply kp_pure; reflexivity]. apply kp_get. intros y Hy. apply kp_bind; [|intros; apply kp_pure; reflexivity].
    eapply kp_put; eauto. repeat split. }
  destruct size as [s|]; [|exact U]. destruct r as [rec|]; [|apply kp_pure; reflexivity]. destruct (negb _); [apply kp_pure; reflexivity|exact U].
Qed.
Lemma kp_walk_parts M sub dec n : (forall c acc h, kp M h (sub c acc)) -> forall l acc h, kp M h (walk_parts K sub dec n l acc).
Proof.
  intros Hs. induction l as [|part l IH]; intros acc h; cbn [walk_parts]; [apply kp_pure; reflexivity|].
  apply kp_bind; [apply kp_get_subnode|]. intros c h1 _ _. apply kp_bind; [destruct c; [apply Hs|apply kp_pure; reflexivity]|].
  intros acc1 h2 _ _. apply IH.
Qed.
Lemma kp_walk M func dec : (forall n acc h, kp M h (func n acc)) -> forall f n acc h, kp M h (walk K f func dec n acc).
Proof.
  intros Hf. induction f as [|f IH]; intros n acc h; cbn [walk]; [apply kp_pure; reflexivity|].
  apply kp_bind; auto. intros [acc1 b] h1 _ _. cbn [fst snd]. destruct (negb b); [apply kp_pure; reflexivity|].
  apply kp_get. intros x _. apply kp_bind; [apply kp_maxlevel|]. intros [m|] h2 _ _; [|apply kp_pure; reflexivity].
  destruct (negb _); [apply kp_pure; reflexivity|]. apply kp_walk_parts; auto.
Qed.
Lemma kp_leaf M dec n acc h : kp M h (leaf_collect K dec n acc).
Proof.
  unfold leaf_collect. apply kp_get. intros x _. apply kp_bind; [apply kp_maxlevel|]. intros m h1 _ _. cbv zeta.
  destruct (_ && _); [apply kp_pure; reflexivity|]. destruct (_ && _); apply kp_pure; reflexivity.
Qed.
Lemma kp_levcol M level n acc h : kp M h (level_collect level n acc).
Proof. unfold level_collect. apply kp_get. intros x _. destruct (_ =? _); apply kp_pure; reflexivity. Qed.
Lemma kp_level M f n level dec h : kp M h (level_nodes K f n level dec).
Proof.
  unfold level_nodes. apply kp_bind; [apply kp_maxlevel|]. intros [m|] h1 _ _; [|apply kp_pure; reflexivity].
  destruct (_ <? _); [apply kp_pure; reflexivity|]. apply kp_walk. intros. apply kp_levcol.
Qed.
Lemma kp_seq {A} M (m : Packets.M A) h : kp M h m -> kp M h (bindM m (fun _ => ret tt)).
Proof. intros H. apply kp_bind; auto. intros. apply kp_pure; reflexivity. Qed.
Lemma kp_op M o h : kp M h (do_op K o).
Proof.
  destruct o; cbn [do_op]; try apply kp_seq.
  - apply kp_getitem_.
  - apply kp_setitem_.
  - apply kp_delitem.
  - apply kp_decompose.
  - apply kp_get_subnode.
  - apply kp_reconstruct.
  - apply kp_root.
  - apply kp_get. intros x Hx. eapply kp_put; eauto. repeat split.
  - apply kp_maxlevel.
  - apply kp_level.
  - apply kp_walk. intros. apply kp_leaf.
Qed.
Theorem run_inv2 M : forall ops h, inv2 M h -> inv2 M (run K h ops).
Proof. unfold run. induction ops as [|o ops IH]; intros h Hh; cbn [fold_left]; auto. apply IH. apply kp_op. auto. Qed.
Lemma root_inv2 data M : 0 <= M -> inv2 M [root_node K data (Some M)].
Proof.
  intros Hm. split; [apply root_ok|]. intros [|[|n]] x Hx; cbn in Hx; try discriminate. injection Hx as <-. cbn. auto.
Qed.

(** ** Nodes with a smaller position are left alone *)
Definition frame (n : nat) (h h' : nheap D) : Prop := (List.length h <= List.length h')%nat /\ forall k, (k < n)%nat -> nth_error h' k = nth_error h k.
Lemma frame_refl n h : frame n h h. Proof. split; auto. Qed.
Lemma frame_trans n a b c : frame n a b -> frame n b c -> frame n a c.
Proof. intros (L1 & F1) (L2 & F2). split; [lia|]. intros k Hk. rewrite F2, F1; auto. Qed.
Lemma frame_le n m h h' : (n <= m)%nat -> frame m h h' -> frame n h h'.
Proof. intros Hl (L & F). split; auto. intros k Hk. apply F. lia. Qed.
Definition fr {A} n (m : Packets.M A) := forall h : nheap D, (n < List.length h)%nat -> frame n h (fst (m h)).
Lemma fr_bind {A B} n (m : Packets.M A) (f : A -> Packets.M B) : fr n m -> (forall a, fr n (f a)) -> fr n (bindM m f).
Proof.
  intros Hm Hf h Hn. specialize (Hm h Hn). unfold bindM. destruct (m h) as [h' r] eqn:E. cbn [fst] in *.
  destruct r as [a| | |e]; cbn [fst]; auto. apply (frame_trans n h h'); auto. apply Hf. destruct Hm. lia.
Qed.
Lemma fr_pure {A} n (m : Packets.M A) : (forall h, fst (m h) = h) -> fr n m.
Proof. intros H h _. rewrite H. apply frame_refl. Qed.
Lemma fr_put n k x : (n <= k)%nat -> fr n (put k x).
Proof. intros Hk h Hn. cbn. split; [rewrite set_nth_length; lia|]. intros j Hj. apply nth_set_nth_other. lia. Qed.
Lemma fr_maxlevel n : fr n (maxlevel K n).
Proof.
  intros h Hn. destruct (maxlevel_heap K n h) as [E|(x & v & Hx & _ & E)]; rewrite E; [apply frame_refl|].
  apply (fr_put n n (set_max x v)); auto.
Qed.
Lemma fr_create n part data : fr n (create_subnode K n part data).
Proof.
  intros h Hn. pose proof (fr_maxlevel n h Hn) as (L & F).
  destruct (create_cases K n part data h) as [(E & _)|(_ & [(E & _)|(m & x & _ & Hx & E)])]; rewrite E; cbn [fst]; [apply frame_refl|split; auto|].
  split; [rewrite set_nth_length, app_length; lia|]. intros k Hk. rewrite nth_set_nth_other, nth_error_app1 by lia. auto.
Qed.
Lemma fr_iter {A} n (f : A -> Packets.M unit) l : (forall a, fr n (f a)) -> fr n (iterM f l).
Proof. intros H. induction l; cbn [iterM]; [apply fr_pure; reflexivity|apply fr_bind; auto]. Qed.
Lemma fr_decompose n : fr n (decompose K n).
Proof.
  unfold decompose. apply fr_bind; [apply fr_maxlevel|]. intros m. apply fr_bind; [apply fr_pure; reflexivity|]. intros x.
  destruct m as [m|]; [|apply fr_pure; reflexivity]. destruct (_ <? _); [|apply fr_pure; reflexivity].
  unfold decompose_. apply fr_bind; [apply fr_pure; reflexivity|]. intros y. destruct (ndat y).
  - apply fr_bind; [apply fr_pure; reflexivity|]. intros cs. apply fr_iter. intros [part v]. apply fr_create.
  - apply fr_iter. intros part. apply fr_bind; [apply fr_pure; reflexivity|]. intros z. destruct (_ && _); [apply fr_pure; reflexivity|apply fr_create].
Qed.
Lemma fr_get_subnode n part dec : fr n (get_subnode K n part dec).
Proof.
  unfold get_subnode. destruct (negb _); [apply fr_pure; reflexivity|]. apply fr_bind; [apply fr_pure; reflexivity|]. intros x.
  destruct (dget (nkids x) part); [apply fr_pure; reflexivity|]. destruct dec; [|apply fr_pure; reflexivity].
  destruct (ndat x); [|apply fr_pure; reflexivity]. apply fr_bind; [apply fr_decompose|]. intros _.
  apply fr_bind; [apply fr_pure; reflexivity|]. intros y. apply fr_pure; reflexivity.
Qed.
(** The slot holds what get_subnode returns. *)
Lemma get_subnode_slot n part dec h h' c : get_subnode K n part dec h = (h', Ok (Some c)) ->
  In part (parts K) /\ exists x, nth_error h' n = Some x /\ dget (nkids x) part = Some c.
Proof.
  unfold get_subnode. destruct (part_ok K part) eqn:Ep; cbn [negb]; [|discriminate]. intros H. split; [apply existsb_part; auto|]. revert H.
  unfold bindM at 1, get at 1. destruct (nth_error h n) as [x|] eqn:Hx; [|discriminate].
  destruct (dget (nkids x) part) as [k|] eqn:Ek.
  - intros E. injection E as <- <-. eauto.
  - destruct dec; [|discriminate]. destruct (ndat x); [|discriminate].
    unfold bindM at 1. destruct (decompose K n h) as [h1 [a| | |e]]; try discriminate. unfold bindM, get.
    destruct (nth_error h1 n) as [y|] eqn:Hy; [|discriminate]. intros E. injection E as <- Ec. eauto.
Qed.

Lemma tree_slot h n x part c : tree_ok K h -> nth_error h n = Some x -> dget (nkids x) part = Some c -> (n < c)%nat /\ exists y, nth_error h c = Some y.
Proof. intros Hh Hx Hc. destruct (Hh n x Hx) as (_ & _ & _ & A4 & _). destruct (A4 part c Hc) as (_ & L & y & Hy & _). eauto. Qed.

(** Looking up a path: smaller positions stay, and the node found is the one
    the slots lead to. *)
Lemma fr_getitem_ f : forall n path h, tree_ok K h -> (n < List.length h)%nat -> frame n h (fst (getitem_ K f n path h)).
Proof.
  induction f as [|f IH]; intros n path h Hh Hn; cbn [getitem_]; [apply frame_refl|].
  unfold bindM at 1. pose proof (fr_maxlevel n h Hn) as F1. pose proof (ok_maxlevel K n h Hh) as (T1 & _).
  destruct (maxlevel K n h) as [h1 [m| | |e]]; cbn [fst] in *; auto. destruct (too_long _ _ _); [exact F1|].
  destruct path as [|a path]; [exact F1|]. set (part := take (plen K) (String a path)).
  unfold bindM. pose proof (fr_get_subnode n part true h1 ltac:(destruct F1; lia)) as F2.
  pose proof (ok_get_subnode K HK n part true h1 T1) as (T2 & _). pose proof (get_subnode_slot n part true h1) as S.
  destruct (get_subnode K n part true h1) as [h2 [[c|]| | |e]]; cbn [fst] in *; try (eapply frame_trans; eauto; fail).
  destruct (S h2 c eq_refl) as (_ & x & Hx & Hc). destruct (tree_slot h2 n x part c T2 Hx Hc) as (L & y & Hy).
  eapply frame_trans; [eapply frame_trans; eauto|]. apply (frame_le n c); [lia|]. apply IH; auto. eapply nth_lt; eauto.
Qed.
Lemma getitem_at_ f : forall n path h h' c, tree_ok K h -> getitem_ K f n path h = (h', Ok c) -> at_path h' n path c.
Proof.
  induction f as [|f IH]; intros n path h h' c Hh; cbn [getitem_]; [discriminate|].
  unfold bindM at 1. pose proof (ok_maxlevel K n h Hh) as (T1 & _).
  destruct (nth_error h n) as [x0|] eqn:H0.
  2:{ unfold maxlevel, bindM, get. rewrite H0. discriminate. }
  pose proof (fr_maxlevel n h (nth_lt _ _ _ H0)) as F1.
  destruct (maxlevel K n h) as [h1 [m| | |e]]; try discriminate. cbn [fst] in *. destruct (too_long _ _ _); [discriminate|].
  assert (Hn1 : (n < List.length h1)%nat) by (pose proof (nth_lt _ _ _ H0); destruct F1; lia).
  destruct path as [|a path].
  { intros E. injection E as <- <-. destruct (nth_error h1 n) as [x|] eqn:Hx; [econstructor; eauto|]. apply nth_error_None in Hx. lia. }
  set (part := take (plen K) (String a path)). unfold bindM.
  pose proof (ok_get_subnode K HK n part true h1 T1) as (T2 & _). pose proof (get_subnode_slot n part true h1) as S.
  destruct (get_subnode K n part true h1) as [h2 [[k|]| | |e]]; cbn [fst] in *; try discriminate.
  destruct (S h2 k eq_refl) as (_ & x & Hx & Hc). destruct (tree_slot h2 n x part k T2 Hx Hc) as (L & y & Hy).
  intros E. pose proof (fr_getitem_ f k (drop (plen K) (String a path)) h2 T2 (nth_lt _ _ _ Hy)) as (_ & F3). rewrite E in F3. cbn [fst] in F3.
  pose proof (IH _ _ _ _ _ T2 E) as Hat. rewrite <- (take_drop (plen K) (String a path)). econstructor; [rewrite F3 by lia; exact Hx|exact Hc|exact Hat].
Qed.
Theorem getitem_at n path h h' c : tree_ok K h -> getitem K n path h = (h', Ok c) -> at_path h' n path c.
Proof. apply getitem_at_. Qed.

(** Looking up a path that exists finds the node and changes nothing. *)
Lemma at_getitem_ M : forall h n path c, inv2 M h -> at_path h n path c -> forall f, (String.length path < f)%nat -> getitem_ K f n path h = (h, Ok c).
Proof.
  intros h n path c (Ht & Hl). induction 1 as [n x Hx|n x part k s d Hx Hk Hat IH]; intros [|f] Hf; try lia; cbn [getitem_].
  - unfold bindM. rewrite (maxlevel_lev M n h Hl), Hx. destruct (Ht n x Hx) as (_ & A2 & _). destruct (Hl n x Hx) as (_ & B2).
    unfold too_long. cbn [String.length]. rewrite (proj2 (Z.ltb_ge _ _)) by nia. reflexivity.
  - unfold bindM. rewrite (maxlevel_lev M n h Hl), Hx.
    destruct (at_path_node K HK h n (append part s) d Ht (at_down _ _ _ _ _ _ _ Hx Hk Hat) x Hx) as (y & Hy & Y1 & Y2 & Y3).
    destruct (Ht n x Hx) as (_ & A2 & _ & A4 & _). destruct (Hl d y Hy) as (_ & B2).
    unfold too_long. rewrite (proj2 (Z.ltb_ge _ _)) by (rewrite Y2; nia).
    destruct (A4 part k Hk) as (Hp & _). destruct HK as (K1 & K2 & K3). pose proof (K3 part Hp) as Ep.
    destruct part as [|a part]; [cbn in Ep; lia|]. change (append (String a part) s) with (String a (append part s)).
    assert (E1 : take (plen K) (String a (append part s)) = String a part) by (rewrite <- Ep; exact (take_app (String a part) s)).
    assert (E2 : drop (plen K) (String a (append part s)) = s) by (rewrite <- Ep; exact (drop_app (String a part) s)).
    rewrite E1, E2.
    unfold get_subnode. rewrite (part_ok_in _ Hp). cbn [negb]. unfold bindM, get. rewrite Hx, Hk. apply IH.
    rewrite append_length in Hf. cbn [String.length] in Hf. lia.
Qed.
Theorem at_getitem M h n path c : inv2 M h -> at_path h n path c -> getitem K n path h = (h, Ok c).
Proof. intros Hh Hat. apply (at_getitem_ M h n path c Hh Hat). lia. Qed.

End Path.
