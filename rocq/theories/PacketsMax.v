(** The maximum level of a node: from itself, from above, or from below. *)
From Coq Require Import Ascii String.
From Verif Require Import Base Swt Multidim MultilevelNd SwtNd Packets PacketsInv PacketsPath.

Section Max.
Context {D : Type}.
Variable K : wpclass D.
Local Notation nheap := (nheap D).

(** A node that knows nothing about its maximum level. *)
Definition blank (x : node D) : Prop := nmaxl x = None /\ ndat x = None.
(** [known x v]: the level is recorded at the node, or follows from its data. *)
Inductive known (x : node D) : Z -> Prop :=
  | known_rec m : nmaxl x = Some m -> known x m
  | known_data d l : nmaxl x = None -> ndat x = Some d -> mlev K d = Ok l -> known x (nlevel x + l).
(** [above h n a]: [a] is the closest to [n] among [n], its parent, the parent of
    that, ... that is not blank. *)
Inductive above (h : nheap) : nat -> nat -> Prop :=
  | above_here n x : nth_error h n = Some x -> ~ blank x -> above h n n
  | above_up n x p a : nth_error h n = Some x -> blank x -> nparent x = Some p -> above h p a -> above h n a.
(** All of them are blank. *)
Inductive none_above (h : nheap) : nat -> Prop :=
  | none_root n x : nth_error h n = Some x -> blank x -> nparent x = None -> none_above h n
  | none_up n x p : nth_error h n = Some x -> blank x -> nparent x = Some p -> none_above h p -> none_above h n.
(** The same for the nodes below [n], in the order of the parts. *)
Inductive below (h : nheap) : nat -> nat -> Prop :=
  | below_here n x : nth_error h n = Some x -> ~ blank x -> below h n n
  | below_down n x ps p qs c a : nth_error h n = Some x -> blank x -> parts K = ps ++ p :: qs ->
      (forall q d, In q ps -> dget (nkids x) q = Some d -> none_below h d) ->
      dget (nkids x) p = Some c -> below h c a -> below h n a
with none_below (h : nheap) : nat -> Prop :=
  | none_leaf n x : nth_error h n = Some x -> blank x ->
      (forall q d, In q (parts K) -> dget (nkids x) q = Some d -> none_below h d) -> none_below h n.

Lemma known_unblank x v : known x v -> ~ blank x.
Proof. intros [m E|d l E1 E2 E3] (B1 & B2); congruence. Qed.
Lemma eval_parent_above h : tree_ok K h -> forall n a y v f, above h n a -> nth_error h a = Some y -> known y v -> (n < f)%nat ->
  eval_parent K f h n = Ok (Some v).
Proof.
  intros Ht n a y v f Ha. revert f. induction Ha as [n x Hx Hb|n x p a Hx (B1 & B2) Hp Ha IH]; intros f Hy Hk Hf; (destruct f as [|f]; [lia|]); cbn [eval_parent]; rewrite Hx.
  - assert (x = y) by congruence. subst y. destruct Hk as [m E|d l E1 E2 E3]; [rewrite E; reflexivity|]. rewrite E1, E2, E3. reflexivity.
  - rewrite B1, B2, Hp. apply IH; auto. destruct (Ht n x Hx) as (_ & _ & _ & _ & A5). destruct (A5 p Hp) as (? & _). lia.
Qed.
Lemma eval_parent_none h : tree_ok K h -> forall n f, none_above h n -> (n < f)%nat -> eval_parent K f h n = Ok None.
Proof.
  intros Ht n f Ha. revert f. induction Ha as [n x Hx (B1 & B2) Hp|n x p Hx (B1 & B2) Hp Ha IH]; intros f Hf; (destruct f as [|f]; [lia|]); cbn [eval_parent]; rewrite Hx, B1, B2, Hp; auto.
  apply IH. destruct (Ht n x Hx) as (_ & _ & _ & _ & A5). destruct (A5 p Hp) as (? & _). lia.
Qed.

Lemma sub_step f h (x : node D) l acc : acc <> None ->
  foldM (fun acc part => match acc with Some _ => Ok acc | None => match dget (nkids x) part with Some c => eval_sub K f h c | None => Ok None end end) acc l = Ok acc.
Proof. intros Ha. induction l as [|p l IH]; cbn [foldM bind]; auto. destruct acc; [exact IH|congruence]. Qed.
Lemma eval_sub_none h : tree_ok K h -> forall f n, none_below h n -> (List.length h < n + f)%nat -> eval_sub K f h n = Ok None.
Proof.
  intros Ht. induction f as [|f IH]; intros n H Hf.
  { destruct H as [n x Hx _ _]. apply nth_lt in Hx. lia. }
  destruct H as [n x Hx (B1 & B2) Hd]. cbn [eval_sub]. rewrite Hx, B1, B2.
  assert (Hs : forall l, (forall q, In q l -> In q (parts K)) ->
    foldM (fun acc part => match acc with Some _ => Ok acc | None => match dget (nkids x) part with Some c => eval_sub K f h c | None => Ok None end end) None l = Ok None); [|apply Hs; auto].
  induction l as [|p l IHl]; intros Hl; cbn [foldM bind]; auto. destruct (dget (nkids x) p) as [c|] eqn:Ec.
  - destruct (Ht n x Hx) as (_ & _ & _ & A4 & _). destruct (A4 p c Ec) as (_ & Hc & _).
    rewrite (IH c) by (try lia; apply (Hd p c); cbn; auto with datatypes). cbn [bind]. apply IHl. intros q Hq. apply Hl. cbn. auto.
  - cbn [bind]. apply IHl. intros q Hq. apply Hl. cbn. auto.
Qed.
Lemma eval_sub_below h : tree_ok K h -> forall n a y v f, below h n a -> nth_error h a = Some y -> known y v -> (List.length h < n + f)%nat ->
  eval_sub K f h n = Ok (Some v).
Proof.
  intros Ht n a y v f Ha. revert f. induction Ha as [n x Hx Hb|n x ps p qs c a Hx (B1 & B2) Ep Hps Hc Ha IH]; intros f Hy Hk Hf.
  - pose proof (nth_lt _ _ _ Hx). destruct f as [|f]; [lia|]. cbn [eval_sub]. rewrite Hx.
    assert (x = y) by congruence. subst y. destruct Hk as [m E|d l E1 E2 E3]; [rewrite E; reflexivity|]. rewrite E1, E2, E3. reflexivity.
  - pose proof (nth_lt _ _ _ Hx). destruct f as [|f]; [lia|]. cbn [eval_sub]. rewrite Hx, B1, B2, Ep.
    destruct (Ht n x Hx) as (_ & _ & _ & A4 & _). clear Ep. induction ps as [|q ps IHp]; cbn [List.app foldM].
    + rewrite Hc. destruct (A4 p c Hc) as (_ & Hn & _). rewrite (IH f Hy Hk) by lia. cbn [bind]. apply sub_step. discriminate.
    + assert (Eq : match dget (nkids x) q with Some c => eval_sub K f h c | None => Ok None end = Ok None).
      { destruct (dget (nkids x) q) as [d|] eqn:Ed; auto. destruct (A4 q d Ed) as (_ & Hn & _). apply eval_sub_none; auto; [|lia].
        apply (Hps q d); cbn; auto. }
      rewrite Eq. cbn [bind]. apply IHp. intros q' d Hq. apply Hps. cbn. auto.
Qed.

Lemma set_nth_same {A} (l : list A) n x : nth_error l n = Some x -> set_nth n x l = l.
Proof. revert n. induction l as [|a l IH]; intros [|n]; cbn; intros E; try discriminate; [congruence|]. rewrite IH; auto. Qed.
Lemma set_max_same (x : node D) : set_max x (nmaxl x) = x.
Proof. destruct x; reflexivity. Qed.
Lemma set_nth_twice {A} (l : list A) n x y : set_nth n x (set_nth n y l) = set_nth n x l.
Proof. revert n. induction l as [|a l IH]; intros [|n]; cbn; auto. rewrite IH. auto. Qed.

(** One or the other. *)
Lemma blank_dec x : blank x \/ ~ blank x.
Proof. unfold blank. destruct (nmaxl x), (ndat x); auto; right; intros (? & ?); discriminate. Qed.
Theorem above_or h n x : tree_ok K h -> nth_error h n = Some x -> (exists a, above h n a) \/ none_above h n.
Proof.
  intros Ht. revert x. induction n as [n IH] using lt_wf_ind. intros x Hx. destruct (blank_dec x) as [B|B]; [|left; exists n; econstructor; eauto].
  destruct (nparent x) as [p|] eqn:Ep; [|right; econstructor; eauto]. destruct (Ht n x Hx) as (_ & _ & _ & _ & A5).
  destruct (A5 p Ep) as (Hp & y & part & Hy & _). destruct (IH p Hp y Hy) as [(a & Ha)|Ha]; [left; exists a; eapply above_up; eauto|right; eapply none_up; eauto].
Qed.
Theorem below_or h n x : tree_ok K h -> nth_error h n = Some x -> (exists a, below h n a) \/ none_below h n.
Proof.
  intros Ht. remember (List.length h - n)%nat as k eqn:Ek. revert n x Ek. induction k as [k IH] using lt_wf_ind. intros n x Ek Hx.
  destruct (blank_dec x) as [B|B]; [|left; exists n; econstructor; eauto]. pose proof (nth_lt _ _ _ Hx) as Hn.
  destruct (Ht n x Hx) as (_ & _ & _ & A4 & _).
  assert (Hl : forall qs ps, parts K = ps ++ qs -> (forall q d, In q ps -> dget (nkids x) q = Some d -> none_below h d) ->
    (exists a, below h n a) \/ none_below h n).
  { induction qs as [|p qs IHq]; intros ps Ep Hps.
    - right. econstructor; eauto. rewrite Ep, app_nil_r. auto.
    - assert (Hn' : (forall d, dget (nkids x) p = Some d -> none_below h d) -> (exists a, below h n a) \/ none_below h n).
      { intros Hd. apply (IHq (ps ++ [p])); [rewrite <- app_assoc; auto|]. intros q d Hq. apply in_app_iff in Hq. destruct Hq as [Hq|[<-|[]]]; [apply Hps; auto|apply Hd]. }
      destruct (dget (nkids x) p) as [c|] eqn:Ec; [|apply Hn'; discriminate].
      destruct (A4 p c Ec) as (_ & Hc & y & Hy & _). pose proof (nth_lt _ _ _ Hy).
      destruct (IH (List.length h - c)%nat ltac:(lia) c y eq_refl Hy) as [(a & Ha)|Ha].
      + left. exists a. eapply below_down; eauto.
      + apply Hn'. intros d E. injection E as <-. auto. }
  apply (Hl (parts K) []); auto. intros q d [].
Qed.

(** The level is found, and remembered at the node. *)
Theorem maxlevel_above h n x a y v : tree_ok K h -> nth_error h n = Some x -> above h n a -> nth_error h a = Some y -> known y v ->
  maxlevel K n h = (set_nth n (set_max x (Some v)) h, Ok (Some v)).
Proof.
  intros Ht Hx Ha Hy Hk. unfold maxlevel, bindM, get. rewrite Hx. destruct (nmaxl x) as [m|] eqn:Em.
  - assert (a = n). { destruct Ha as [|n x' p a Hx' (B1 & _)]; auto. congruence. } subst a. assert (y = x) by congruence. subst y.
    destruct Hk as [m' E|d l E1 E2 E3]; [|congruence]. assert (m' = m) by congruence. subst m'.
    rewrite <- Em, set_max_same, set_nth_same by auto. reflexivity.
  - rewrite (eval_parent_above h Ht n a y v _ Ha Hy Hk) by (apply nth_lt in Hx; lia). unfold put. reflexivity.
Qed.
Theorem maxlevel_below h n x a y v : tree_ok K h -> nth_error h n = Some x -> none_above h n -> below h n a -> nth_error h a = Some y -> known y v ->
  maxlevel K n h = (set_nth n (set_max x (Some v)) h, Ok (Some v)).
Proof.
  intros Ht Hx Hn Ha Hy Hk. assert (Em : nmaxl x = None) by (destruct Hn as [n x' Hx' (B & _) _|n x' p Hx' (B & _) _ _]; congruence).
  unfold maxlevel, bindM, get. rewrite Hx, Em. rewrite (eval_parent_none h Ht n _ Hn) by (apply nth_lt in Hx; lia). unfold put.
  assert (Es : set_nth n (set_max x None) h = h) by (rewrite <- Em, set_max_same; apply set_nth_same; auto).
  rewrite Es. rewrite (eval_sub_below h Ht n a y v _ Ha Hy Hk) by lia. reflexivity.
Qed.
Theorem maxlevel_nowhere h n : tree_ok K h -> none_above h n -> none_below h n -> maxlevel K n h = (h, Ok None).
Proof.
  intros Ht Ha Hb. destruct Hb as [n x Hx (Em & B2) Hd]. assert (Hb : none_below h n) by (econstructor; eauto; split; auto).
  unfold maxlevel, bindM, get. rewrite Hx, Em. rewrite (eval_parent_none h Ht n _ Ha) by (apply nth_lt in Hx; lia). unfold put.
  assert (Es : set_nth n (set_max x None) h = h) by (rewrite <- Em, set_max_same; apply set_nth_same; auto).
  rewrite Es, (eval_sub_none h Ht _ n Hb) by lia. rewrite Es. reflexivity.
Qed.
End Max.
