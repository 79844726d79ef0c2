(** The tree invariant of wavelet packets, kept by every operation. *)
From Coq Require Import Ascii String.
From Verif Require Import Base BaseLemmas CConv Lengths Dwt Multilevel Swt Nd NdSpec Axis Multidim MultidimProofs MultidimFacts MultilevelNd MultilevelNdProofs SwtNd SwtNdArgs Packets.

(** ** Strings *)
Lemma append_length a b : String.length (append a b) = (String.length a + String.length b)%nat.
Proof. induction a; cbn; auto. Qed.
Lemma append_assoc_s a b c : append (append a b) c = append a (append b c).
Proof. induction a; cbn; congruence. Qed.
Lemma append_nil_r s : append s EmptyString = s.
Proof. induction s; cbn; congruence. Qed.
Lemma take_drop n s : append (take n s) (drop n s) = s.
Proof. revert s. induction n; intros [|c s]; cbn; auto. f_equal. auto. Qed.
Lemma take_app a b : take (String.length a) (append a b) = a.
Proof. induction a; cbn; [destruct b; reflexivity|congruence]. Qed.
Lemma drop_app a b : drop (String.length a) (append a b) = b.
Proof. induction a; cbn; [destruct b; reflexivity|auto]. Qed.
Lemma drop_all s : drop (String.length s) s = EmptyString.
Proof. induction s; cbn; auto. Qed.
Lemma drop_length n s : String.length (drop n s) = (String.length s - n)%nat.
Proof. revert s. induction n; intros [|c s]; cbn; auto. Qed.
Lemma last_part_app a p n : String.length p = n -> (0 < n)%nat -> last_part n (append a p) = p.
Proof.
  intros Hp Hn. unfold last_part. destruct (Nat.eqb_spec n 0); [lia|]. rewrite append_length.
  replace (String.length a + String.length p - n)%nat with (String.length a) by lia. apply drop_app.
Qed.
Lemma append_inj_r a p q : String.length p = String.length q -> append a p = append a q -> p = q.
Proof. intros _. induction a; cbn; auto. intros H. injection H. auto. Qed.

(** ** Dictionaries *)
Lemma dget_dremove {A} (d : dict A) k : NoDup (map fst d) -> dget (dremove d k) k = None.
Proof.
  induction d as [|[j v] d IH]; cbn; auto. intros H. inversion H as [|? ? Hn Hd]; subst.
  destruct (String.eqb_spec j k) as [->|Hj].
  - clear -Hn. induction d as [|[j v] d IH]; cbn in *; auto. destruct (String.eqb_spec j k); [exfalso; apply Hn; auto|]. apply IH. tauto.
  - cbn. destruct (String.eqb_spec j k); [congruence|auto].
Qed.
Lemma in_dremove {A} (d : dict A) k j : In j (map fst (dremove d k)) -> In j (map fst d).
Proof. induction d as [|[i v] d IH]; cbn; auto. destruct (String.eqb i k); cbn; auto. intros [->|H]; auto. Qed.
Lemma nodup_dremove {A} (d : dict A) k : NoDup (map fst d) -> NoDup (map fst (dremove d k)).
Proof.
  induction d as [|[j v] d IH]; cbn; auto. intros H. inversion H as [|? ? Hn Hd]; subst.
  destruct (String.eqb j k); auto. cbn. constructor; auto. intros Hi. apply Hn. eapply in_dremove; eauto.
Qed.
Lemma in_dset {A} (d : dict A) k v j : In j (map fst (dset d k v)) -> j = k \/ In j (map fst d).
Proof.
  induction d as [|[i u] d IH]; cbn; [intuition|]. destruct (String.eqb_spec i k) as [->|]; cbn; [intuition|].
  intros [->|H]; auto. apply IH in H. intuition.
Qed.
Lemma nodup_dset {A} (d : dict A) k v : NoDup (map fst d) -> NoDup (map fst (dset d k v)).
Proof.
  induction d as [|[j u] d IH]; cbn; intros H.
  - constructor; [intros []|constructor].
  - inversion H as [|? ? Hn Hd]; subst. destruct (String.eqb_spec j k) as [->|Hj]; cbn; constructor; auto.
    intros Hi. apply in_dset in Hi. destruct Hi; congruence.
Qed.

(** ** Lists *)
Lemma set_nth_length {A} n (v : A) l : List.length (set_nth n v l) = List.length l.
Proof. revert n. induction l; intros [|n]; cbn; auto. Qed.
Lemma nth_set_nth {A} n (v : A) l k : (n < List.length l)%nat -> nth_error (set_nth n v l) k = if Nat.eqb n k then Some v else nth_error l k.
Proof.
  revert n k. induction l as [|a l IH]; intros [|n] [|k] H; cbn in *; auto; try lia. apply IH. lia.
Qed.
Lemma nth_set_nth_same {A} n (v : A) l : (n < List.length l)%nat -> nth_error (set_nth n v l) n = Some v.
Proof. intros. rewrite nth_set_nth by auto. rewrite Nat.eqb_refl. reflexivity. Qed.
Lemma nth_set_nth_other {A} n (v : A) l k : n <> k -> nth_error (set_nth n v l) k = nth_error l k.
Proof. revert n k. induction l as [|a l IH]; intros [|n] [|k] H; cbn; auto; congruence. Qed.
Lemma set_nth_id {A} n (v : A) l : nth_error l n = Some v -> set_nth n v l = l.
Proof. revert n. induction l; intros [|n] H; cbn in *; try discriminate; [congruence|]. f_equal. auto. Qed.
Lemma set_nth_set {A} n (u v : A) l : set_nth n v (set_nth n u l) = set_nth n v l.
Proof. revert n. induction l; intros [|n]; cbn; auto. f_equal. auto. Qed.
Lemma nth_lt {A} (l : list A) n x : nth_error l n = Some x -> (n < List.length l)%nat.
Proof. intros H. apply nth_error_Some. congruence. Qed.

(** A class whose part names all have the length PART_LEN > 0. *)
Definition class_ok {D} (K : wpclass D) : Prop :=
  (0 < plen K)%nat /\ NoDup (parts K) /\ forall p, In p (parts K) -> String.length p = plen K.

(** The invariant: the attributes of a node, its subnodes and its parent fit. *)
Definition kids_ok {D} (K : wpclass D) (h : list (node D)) (n : nat) (x : node D) : Prop :=
  forall part c, dget (nkids x) part = Some c ->
    In part (parts K) /\ (n < c)%nat /\ exists y, nth_error h c = Some y /\
      nparent y = Some n /\ npath y = append (npath x) part /\ nlevel y = nlevel x + 1.
Definition parent_ok {D} (K : wpclass D) (h : list (node D)) (n : nat) (x : node D) : Prop :=
  forall p, nparent x = Some p -> (p < n)%nat /\ exists y part, nth_error h p = Some y /\ In part (parts K) /\
    npath x = append (npath y) part /\ nlevel x = nlevel y + 1.
Definition tree_ok {D} (K : wpclass D) (h : list (node D)) : Prop :=
  forall n x, nth_error h n = Some x ->
    NoDup (map fst (nkids x)) /\ 0 <= nlevel x /\ Z.of_nat (String.length (npath x)) = nlevel x * Z.of_nat (plen K) /\
    kids_ok K h n x /\ parent_ok K h n x.

Section Inv.
Context {D : Type}.
Variable K : wpclass D.
Hypothesis HK : class_ok K.

(** No node loses its path or level. *)
Definition grow (h h' : nheap D) : Prop := (List.length h <= List.length h')%nat /\
  forall n x, nth_error h n = Some x -> exists x', nth_error h' n = Some x' /\ npath x' = npath x /\ nlevel x' = nlevel x.
Lemma grow_refl h : grow h h.
Proof. split; [lia|]. intros n x H. exists x. auto. Qed.
Lemma grow_trans a b c : grow a b -> grow b c -> grow a c.
Proof.
  intros (L1 & G1) (L2 & G2). split; [lia|]. intros n x H. destruct (G1 n x H) as (y & Hy & P1 & Q1).
  destruct (G2 n y Hy) as (z & Hz & P2 & Q2). exists z. repeat split; auto; congruence.
Qed.

Definition ok {A} (h : nheap D) (m : M A) : Prop := tree_ok K h -> tree_ok K (fst (m h)) /\ grow h (fst (m h)).

Lemma ok_pure {A} h (m : M A) : fst (m h) = h -> ok h m.
Proof. intros E H. rewrite E. split; auto using grow_refl. Qed.
Lemma ok_bind {A B} h (m : M A) (f : A -> M B) : ok h m -> (forall a h', m h = (h', Ok a) -> tree_ok K h' -> ok h' (f a)) -> ok h (bindM m f).
Proof.
  intros Hm Hf Hh. destruct (Hm Hh) as (H1 & G1). unfold bindM. destruct (m h) as [h' r] eqn:E. cbn [fst] in *.
  destruct r as [a| | |e]; cbn [fst]; auto. destruct (Hf a h' eq_refl H1 H1) as (H2 & G2). split; auto. eapply grow_trans; eauto.
Qed.
Lemma ok_get {B} h n (f : node D -> M B) : (forall x, nth_error h n = Some x -> ok h (f x)) -> ok h (bindM (get n) f).
Proof.
  intros Hf. apply ok_bind; [apply ok_pure; reflexivity|]. intros a h' E _. unfold get in E. destruct (nth_error h n) eqn:En; [|discriminate].
  injection E as <- <-. apply Hf. reflexivity.
Qed.

(** Replacing a node by one with the same structure. *)
Definition same_struct (x y : node D) : Prop :=
  nparent x = nparent y /\ npath x = npath y /\ nlevel x = nlevel y /\ nkids x = nkids y.
Lemma tree_put h n x y : nth_error h n = Some x -> same_struct x y -> tree_ok K h -> tree_ok K (set_nth n y h).
Proof.
  intros Hn (E1 & E2 & E3 & E4) Hh. pose proof (nth_lt _ _ _ Hn) as Hl.
  assert (G : forall k z, nth_error h k = Some z -> exists z', nth_error (set_nth n y h) k = Some z' /\ same_struct z z').
  { intros k z Hk. rewrite nth_set_nth by auto. destruct (Nat.eqb_spec n k) as [<-|].
    - exists y. split; auto. replace z with x by congruence. repeat split; auto.
    - exists z. split; auto. repeat split; auto. }
  assert (G2 : forall k z', nth_error (set_nth n y h) k = Some z' -> exists z, nth_error h k = Some z /\ same_struct z z').
  { intros k z'. rewrite nth_set_nth by auto. destruct (Nat.eqb_spec n k) as [<-|]; intros E.
    - injection E as <-. exists x. repeat split; auto.
    - exists z'. repeat split; auto. }
  intros k z' Hk. destruct (G2 k z' Hk) as (z & Hz & (F1 & F2 & F3 & F4)). destruct (Hh k z Hz) as (A1 & A2 & A3 & A4 & A5).
  rewrite <- F4, <- F3, <- F2. split; [auto|]. split; [auto|]. split; [auto|]. split.
  - intros part c Hc. rewrite <- F4 in Hc. destruct (A4 part c Hc) as (B1 & B2 & u & Hu & B3 & B4 & B5).
    split; auto. split; auto. destruct (G c u Hu) as (u' & Hu' & (C1 & C2 & C3 & C4)). exists u'. repeat split; auto; congruence.
  - intros p Hp. rewrite <- F1 in Hp. destruct (A5 p Hp) as (B1 & u & part & Hu & B2 & B3 & B4).
    split; auto. destruct (G p u Hu) as (u' & Hu' & (C1 & C2 & C3 & C4)). exists u', part. repeat split; auto; congruence.
Qed.
Lemma grow_put h n x y : nth_error h n = Some x -> npath y = npath x -> nlevel y = nlevel x -> grow h (set_nth n y h).
Proof.
  intros Hn E1 E2. split; [rewrite set_nth_length; lia|]. intros k z Hk. rewrite nth_set_nth by (eapply nth_lt; eauto).
  destruct (Nat.eqb_spec n k) as [<-|]; [|exists z; auto]. exists y. repeat split; congruence.
Qed.
Lemma ok_put h n x y : nth_error h n = Some x -> same_struct x y -> ok h (put n y).
Proof.
  intros Hn Hs Hh. cbn. split; [eapply tree_put; eauto|]. destruct Hs as (_ & E2 & E3 & _). eapply grow_put; eauto.
Qed.

(** Only the cached maximum level of one node changes. *)
Lemma maxlevel_heap n h : fst (maxlevel K n h) = h \/
  exists x v, nth_error h n = Some x /\ nmaxl x = None /\ fst (maxlevel K n h) = set_nth n (set_max x v) h.
Proof.
  unfold maxlevel, bindM, get, ret, put. destruct (nth_error h n) as [x|] eqn:Hn; [|left; reflexivity].
  destruct (nmaxl x) as [m|] eqn:Em; [left; reflexivity|].
  destruct (eval_parent K (S (List.length h)) h n) as [[v|]| | |]; cbn [fst]; try (left; reflexivity).
  - right. exists x, (Some v). auto.
  - destruct (eval_sub K (S (Datatypes.length (set_nth n (set_max x None) h))) (set_nth n (set_max x None) h) n) as [v| | |]; cbn [fst];
      right; exists x; eexists; split; auto; split; auto; try rewrite set_nth_set; reflexivity.
Qed.
Lemma ok_maxlevel n h : ok h (maxlevel K n).
Proof.
  intros Hh. destruct (maxlevel_heap n h) as [E|(x & v & Hn & _ & E)]; rewrite E.
  - split; auto using grow_refl.
  - split; [eapply tree_put; eauto; repeat split|eapply grow_put; eauto].
Qed.

(** A new node without a slot, then the slot. *)
Lemma tree_app h p x part d ds m : nth_error h p = Some x -> In part (parts K) -> tree_ok K h ->
  tree_ok K (h ++ [mkNode (Some p) (append (npath x) part) (nlevel x + 1) d ds m []]).
Proof.
  intros Hp Hpart Hh k z Hk. pose proof (nth_lt _ _ _ Hp) as Hl.
  assert (G : forall k z, nth_error h k = Some z -> nth_error (h ++ [mkNode (Some p) (append (npath x) part) (nlevel x + 1) d ds m []]) k = Some z).
  { intros. rewrite nth_error_app1; auto. eapply nth_lt; eauto. }
  destruct (Nat.ltb_spec k (List.length h)) as [Hlt|Hge].
  - rewrite nth_error_app1 in Hk by auto. destruct (Hh k z Hk) as (A1 & A2 & A3 & A4 & A5). split; auto. split; auto. split; auto. split.
    + intros q c Hc. destruct (A4 q c Hc) as (B1 & B2 & u & Hu & B3). split; auto. split; auto. exists u. auto.
    + intros q Hq. destruct (A5 q Hq) as (B1 & u & t & Hu & B3). split; auto. exists u, t. auto.
  - rewrite nth_error_app2 in Hk by auto. destruct (k - List.length h)%nat as [|j] eqn:Ej; [|destruct j; discriminate].
    injection Hk as <-. cbn. destruct (Hh p x Hp) as (A1 & A2 & A3 & A4 & A5). destruct HK as (K1 & K2 & K3).
    split; [constructor|]. split; [lia|]. split.
    { rewrite append_length, (K3 part Hpart), Nat2Z.inj_add, A3. ring. }
    split; [intros q c H; discriminate|].
    intros q E. injection E as <-. split; [lia|]. exists x, part. auto.
Qed.
Lemma tree_kid h n x part c y : nth_error h n = Some x -> nth_error h c = Some y -> (n < c)%nat -> In part (parts K) ->
  nparent y = Some n -> npath y = append (npath x) part -> nlevel y = nlevel x + 1 -> tree_ok K h ->
  tree_ok K (set_nth n (set_kid x part (Some c)) h).
Proof.
  intros Hn Hc Hlt Hpart Y1 Y2 Y3 Hh. pose proof (nth_lt _ _ _ Hn) as Hl.
  assert (G : forall k z, nth_error h k = Some z -> exists z', nth_error (set_nth n (set_kid x part (Some c)) h) k = Some z' /\
    nparent z' = nparent z /\ npath z' = npath z /\ nlevel z' = nlevel z).
  { intros k z Hk. rewrite nth_set_nth by auto. destruct (Nat.eqb_spec n k) as [<-|]; [|exists z; auto].
    exists (set_kid x part (Some c)). replace z with x by congruence. auto. }
  assert (GP : forall k z, nth_error h k = Some z -> parent_ok K h k z -> parent_ok K (set_nth n (set_kid x part (Some c)) h) k z).
  { intros k z Hk A5 p Hp. destruct (A5 p Hp) as (B1 & u & t & Hu & B2 & B3 & B4). split; auto.
    destruct (G p u Hu) as (u' & Hu' & C1 & C2 & C3). exists u', t. repeat split; auto; congruence. }
  assert (GK : forall k z, kids_ok K h k z -> kids_ok K (set_nth n (set_kid x part (Some c)) h) k z).
  { intros k z A4 t e He. destruct (A4 t e He) as (B1 & B2 & u & Hu & B3 & B4 & B5). split; auto. split; auto.
    destruct (G e u Hu) as (u' & Hu' & C1 & C2 & C3). exists u'. repeat split; auto; congruence. }
  intros k z Hk. rewrite nth_set_nth in Hk by auto. destruct (Nat.eqb_spec n k) as [<-|].
  - injection Hk as <-. destruct (Hh n x Hn) as (A1 & A2 & A3 & A4 & A5). cbn [set_kid nkids nlevel npath nparent].
    split; [apply nodup_dset; auto|]. split; auto. split; auto. split.
    + intros t e He. cbn [nkids set_kid] in He. rewrite dget_dset in He. destruct (String.eqb_spec part t) as [<-|].
      * injection He as <-. split; auto. split; auto. destruct (G c y Hc) as (u' & Hu' & C1 & C2 & C3). exists u'. cbn. repeat split; auto; congruence.
      * apply (GK n x A4 t e He).
    + apply (GP n x Hn A5).
  - destruct (Hh k z Hk) as (A1 & A2 & A3 & A4 & A5). repeat (split; [solve [auto]|]). auto.
Qed.

Lemma existsb_part part : part_ok K part = true -> In part (parts K).
Proof. unfold part_ok. intros H. apply existsb_exists in H. destruct H as (q & Hq & E). apply String.eqb_eq in E. congruence. Qed.

Definition child (n : nat) (x : node D) (part : string) (data : option D) (m : option Z) : node D :=
  mkNode (Some n) (append (npath x) part) (nlevel x + 1) data (option_map (shp K) data) m [].
(** Creating a subnode: evaluate the maximum level, append the node, fill the slot. *)
Lemma create_cases n part data h :
  (fst (create_subnode K n part data h) = h /\ part_ok K part = false /\ snd (create_subnode K n part data h) = Err ValueError) \/
  In part (parts K) /\ ((fst (create_subnode K n part data h) = fst (maxlevel K n h) /\ snd (create_subnode K n part data h) <> Ok tt) \/
   exists m x, snd (maxlevel K n h) = Ok m /\ nth_error (fst (maxlevel K n h)) n = Some x /\
     create_subnode K n part data h =
       (set_nth n (set_kid x part (Some (List.length (fst (maxlevel K n h))))) (fst (maxlevel K n h) ++ [child n x part data m]), Ok tt)).
Proof.
  unfold create_subnode, new_node. destruct (part_ok K part) eqn:Ep; cbn [negb]; [|left; repeat split; reflexivity].
  right. split; [apply existsb_part; auto|]. unfold bindM. destruct (maxlevel K n h) as [h1 [m| | |e]]; cbn [fst snd];
    try (left; split; [reflexivity|discriminate]).
  unfold get. destruct (nth_error h1 n) as [x|] eqn:Hn; cbn [fst snd]; [|left; split; [reflexivity|discriminate]].
  right. exists m, x. split; auto. split; auto. rewrite nth_error_app1, Hn by (eapply nth_lt; eauto). reflexivity.
Qed.

Lemma ok_create n part data h : ok h (create_subnode K n part data).
Proof.
  intros Hh. pose proof (ok_maxlevel n h Hh) as (T1 & G1).
  destruct (create_cases n part data h) as [(E & _)|(Ep & [(E & _)|(m & x & _ & Hn & E)])]; rewrite E; auto using grow_refl.
  set (h1 := fst (maxlevel K n h)) in *. cbn [fst].
  pose proof (nth_lt _ _ _ Hn) as Hl.
  pose proof (tree_app h1 n x part data (option_map (shp K) data) m Hn Ep T1) as T2. fold (child n x part data m) in T2.
  assert (G2 : grow h1 (h1 ++ [child n x part data m])).
  { split; [rewrite app_length; lia|]. intros k z Hk. exists z. rewrite nth_error_app1 by (eapply nth_lt; eauto). auto. }
  assert (Hn2 : nth_error (h1 ++ [child n x part data m]) n = Some x) by (rewrite nth_error_app1; auto).
  split.
  - apply (tree_kid _ n x part (List.length h1) (child n x part data m)); auto.
    rewrite nth_error_app2, Nat.sub_diag by lia. reflexivity.
  - apply (grow_trans h h1); auto. apply (grow_trans h1 (h1 ++ [child n x part data m])); auto. eapply grow_put; eauto.
Qed.

Lemma ok_iter {A} (f : A -> M unit) l : (forall a h, ok h (f a)) -> forall h, ok h (iterM f l).
Proof.
  intros Hf. induction l as [|a l IH]; intros h; cbn [iterM]; [apply ok_pure; reflexivity|]. apply ok_bind; auto.
Qed.

Lemma ok_decompose_ n h : ok h (decompose_ K n).
Proof.
  unfold decompose_. apply ok_get. intros x Hx. destruct (ndat x) as [d|].
  - apply ok_bind; [apply ok_pure; reflexivity|]. intros cs h' _ _. apply ok_iter. intros [part v] g. apply ok_create.
  - apply ok_iter. intros part g. apply ok_get. intros y _. destruct (keeps K && _); [apply ok_pure; reflexivity|apply ok_create].
Qed.
Lemma ok_decompose n h : ok h (decompose K n).
Proof.
  unfold decompose. apply ok_bind; [apply ok_maxlevel|]. intros m h1 _ _. apply ok_get. intros x _.
  destruct m as [m|]; [|apply ok_pure; reflexivity]. destruct (nlevel x <? m); [apply ok_decompose_|apply ok_pure; reflexivity].
Qed.
Lemma ok_get_subnode n part dec h : ok h (get_subnode K n part dec).
Proof.
  unfold get_subnode. destruct (part_ok K part); cbn [negb]; [|apply ok_pure; reflexivity]. apply ok_get. intros x _.
  destruct (dget (nkids x) part); [apply ok_pure; reflexivity|].
  destruct dec; [|apply ok_pure; reflexivity]. destruct (ndat x); [|apply ok_pure; reflexivity].
  apply ok_bind; [apply ok_decompose|]. intros _ h1 _ _. apply ok_get. intros y _. apply ok_pure; reflexivity.
Qed.
Lemma ok_getitem_ : forall f n path h, ok h (getitem_ K f n path).
Proof.
  induction f as [|f IH]; intros n path h; cbn [getitem_]; [apply ok_pure; reflexivity|].
  apply ok_bind; [apply ok_maxlevel|]. intros m h1 _ _. destruct (too_long K _ m); [apply ok_pure; reflexivity|].
  destruct path as [|c path]; [apply ok_pure; reflexivity|].
  apply ok_bind; [apply ok_get_subnode|]. intros [e|] h2 _ _; [apply IH|apply ok_pure; reflexivity].
Qed.
Lemma ok_setitem_ : forall f n path data h, ok h (setitem_ K f n path data).
Proof.
  induction f as [|f IH]; intros n path data h; cbn [setitem_]; [apply ok_pure; reflexivity|].
  apply ok_bind; [apply ok_maxlevel|]. intros m h1 _ _. apply ok_get. intros x Hx.
  destruct (too_long K _ m); [apply ok_pure; reflexivity|].
  destruct path as [|c path]; [eapply ok_put; eauto; repeat split|].
  apply ok_bind; [apply ok_get_subnode|]. intros e h2 _ _. apply ok_bind.
  - destruct e; [apply ok_pure; reflexivity|]. apply ok_bind; [apply ok_create|]. intros _ h3 _ _. apply ok_get_subnode.
  - intros [e'|] h3 _ _; [apply IH|apply ok_pure; reflexivity].
Qed.

Lemma tree_delete h c x : nth_error h c = Some x -> tree_ok K h -> nparent x <> None -> forall p y name,
  nparent x = Some p -> name = last_part (plen K) (npath x) ->
  nth_error (set_nth c (set_orphan x) h) p = Some y ->
  tree_ok K (set_nth p (set_kid y name None) (set_nth c (set_orphan x) h)).
Proof.
  intros Hc Hh _ p y name Hp Hname Hy. pose proof (nth_lt _ _ _ Hc) as Hl.
  destruct (Hh c x Hc) as (X1 & X2 & X3 & X4 & X5). destruct (X5 p Hp) as (Hpc & y0 & part & Hy0 & Hpart & Hpath & Hlev).
  assert (name = part). { subst name. rewrite Hpath. destruct HK as (K1 & K2 & K3). apply last_part_app; auto. }
  clear Hname. subst name.
  rewrite nth_set_nth_other in Hy by lia. assert (y0 = y) by congruence. subst y0.
  pose proof (nth_lt _ _ _ Hy) as Hlp.
  set (h' := set_nth p (set_kid y part None) (set_nth c (set_orphan x) h)).
  assert (N : forall k, nth_error h' k = if Nat.eqb p k then Some (set_kid y part None) else if Nat.eqb c k then Some (set_orphan x) else nth_error h k).
  { intros k. unfold h'. rewrite nth_set_nth by (rewrite set_nth_length; auto). destruct (Nat.eqb p k); auto. apply nth_set_nth; auto. }
  (* every node keeps path and level; every node but c keeps its parent *)
  assert (G : forall k z, nth_error h k = Some z -> exists z', nth_error h' k = Some z' /\ npath z' = npath z /\ nlevel z' = nlevel z /\
    (k <> c -> nparent z' = nparent z)).
  { intros k z Hk. rewrite N. destruct (Nat.eqb_spec p k) as [<-|].
    - exists (set_kid y part None). replace z with y by congruence. auto.
    - destruct (Nat.eqb_spec c k) as [<-|]; [|exists z; auto]. exists (set_orphan x). replace z with x by congruence. repeat split; auto. congruence. }
  assert (GP : forall k z, parent_ok K h k z -> parent_ok K h' k z).
  { intros k z A5 q Hq. destruct (A5 q Hq) as (B1 & u & t & Hu & B2 & B3 & B4). split; auto.
    destruct (G q u Hu) as (u' & Hu' & C2 & C3 & _). exists u', t. repeat split; auto; congruence. }
  assert (GK : forall k z t e, nth_error h k = Some z -> kids_ok K h k z -> dget (nkids z) t = Some e -> e <> c ->
    In t (parts K) /\ (k < e)%nat /\ exists u, nth_error h' e = Some u /\ nparent u = Some k /\ npath u = append (npath z) t /\ nlevel u = nlevel z + 1).
  { intros k z t e Hk A4 He Hec. destruct (A4 t e He) as (B1 & B2 & u & Hu & B3 & B4 & B5). split; auto. split; auto.
    destruct (G e u Hu) as (u' & Hu' & C2 & C3 & C4). exists u'. rewrite C4 by auto. repeat split; auto; congruence. }
  (* c is in no slot but (p, part) *)
  assert (U : forall k z t, nth_error h k = Some z -> dget (nkids z) t = Some c -> k = p /\ t = part).
  { intros k z t Hk Hd. destruct (Hh k z Hk) as (_ & _ & _ & A4 & _). destruct (A4 t c Hd) as (B1 & B2 & u & Hu & B3 & B4 & B5).
    assert (u = x) by congruence. subst u. assert (k = p) by congruence. subst k. split; auto. assert (z = y) by congruence. subst z.
    apply (append_inj_r (npath y)); [|congruence]. destruct HK as (K1 & K2 & K3). rewrite !K3; auto. }
  intros k z Hk. rewrite N in Hk. destruct (Nat.eqb_spec p k) as [<-|Hpk].
  - injection Hk as <-. destruct (Hh p y Hy) as (A1 & A2 & A3 & A4 & A5). cbn [set_kid nkids nlevel npath nparent].
    split; [apply nodup_dremove; auto|]. split; auto. split; auto. split; [|apply (GP p y A5)].
    intros t e He. cbn [nkids set_kid] in He. destruct (string_dec t part) as [->|Ht]; [rewrite dget_dremove in He by auto; discriminate|].
    rewrite dget_dremove_other in He by auto. apply (GK p y t e); auto. intros ->. apply Ht. apply (U p y t); auto.
  - destruct (Nat.eqb_spec c k) as [<-|Hck].
    + injection Hk as <-. cbn [set_orphan nkids nlevel npath nparent]. split; auto. split; auto. split; auto. split; [|intros q E; discriminate].
      intros t e He. apply (GK c x t e); auto. intros ->. destruct (U c x t Hc He). congruence.
    + destruct (Hh k z Hk) as (A1 & A2 & A3 & A4 & A5). split; auto. split; auto. split; auto. split; [|auto].
      intros t e He. apply (GK k z t e); auto. intros ->. destruct (U k z t Hk He). congruence.
Qed.

Lemma tree_orphan_root (h : nheap D) c x : nth_error h c = Some x -> nparent x = None -> set_nth c (set_orphan x) h = h.
Proof. intros Hc Hp. apply set_nth_id. rewrite Hc. destruct x; cbn in *; subst; reflexivity. Qed.

Lemma ok_delitem n path h : ok h (delitem K n path).
Proof.
  unfold delitem, getitem. apply ok_bind; [apply ok_getitem_|]. intros c h1 _ _. apply ok_get. intros x Hx.
  pose proof (nth_lt _ _ _ Hx) as Hl.
  destruct (nparent x) as [p|] eqn:Hp.
  - intros Hh. destruct (Hh c x Hx) as (_ & _ & _ & _ & X5). destruct (X5 p Hp) as (Hpc & y0 & part & Hy0 & Hpart & Hpath & Hlev).
    assert (Hname : last_part (plen K) (npath x) = part).
    { rewrite Hpath. destruct HK as (K1 & K2 & K3). apply last_part_app; auto. }
    unfold bindM at 1, put. cbn [fst]. cbv zeta. rewrite Hname.
    destruct (String.eqb_spec part EmptyString) as [->|Hne].
    { exfalso. destruct HK as (K1 & K2 & K3). apply K3 in Hpart. cbn in Hpart. lia. }
    unfold bindM, get. rewrite nth_set_nth_other by lia. rewrite Hy0. cbn [fst].
    assert (Hy1 : nth_error (set_nth c (set_orphan x) h1) p = Some y0) by (rewrite nth_set_nth_other by lia; auto).
    split.
    + apply tree_delete; auto; congruence.
    + apply (grow_trans h1 (set_nth c (set_orphan x) h1)); eapply grow_put; eauto.
  - apply ok_bind.
    + intros Hh. cbn. rewrite (tree_orphan_root h1 c x) by auto. split; auto using grow_refl.
    + intros _ h2 _ _. apply ok_pure; reflexivity.
Qed.

Lemma ok_reconstruct n update h : ok h (reconstruct K n update).
Proof.
  unfold reconstruct. apply ok_get. intros x Hx. destruct (negb _); [apply ok_pure; reflexivity|].
  apply ok_bind; [apply ok_pure; reflexivity|]. intros r h1 E _. injection E as <- _.
  destruct update; [|apply ok_pure; reflexivity]. apply ok_bind; [eapply ok_put; eauto; repeat split|]. intros _ h2 _ _. apply ok_pure; reflexivity.
Qed.
Lemma ok_root_reconstruct size n update h : ok h (root_reconstruct K size n update).
Proof.
  unfold root_reconstruct. apply ok_get. intros x Hx. destruct (negb _); [apply ok_pure; reflexivity|].
  apply ok_bind; [apply ok_reconstruct|]. intros r h1 _ _.
  assert (U : ok h1 (if update then x <~ get n;; _ <~ put n (set_data x r);; ret r else ret r)).
  { destruct update; [|apply ok_pure; reflexivity]. apply ok_get. intros y Hy. apply ok_bind; [eapply ok_put; eauto; repeat split|].
    intros _ h2 _ _. apply ok_pure; reflexivity. }
  destruct size as [s|]; [|exact U]. destruct r as [rec|]; [|apply ok_pure; reflexivity].
  destruct (negb _); [apply ok_pure; reflexivity|exact U].
Qed.

Lemma ok_walk_parts sub dec n : (forall c acc h, ok h (sub c acc)) -> forall l acc h, ok h (walk_parts K sub dec n l acc).
Proof.
  intros Hs. induction l as [|part l IH]; intros acc h; cbn [walk_parts]; [apply ok_pure; reflexivity|].
  apply ok_bind; [apply ok_get_subnode|]. intros c h1 _ _. apply ok_bind; [destruct c; [apply Hs|apply ok_pure; reflexivity]|].
  intros acc1 h2 _ _. apply IH.
Qed.
Lemma ok_walk func dec : (forall n acc h, ok h (func n acc)) -> forall f n acc h, ok h (walk K f func dec n acc).
Proof.
  intros Hf. induction f as [|f IH]; intros n acc h; cbn [walk]; [apply ok_pure; reflexivity|].
  apply ok_bind; auto. intros [acc1 b] h1 _ _. cbn [fst snd]. destruct (negb b); [apply ok_pure; reflexivity|].
  apply ok_get. intros x _. apply ok_bind; [apply ok_maxlevel|]. intros [m|] h2 _ _; [|apply ok_pure; reflexivity].
  destruct (negb _); [apply ok_pure; reflexivity|]. apply ok_walk_parts; auto.
Qed.
Lemma ok_leaf_collect dec n acc h : ok h (leaf_collect K dec n acc).
Proof.
  unfold leaf_collect. apply ok_get. intros x _. apply ok_bind; [apply ok_maxlevel|]. intros m h1 _ _. cbv zeta.
  destruct (_ && _); [apply ok_pure; reflexivity|]. destruct (_ && _); apply ok_pure; reflexivity.
Qed.
Lemma ok_level_collect level n acc h : ok h (level_collect level n acc).
Proof. unfold level_collect. apply ok_get. intros x _. destruct (_ =? _); apply ok_pure; reflexivity. Qed.
Lemma ok_level_nodes f n level dec h : ok h (level_nodes K f n level dec).
Proof.
  unfold level_nodes. apply ok_bind; [apply ok_maxlevel|]. intros [m|] h1 _ _; [|apply ok_pure; reflexivity].
  destruct (_ <? _); [apply ok_pure; reflexivity|]. apply ok_walk. intros. apply ok_level_collect.
Qed.

Lemma ok_seq {A} (m : M A) h : ok h m -> ok h (bindM m (fun _ => ret tt)).
Proof. intros H. apply ok_bind; auto. intros. apply ok_pure; reflexivity. Qed.

Lemma ok_op o h : ok h (do_op K o).
Proof.
  destruct o; cbn [do_op]; try apply ok_seq.
  - apply ok_getitem_.
  - apply ok_setitem_.
  - apply ok_delitem.
  - apply ok_decompose.
  - apply ok_get_subnode.
  - apply ok_reconstruct.
  - apply ok_root_reconstruct.
  - apply ok_get. intros x Hx. eapply ok_put; eauto. repeat split.
  - apply ok_maxlevel.
  - apply ok_level_nodes.
  - apply ok_walk. intros. apply ok_leaf_collect.
Qed.

(** Every history keeps the invariant. *)
Theorem run_ok : forall ops h, tree_ok K h -> tree_ok K (run K h ops) /\ grow h (run K h ops).
Proof.
  unfold run. induction ops as [|o ops IH]; intros h Hh; cbn [fold_left]; [split; auto using grow_refl|].
  destruct (ok_op o h Hh) as (H1 & G1). destruct (IH _ H1) as (H2 & G2). split; auto. eapply grow_trans; eauto.
Qed.

Lemma root_ok data m : tree_ok K [root_node K data m].
Proof.
  intros [|[|n]] x Hx; cbn in Hx; try discriminate. injection Hx as <-. cbn. split; [constructor|]. split; [lia|]. split; [reflexivity|].
  split; [intros p c H; discriminate|intros p H; discriminate].
Qed.

(** ** Addressing *)
(** [at_path h n s c]: following the slots named by [s] from node [n] leads to [c]. *)
Inductive at_path (h : nheap D) : nat -> string -> nat -> Prop :=
  | at_here n x : nth_error h n = Some x -> at_path h n EmptyString n
  | at_down n x part c s d : nth_error h n = Some x -> dget (nkids x) part = Some c -> at_path h c s d -> at_path h n (append part s) d.

(** What is found under a path carries that path. *)
Theorem at_path_node h n s d : tree_ok K h -> at_path h n s d -> forall x, nth_error h n = Some x ->
  exists y, nth_error h d = Some y /\ npath y = append (npath x) s /\
    Z.of_nat (String.length s) = (nlevel y - nlevel x) * Z.of_nat (plen K) /\ nlevel x <= nlevel y.
Proof.
  intros Hh. induction 1 as [n x0 H0|n x0 part c s d H0 Hc Hat IH]; intros x Hx.
  - exists x. rewrite append_nil_r. repeat split; auto; [|lia]. cbn. ring.
  - assert (x0 = x) by congruence. subst x0. destruct (Hh n x Hx) as (_ & _ & _ & A4 & _).
    destruct (A4 part c Hc) as (Hp & _ & z & Hz & _ & Z1 & Z2). destruct (IH z Hz) as (y & Hy & Y1 & Y2 & Y3).
    exists y. split; auto. split; [rewrite Y1, Z1; apply append_assoc_s|]. split; [|lia].
    destruct HK as (K1 & K2 & K3). rewrite append_length, (K3 part Hp), Nat2Z.inj_add, Y2, Z2. ring.
Qed.
(** At most one node is found under a path. *)
Theorem at_path_fun h n s d d' : tree_ok K h -> at_path h n s d -> at_path h n s d' -> d = d'.
Proof.
  intros Hh H. revert d'. induction H as [n x0 H0|n x0 part c s d H0 Hc Hat IH]; intros d' H'.
  - inversion H' as [|? x part c s e Hx Hc Hat E]; subst; auto. exfalso. destruct (Hh n x Hx) as (_ & _ & _ & A4 & _).
    destruct (A4 part c Hc) as (Hp & _). destruct HK as (K1 & K2 & K3). apply K3 in Hp. destruct part; [cbn in Hp; lia|discriminate].
  - destruct (Hh n x0 H0) as (_ & _ & _ & A4 & _). destruct (A4 part c Hc) as (Hp & _). destruct HK as (K1 & K2 & K3).
    remember (append part s) as u eqn:E. revert E H0. destruct H' as [n x Hx|n x q e t d' Hx He Hat']; intros E H0.
    + exfalso. apply K3 in Hp. destruct part; [cbn in Hp; lia|discriminate].
    + assert (x = x0) by congruence. subst x. destruct (A4 q e He) as (Hq & _).
      assert (q = part).
      { pose proof (take_app q t) as T1. pose proof (take_app part s) as T2. rewrite (K3 q Hq), E in T1. rewrite (K3 part Hp) in T2. congruence. }
      subst q. assert (e = c) by congruence. subst e. apply IH.
      assert (t = s) by (pose proof (drop_app part t) as T1; pose proof (drop_app part s) as T2; rewrite E in T1; congruence). subst t. auto.
Qed.

End Inv.
