(** decompose of a node without data. *)
From Coq Require Import Ascii String.
From Verif Require Import Base BaseLemmas CConv Lengths Dwt Nd Axis AxisProofs Multidim MultidimProofs MultidimFacts SwtNd SwtNdArgs MultilevelNdProofs Packets PacketsInv PacketsMax PacketsFacts3.
Open Scope list_scope. Open Scope Z_scope.

Section E.
Context {D : Type}.
Variable K : wpclass D.
Notation node := (node D).

(** A subnode just made for a node without data. *)
Definition bare (n : nat) (x : node) (part : string) (m : Z) : node :=
  mkNode (Some n) (append (npath x) part) (nlevel x + 1) None None (Some m) [].

Lemma maxlevel_node h n x m h1 : nth_error h n = Some x -> maxlevel K n h = (h1, Ok (Some m)) -> h1 = set_nth n (set_max x (Some m)) h.
Proof.
  intros E H. unfold maxlevel, bindM, get, put, ret in H. rewrite E in H. destruct (nmaxl x) as [v|] eqn:Ev.
  - injection H as <- <-. symmetry. apply set_nth_id. rewrite E. f_equal. destruct x; cbn in *; subst; reflexivity.
  - destruct (eval_parent K (S (List.length h)) h n) as [[v|]| | |] eqn:E1; try discriminate; cbn beta iota in H.
    + injection H as <- <-. reflexivity.
    + set (h2 := set_nth n (set_max x None) h) in *.
      destruct (eval_sub K (S (List.length h2)) h2 n) as [v| | |] eqn:E2; try discriminate; cbn beta iota in H.
      injection H as <- ->. unfold h2. rewrite set_nth_set. reflexivity.
Qed.

Lemma create_at h n x m part : nth_error h n = Some x -> nmaxl x = Some m -> In part (parts K) ->
  create_subnode K n part None h = (set_nth n (set_kid x part (Some (List.length h))) (h ++ [bare n x part m]), Ok tt).
Proof.
  intros E Em Hp. unfold create_subnode. replace (part_ok K part) with true by (symmetry; unfold part_ok; apply existsb_exists; exists part; split; auto; apply String.eqb_refl).
  cbn [negb]. unfold new_node, maxlevel, bindM, get, put, ret. rewrite E, Em. cbn beta iota. rewrite E. cbn beta iota. rewrite nth_error_app1 by (apply nth_error_Some; congruence). rewrite E. reflexivity.
Qed.

(** The loop over the parts; [x] is the node before it. *)
Definition made_bare (h : nheap D) (n : nat) (x : node) (m : Z) (ps : list string) (h' : nheap D) : Prop :=
  exists y, nth_error h' n = Some y /\ npath y = npath x /\ nlevel y = nlevel x /\ nparent y = nparent x /\ ndat y = None /\ ndshape y = ndshape x /\ nmaxl y = Some m /\
    (List.length h <= List.length h')%nat /\
    (forall k z, k <> n -> nth_error h k = Some z -> nth_error h' k = Some z) /\
    (forall part, ~ In part ps -> dget (nkids y) part = dget (nkids x) part) /\
    (forall part, In part ps -> if keeps K && (match dget (nkids x) part with Some _ => true | None => false end) then dget (nkids y) part = dget (nkids x) part
       else exists c, (List.length h <= c)%nat /\ dget (nkids y) part = Some c /\ nth_error h' c = Some (bare n x part m)).

Lemma loop_bare n m : forall ps h x, nth_error h n = Some x -> nmaxl x = Some m -> ndat x = None -> NoDup ps -> (forall p, In p ps -> In p (parts K)) ->
  exists h', iterM (fun part => bindM (get n) (fun x => if keeps K && (match dget (nkids x) part with Some _ => true | None => false end) then ret tt else create_subnode K n part None)) ps h = (h', Ok tt) /\
    made_bare h n x m ps h'.
Proof.
  induction ps as [|p ps IH]; intros h x E Em Ed Hn Hi.
  - exists h. split; [reflexivity|]. exists x. repeat (split; [solve [auto]|]). intros part [].
  - inversion Hn as [|? ? Hni Hn']; subst. cbn [iterM]. unfold bindM at 1. unfold bindM at 1. unfold get at 1. rewrite E.
    destruct (keeps K && match dget (nkids x) p with Some _ => true | None => false end) eqn:Ek.
    + destruct (IH h x E Em Ed Hn' (fun q Hq => Hi q (or_intror Hq))) as (h' & E' & y & Y1 & Y2 & Y3 & Y4 & Y5 & Y6 & Y7 & Y8 & Y9 & Y10 & Y11).
      exists h'. split; [exact E'|]. exists y. repeat (split; [assumption|]). split.
      * intros q Hq. apply Y10. intros Hc. apply Hq. right. auto.
      * intros q [<-|Hq]; [rewrite Ek; apply Y10; auto|apply Y11; auto].
    + rewrite (create_at h n x m p E Em (Hi p (or_introl eq_refl))). set (x1 := set_kid x p (Some (List.length h))). set (h1 := set_nth n x1 (h ++ [bare n x p m])).
      assert (Ln : (n < List.length h)%nat) by (apply nth_error_Some; congruence).
      assert (L1 : List.length h1 = S (List.length h)) by (unfold h1; rewrite set_nth_length, app_length; cbn; lia).
      assert (E1 : nth_error h1 n = Some x1) by (unfold h1; apply nth_set_nth_same; rewrite app_length; lia).
      destruct (IH h1 x1 E1) as (h' & E' & y & Y1 & Y2 & Y3 & Y4 & Y5 & Y6 & Y7 & Y8 & Y9 & Y10 & Y11); auto; [intros q Hq; apply Hi; right; auto|].
      assert (D1 : forall q, dget (nkids x1) q = if String.eqb p q then Some (List.length h) else dget (nkids x) q) by (intros q; unfold x1, set_kid; cbn [nkids]; apply dget_dset).
      exists h'. split; [exact E'|]. exists y. repeat (split; [assumption|]). split; [lia|]. split.
      { intros k z Hk Hz. apply Y9; auto. unfold h1. rewrite nth_set_nth_other by auto. rewrite nth_error_app1; auto. apply nth_error_Some. congruence. }
      split.
      { intros q Hq. rewrite Y10 by (intros Hc; apply Hq; right; auto). rewrite D1. destruct (String.eqb_spec p q) as [->|]; auto. exfalso. apply Hq. left. auto. }
      intros q [<-|Hq].
      * rewrite Ek. exists (List.length h). split; auto. split; [rewrite Y10, D1, String.eqb_refl by auto; reflexivity|].
        apply Y9; [lia|]. unfold h1. rewrite nth_set_nth_other by lia. rewrite nth_error_app2, Nat.sub_diag by lia. reflexivity.
      * specialize (Y11 q Hq). rewrite !D1 in Y11. destruct (String.eqb_spec p q) as [->|]; [contradiction|].
        destruct (keeps K && match dget (nkids x) q with Some _ => true | None => false end); auto. destruct Y11 as (c & C1 & C2 & C3). exists c. split; [lia|]. auto.
Qed.

Theorem decompose_empty h n x m h1 : NoDup (parts K) -> nth_error h n = Some x -> ndat x = None -> maxlevel K n h = (h1, Ok (Some m)) -> nlevel x < m ->
  exists h', decompose K n h = (h', Ok tt) /\ made_bare h n x m (parts K) h'.
Proof.
  intros HK E Ed Hm Hl. assert (Ln : (n < List.length h)%nat) by (apply nth_error_Some; congruence). pose proof (maxlevel_node h n x m h1 E Hm) as E1. set (x1 := set_max x (Some m)) in *.
  assert (N1 : nth_error h1 n = Some x1) by (rewrite E1; apply nth_set_nth_same; auto).
  destruct (loop_bare n m (parts K) h1 x1 N1 eq_refl Ed HK (fun p Hp => Hp)) as (h' & E' & y & Y1 & Y2 & Y3 & Y4 & Y5 & Y6 & Y7 & Y8 & Y9 & Y10 & Y11).
  exists h'. split.
  - unfold decompose, bindM at 1. rewrite Hm. cbn beta iota. unfold bindM at 1, get at 1. rewrite N1. cbn beta iota. change (nlevel x1) with (nlevel x). replace (nlevel x <? m) with true by lia.
    unfold decompose_, bindM at 1, get at 1. rewrite N1. cbn beta iota. change (ndat x1) with (ndat x). rewrite Ed. exact E'.
  - assert (L1 : List.length h1 = List.length h) by (rewrite E1; apply set_nth_length). rewrite L1 in *.
    exists y. repeat (split; [assumption|]). split; [|split; [exact Y10|exact Y11]]. intros k z Hk Hz. apply Y9; auto. rewrite E1, nth_set_nth_other; auto.
Qed.
End E.

Section Refused.
Context {D : Type}.
Variable K : wpclass D.
Theorem decompose_refused h n x h1 : nth_error h n = Some x ->
  (forall m, maxlevel K n h = (h1, Ok (Some m)) -> m <= nlevel x -> decompose K n h = (h1, Err ValueError)) /\
  (maxlevel K n h = (h1, Ok None) -> nth_error h1 n = Some x -> decompose K n h = (h1, Err TypeError) /\ forall f level freq dec, get_level K f n level freq dec h = (h1, Err TypeError)).
Proof.
  intros E. split.
  - intros m Hm Hl. pose proof (maxlevel_node K h n x m h1 E Hm) as E1.
    assert (N1 : nth_error h1 n = Some (set_max x (Some m))) by (rewrite E1; apply nth_set_nth_same; apply nth_error_Some; congruence).
    unfold decompose, bindM at 1. rewrite Hm. cbn beta iota. unfold bindM at 1, get at 1. rewrite N1. cbn beta iota. change (nlevel (set_max x (Some m))) with (nlevel x). replace (nlevel x <? m) with false by lia. reflexivity.
  - intros Hm N1. split.
    + unfold decompose, bindM at 1. rewrite Hm. cbn beta iota. unfold bindM at 1, get at 1. rewrite N1. reflexivity.
    + intros. unfold get_level, level_nodes, bindM. rewrite Hm. reflexivity.
Qed.
End Refused.

Section Classes.
Context {C : CRing}.
Variable fuel : nat.
Variable junk : Z -> C.
Notation heap := (nheap (nd C)).

(** 1-D: what is there stays, the rest is made without data. *)
Theorem decompose_empty_1d w m axis (h : heap) n x M h1 : let K := wp1 fuel junk w m axis in
  nth_error h n = Some x -> ndat x = None -> maxlevel K n h = (h1, Ok (Some M)) -> nlevel x < M ->
  exists h' y, decompose K n h = (h', Ok tt) /\ nth_error h' n = Some y /\ (forall k z, k <> n -> nth_error h k = Some z -> nth_error h' k = Some z) /\
    (forall part c, dget (nkids x) part = Some c -> dget (nkids y) part = Some c) /\
    (forall part, In part ["a"; "d"]%string -> dget (nkids x) part = None ->
       exists c, (List.length h <= c)%nat /\ dget (nkids y) part = Some c /\ nth_error h' c = Some (bare n x part M)).
Proof.
  intros K E Ed Hm Hl. destruct (decompose_empty K h n x M h1) as (h' & E' & y & Y1 & Y2 & Y3 & Y4 & Y5 & Y6 & Y7 & Y8 & Y9 & Y10 & Y11); auto.
  { cbn. repeat constructor; cbn; intuition discriminate. }
  exists h', y. repeat (split; [assumption|]). split.
  - intros part c Hc. destruct (in_dec string_dec part (parts K)) as [Hi|Hi]; [|rewrite Y10; auto]. specialize (Y11 part Hi). rewrite Hc in Y11. cbn in Y11. auto.
  - intros part Hi Hc. specialize (Y11 part Hi). rewrite Hc in Y11. cbn in Y11. auto.
Qed.

(** 2-D and n-D: all subnodes are replaced. *)
Lemma decompose_empty_new K (h : heap) n x M h1 : NoDup (parts K) -> keeps K = false ->
  nth_error h n = Some x -> ndat x = None -> maxlevel K n h = (h1, Ok (Some M)) -> nlevel x < M ->
  exists h' y, decompose K n h = (h', Ok tt) /\ nth_error h' n = Some y /\ (forall k z, k <> n -> nth_error h k = Some z -> nth_error h' k = Some z) /\
    (forall part, In part (parts K) -> exists c, (List.length h <= c)%nat /\ dget (nkids y) part = Some c /\ nth_error h' c = Some (bare n x part M)).
Proof.
  intros HN HK E Ed Hm Hl. destruct (decompose_empty K h n x M h1) as (h' & E' & y & Y1 & Y2 & Y3 & Y4 & Y5 & Y6 & Y7 & Y8 & Y9 & Y10 & Y11); auto.
  exists h', y. repeat (split; [assumption|]). intros part Hi. specialize (Y11 part Hi). rewrite HK in Y11. auto.
Qed.
Theorem decompose_empty_2d w m axes (h : heap) n x M h1 : let K := wp2 fuel junk w m axes in
  nth_error h n = Some x -> ndat x = None -> maxlevel K n h = (h1, Ok (Some M)) -> nlevel x < M ->
  exists h' y, decompose K n h = (h', Ok tt) /\ nth_error h' n = Some y /\ (forall k z, k <> n -> nth_error h k = Some z -> nth_error h' k = Some z) /\
    (forall part, In part ["a"; "h"; "v"; "d"]%string -> exists c, (List.length h <= c)%nat /\ dget (nkids y) part = Some c /\ nth_error h' c = Some (bare n x part M)).
Proof.
  intros K E Ed Hm Hl. destruct (decompose_empty_new K h n x M h1) as (h' & y & Y1 & Y2 & Y3 & Y4); auto; [cbn; repeat constructor; cbn; intuition discriminate|].
  exists h', y. repeat (split; [assumption|]). intros part Hi. apply Y4. cbn in *. tauto.
Qed.
Theorem decompose_empty_nd w m axes (h : heap) n x M h1 : let K := wpn fuel junk w m axes in
  nth_error h n = Some x -> ndat x = None -> maxlevel K n h = (h1, Ok (Some M)) -> nlevel x < M ->
  exists h' y, decompose K n h = (h', Ok tt) /\ nth_error h' n = Some y /\ (forall k z, k <> n -> nth_error h k = Some z -> nth_error h' k = Some z) /\
    (forall part, In part (ad_keys (List.length axes)) -> exists c, (List.length h <= c)%nat /\ dget (nkids y) part = Some c /\ nth_error h' c = Some (bare n x part M)).
Proof. intros K E Ed Hm Hl. apply (decompose_empty_new K h n x M h1); auto. apply ad_keys_NoDup. Qed.
End Classes.
