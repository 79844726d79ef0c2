(** walk and walk_depth visit the nodes in pre-order and post-order. *)
From Coq Require Import Ascii String Permutation.
From Verif Require Import Base Dwt Multilevel Swt Multidim MultidimProofs MultilevelNd SwtNd SwtNdArgs Packets PacketsInv PacketsPath PacketsPath2 PacketsRead PacketsSpec PacketsLevel PacketsWalk PacketsWalkSpec.

Section W.
Context {D : Type}.
Variable K : wpclass D.
Hypothesis HK : class_ok K.
Local Notation at_path := (@at_path D).

(** ** Without decomposition *)
Lemma sub_false n x part h : In part (parts K) -> nth_error h n = Some x -> get_subnode K n part false h = (h, Ok (dget (nkids x) part)).
Proof.
  intros Hp Hx. unfold get_subnode. rewrite (part_ok_in K part Hp). cbn [negb]. unfold bindM, get. rewrite Hx. destruct (dget (nkids x) part); reflexivity.
Qed.
Lemma top_no_kids M h n x p : tree_ok K h -> lev M h -> nth_error h n = Some x -> nlevel x = M -> dget (nkids x) p = None.
Proof.
  intros Ht Hl Hx El. destruct (dget (nkids x) p) as [c|] eqn:E; auto. destruct (Ht n x Hx) as (_ & _ & _ & A & _). destruct (A p c E) as (_ & _ & y & Hy & _ & _ & Ey).
  destruct (Hl c y Hy) as (_ & B). lia.
Qed.
Lemma below_pre_none (h : nheap D) q x ps : (forall p, dget (nkids x) p = None) -> below_pre (parts K) h q x ps [].
Proof. intros H. induction ps; constructor; auto. Qed.
Lemma below_post_none h x ps : (forall p, dget (nkids x) p = None) -> below_post (parts K) (D := D) h x ps [].
Proof. intros H. induction ps; constructor; auto. Qed.

Lemma walk_pre M q h : tree_ok K h -> lev M h -> forall f n x acc, nth_error h n = Some x -> (Z.to_nat (M - nlevel x) < f)%nat ->
  exists ns, walk K f (visit q) false n acc h = (h, Ok (acc ++ ns)) /\ preorder (parts K) h q n ns.
Proof.
  intros Ht Hl. induction f as [|f IH]; intros n x acc Hx Hf; [lia|]. cbn [walk]. unfold visit at 1. unfold bindM at 1 2, get at 1. rewrite Hx.
  unfold ret at 1. cbn [snd fst]. destruct (q (npath x)) eqn:Eq; cbn [negb].
  2: { exists [n]. split; [reflexivity|]. eapply pre_stop; eauto. }
  unfold bindM at 1, get at 1. rewrite Hx. unfold bindM at 1. rewrite (maxlevel_lev K M n h Hl), Hx.
  destruct (Hl n x Hx) as (_ & HM).
  destruct (Z.ltb_spec (nlevel x) M) as [Hlt|Hge]; cbn [negb].
  2: { exists [n]. split; [reflexivity|]. eapply pre_node; eauto. apply below_pre_none. intros p. apply (top_no_kids M h n x); auto. lia. }
  assert (G : forall l acc, (forall p, In p l -> In p (parts K)) -> exists ns, walk_parts K (walk K f (visit q) false) false n l acc h = (h, Ok (acc ++ ns)) /\ below_pre (parts K) h q x l ns).
  { induction l as [|p l IHl]; intros acc0 Hin; cbn [walk_parts].
    - exists []. rewrite app_nil_r. split; [reflexivity|constructor].
    - unfold bindM at 1. rewrite (sub_false n x p h (Hin p (or_introl eq_refl)) Hx). destruct (dget (nkids x) p) as [c|] eqn:Ec.
      + destruct (Ht n x Hx) as (_ & _ & _ & A & _). destruct (A p c Ec) as (_ & _ & y & Hy & _ & _ & Ey).
        destruct (IH c y acc0 Hy ltac:(lia)) as (n1 & E1 & P1). unfold bindM at 1. rewrite E1.
        destruct (IHl (acc0 ++ n1) (fun r Hr => Hin r (or_intror Hr))) as (n2 & E2 & P2). exists (n1 ++ n2). rewrite app_assoc. split; [exact E2|]. eapply bp_some; eauto.
      + unfold bindM at 1, ret at 1. destruct (IHl acc0 (fun r Hr => Hin r (or_intror Hr))) as (n2 & E2 & P2). exists n2. split; [exact E2|]. apply bp_none; auto. }
  destruct (G (parts K) (acc ++ [n]) (fun p Hp => Hp)) as (ns & E & P). exists (n :: ns). rewrite E, <- app_assoc. split; [reflexivity|]. eapply pre_node; eauto.
Qed.
Lemma walk_post M h : tree_ok K h -> lev M h -> forall f n x acc, nth_error h n = Some x -> (Z.to_nat (M - nlevel x) < f)%nat ->
  exists ns, walk_depth K f (fun n acc => ret (acc ++ [n])) false n acc h = (h, Ok (acc ++ ns)) /\ postorder (parts K) h n ns.
Proof.
  intros Ht Hl. induction f as [|f IH]; intros n x acc Hx Hf; [lia|]. cbn [walk_depth].
  unfold bindM at 1, get at 1. rewrite Hx. unfold bindM at 1. rewrite (maxlevel_lev K M n h Hl), Hx.
  destruct (Hl n x Hx) as (_ & HM).
  destruct (Z.ltb_spec (nlevel x) M) as [Hlt|Hge].
  2: { exists [n]. split; [reflexivity|]. apply (post_node _ h n x []); auto. apply below_post_none. intros p. apply (top_no_kids M h n x); auto. lia. }
  assert (G : forall l acc, (forall p, In p l -> In p (parts K)) -> exists ns, walk_parts K (walk_depth K f (fun n acc => ret (acc ++ [n])) false) false n l acc h = (h, Ok (acc ++ ns)) /\ below_post (parts K) h x l ns).
  { induction l as [|p l IHl]; intros acc0 Hin; cbn [walk_parts].
    - exists []. rewrite app_nil_r. split; [reflexivity|constructor].
    - unfold bindM at 1. rewrite (sub_false n x p h (Hin p (or_introl eq_refl)) Hx). destruct (dget (nkids x) p) as [c|] eqn:Ec.
      + destruct (Ht n x Hx) as (_ & _ & _ & A & _). destruct (A p c Ec) as (_ & _ & y & Hy & _ & _ & Ey).
        destruct (IH c y acc0 Hy ltac:(lia)) as (n1 & E1 & P1). unfold bindM at 1. rewrite E1.
        destruct (IHl (acc0 ++ n1) (fun r Hr => Hin r (or_intror Hr))) as (n2 & E2 & P2). exists (n1 ++ n2). rewrite app_assoc. split; [exact E2|]. eapply bq_some; eauto.
      + unfold bindM at 1, ret at 1. destruct (IHl acc0 (fun r Hr => Hin r (or_intror Hr))) as (n2 & E2 & P2). exists n2. split; [exact E2|]. apply bq_none; auto. }
  destruct (G (parts K) acc (fun p Hp => Hp)) as (ns & E & P). exists (ns ++ [n]). unfold bindM at 1. rewrite E. unfold ret. rewrite <- app_assoc. split; [reflexivity|]. econstructor; eauto.
Qed.

(** After any history; [n] is any node of the heap. *)
Theorem walk_any M (data : option D) ops f n x q : 0 <= M -> let h := run K [root_node K data (Some M)] ops in
  nth_error h n = Some x -> (Z.to_nat M < f)%nat ->
  exists r s, walk_visits K f q false n h = (h, Ok r) /\ preorder (parts K) h q n r /\
    walk_depth_visits K f false n h = (h, Ok s) /\ postorder (parts K) h n s.
Proof.
  intros HM h Hx Hf. assert (Hi : inv2 K M h) by (apply run_inv2; auto; apply root_inv2; auto).
  destruct Hi as (Ht & Hl). destruct (Ht n x Hx) as (_ & L0 & _).
  destruct (walk_pre M q h Ht Hl f n x [] Hx ltac:(lia)) as (r & E1 & P1). destruct (walk_post M h Ht Hl f n x [] Hx ltac:(lia)) as (s & E2 & P2).
  exists r, s. auto.
Qed.

(** Every node that can be reached is visited, once for every path to it. *)
Lemma below_In h q x ps ls : (forall s, q s = true) -> below_pre (parts K) (D := D) h q x ps ls -> forall p c s e, In p ps -> dget (nkids x) p = Some c -> at_path h c s e ->
  (forall c l, preorder (parts K) h q c l -> dget (nkids x) p = Some c -> In e l) -> In e ls.
Proof.
  intros Hq H. induction H as [x|x p' ps ls Hn H IH|x p' ps c' l ls Hc Hp H IH]; intros p c s e Hi Hd Ha Hr.
  - destruct Hi.
  - destruct Hi as [<-|Hi]; [congruence|]. eapply IH; eauto.
  - apply in_or_app. destruct Hi as [<-|Hi]; [left; eapply Hr; eauto|right; eapply IH; eauto].
Qed.
Lemma pre_complete h q n s e : tree_ok K h -> (forall s, q s = true) -> at_path h n s e -> forall l, preorder (parts K) h q n l -> In e l.
Proof.
  intros Ht Hq Ha. induction Ha as [n x Hx|n x p c s d Hx Hd Ha IH]; intros l Hl.
  - inversion Hl; subst; left; auto.
  - inversion Hl as [n' x' Hx' Hf|n' x' ls Hx' Hf Hb]; subst; [rewrite Hq in Hf; discriminate|]. assert (x' = x) by congruence. subst x'. right.
    eapply below_In; eauto.
    + destruct (Ht n x Hx) as (_ & _ & _ & A & _). destruct (A p c Hd) as (A1 & _). exact A1.
    + intros c' l' Hp' Hd'. assert (c' = c) by congruence. subst c'. auto.
Qed.
Scheme preorder_mut := Minimality for preorder Sort Prop with below_mut := Minimality for below_pre Sort Prop.
Lemma pre_sound h q n l : preorder (parts K) (D := D) h q n l -> forall e, In e l -> exists s, at_path h n s e.
Proof.
  intros H. induction H using preorder_mut with (P0 := fun x ps ls => forall n, nth_error h n = Some x -> forall e, In e ls -> exists s, at_path h n s e).
  - intros e [<-|[]]. exists EmptyString. econstructor; eauto.
  - intros e [<-|He]; [exists EmptyString; econstructor; eauto|]. eapply IHpreorder; eauto.
  - intros n0 _ e [].
  - auto.
  - intros n0 Hn e He. apply in_app_or in He. destruct He as [He|He]; [|eauto]. destruct (IHpreorder e He) as (s & Hs). exists (append p s). econstructor; eauto.
Qed.
Scheme postorder_mut := Minimality for postorder Sort Prop with belowq_mut := Minimality for below_post Sort Prop.
Lemma post_perm h n l : postorder (parts K) (D := D) h n l -> forall q l', (forall s, q s = true) -> preorder (parts K) h q n l' -> Permutation l l'.
Proof.
  intros H. induction H using postorder_mut with (P0 := fun x ps ls => forall q ls', (forall s, q s = true) -> below_pre (parts K) h q x ps ls' -> Permutation ls ls').
  - intros q l' Hq Hl. inversion Hl as [n' x' Hx' Hf|n' x' ls' Hx' Hf Hb]; subst; [rewrite Hq in Hf; discriminate|]. assert (x' = x) by congruence. subst x'.
    etransitivity; [apply Permutation_app_comm|]. cbn. constructor. eapply IHpostorder; eauto.
  - intros q ls' Hq Hb. inversion Hb; subst. constructor.
  - intros q ls' Hq Hb. inversion Hb; subst; [eauto|congruence].
  - intros q ls' Hq Hb. inversion Hb; subst; [congruence|]. assert (c0 = c) by congruence. subst c0. apply Permutation_app; eauto.
Qed.

(** ** With decomposition *)
Hypothesis Hkeys : forall d cs, fwd K d = Ok cs -> fwd_keys K cs.
Lemma parts_words M lv (W : string -> list string) sub n : (forall c acc h, ok K h (sub c acc)) ->
  (forall c y acc h h' r, dataG K M h -> nth_error h c = Some y -> nlevel y = lv -> sub c acc h = (h', Ok r) ->
     exists ns, r = acc ++ ns /\ dataG K M h' /\ mono h h' /\ Forall2 (fun e s => at_path h' c s e) ns (W (npath y))) ->
  forall l x acc h h' r, dataG K M h -> nth_error h n = Some x -> nlevel x + 1 = lv -> walk_parts K sub true n l acc h = (h', Ok r) ->
  exists ns, r = acc ++ ns /\ dataG K M h' /\ mono h h' /\ Forall2 (fun e s => at_path h' n s e) ns (flat_map (fun p => map (append p) (W (append (npath x) p))) l).
Proof.
  intros Ho Hs. induction l as [|p l IH]; intros x acc h h' r Hg Hx Hlv; cbn [walk_parts flat_map].
  { intros E. injection E as <- <-. exists []. rewrite app_nil_r. split; auto. split; auto. split; [apply mono_refl|constructor]. }
  unfold bindM at 1. pose proof (data_sub K HK Hkeys M n p true h Hg) as (Hg1 & M1). pose proof (sub_some K Hkeys M n x p h) as So. pose proof (get_subnode_slot K n p true h) as Sl.
  destruct (ok_get_subnode K HK n p true h (proj1 (proj1 (proj1 Hg)))) as (_ & _ & G1).
  destruct (get_subnode K n p true h) as [h1 [o| | |e]]; cbn [fst] in *; try discriminate.
  destruct (So h1 o Hg Hx eq_refl) as (c & ->). destruct (Sl h1 c eq_refl) as (Hp & x1 & Hx1 & Hc).
  destruct (G1 n x Hx) as (x1' & Hx1' & Ep1 & El1). assert (x1' = x1) by congruence. subst x1'.
  destruct (proj1 (proj1 (proj1 Hg1)) n x1 Hx1) as (_ & _ & _ & A4 & _). destruct (A4 p c Hc) as (_ & _ & y & Hy & _ & Hyp & Hyl).
  unfold bindM. destruct (sub c acc h1) as [h2 [acc2| | |e]] eqn:Es; try discriminate.
  destruct (Hs c y acc h1 h2 acc2 Hg1 Hy ltac:(lia) Es) as (ns1 & -> & Hg2 & M2 & F2).
  destruct (Ho c acc h1 (proj1 (proj1 (proj1 Hg1)))) as (_ & _ & G2). rewrite Es in G2. cbn [fst] in G2.
  destruct (G2 n x1 Hx1) as (x2 & Hx2 & Ep2 & El2). intros E.
  destruct (IH x2 _ h2 h' r Hg2 Hx2 ltac:(lia) E) as (ns2 & -> & Hg3 & M3 & F3).
  exists (ns1 ++ ns2). rewrite app_assoc. split; auto. split; auto. split; [eapply mono_trans; [exact M1|]; eapply mono_trans; eauto|].
  assert (Hn : at_path h' n p c).
  { apply (at_mono h1); [eapply mono_trans; eauto|]. rewrite <- (append_nil_r p). econstructor; eauto. econstructor; eauto. }
  rewrite Hyp, Ep1 in F2. rewrite Ep2, Ep1 in F3.
  apply Forall2_app; auto. clear - F2 M3 Hn. induction F2; cbn; constructor; auto. eapply at_trans; [exact Hn|]. apply (at_mono h2); auto.
Qed.
Lemma ok_visit q n acc h : ok K h (visit q n acc).
Proof. unfold visit. apply ok_get. intros x _. apply ok_pure. reflexivity. Qed.
Lemma ok_walk_depth func dec : (forall n acc h, ok K h (func n acc)) -> forall f n acc h, ok K h (walk_depth K f func dec n acc).
Proof.
  intros Hf. induction f as [|f IH]; intros n acc h; cbn [walk_depth]; [apply ok_pure; reflexivity|].
  apply ok_get. intros x _. apply ok_bind; [apply ok_maxlevel|]. intros [m|] h2 _ _; [|apply ok_pure; reflexivity].
  apply ok_bind; [destruct (_ <? _); [apply ok_walk_parts; auto|apply ok_pure; reflexivity]|]. intros. apply Hf.
Qed.
Lemma walk_words M q f : forall n x acc h h' r, dataG K M h -> nth_error h n = Some x ->
  walk K f (visit q) true n acc h = (h', Ok r) ->
  exists ns, r = acc ++ ns /\ dataG K M h' /\ mono h h' /\ Forall2 (fun c s => at_path h' n s c) ns (words_pre (parts K) q (npath x) (Z.to_nat (M - nlevel x))).
Proof.
  induction f as [|f IH]; intros n x acc h h' r Hg Hx; cbn [walk]; [discriminate|].
  unfold visit at 1. unfold bindM at 1 2, get at 1. rewrite Hx. unfold ret at 1. cbn [fst snd].
  assert (Hh : forall h2, mono h h2 -> at_path h2 n EmptyString n) by (intros h2 Hm; destruct (Hm n x Hx) as (x2 & Hx2 & _); econstructor; eauto).
  destruct (q (npath x)) eqn:Eq; cbn [negb].
  2: { intros E. injection E as <- <-. exists [n]. split; auto. split; auto. split; [apply mono_refl|]. destruct (Z.to_nat (M - nlevel x)); cbn; rewrite ?Eq; constructor; auto using mono_refl. }
  unfold bindM at 1, get at 1. rewrite Hx. unfold bindM at 1. rewrite (maxlevel_lev K M n h (proj2 (proj1 (proj1 Hg)))), Hx.
  destruct (Z.ltb_spec (nlevel x) M); cbn [negb].
  2: { intros E. injection E as <- <-. exists [n]. split; auto. split; auto. split; [apply mono_refl|]. replace (Z.to_nat (M - nlevel x)) with O by lia. cbn. constructor; auto using mono_refl. }
  intros E. replace (Z.to_nat (M - nlevel x)) with (S (Z.to_nat (M - (nlevel x + 1)))) by lia. cbn [words_pre]. rewrite Eq.
  destruct (parts_words M (nlevel x + 1) (fun s => words_pre (parts K) q s (Z.to_nat (M - (nlevel x + 1)))) (walk K f (visit q) true) n) with (l := parts K) (x := x) (acc := acc ++ [n]) (h := h) (h' := h') (r := r) as (ns & -> & A & B & F); auto.
  - intros c acc1 h1. apply ok_walk; auto. intros. apply ok_visit.
  - intros c y acc1 h1 h2 r1 Hg1 Hy Ely E1. rewrite <- Ely. apply (IH c y acc1 h1 h2 r1); auto.
  - exists (n :: ns). rewrite <- app_assoc. split; [reflexivity|]. split; [exact A|]. split; [exact B|]. constructor; auto.
Qed.
Lemma walk_depth_words M f : forall n x acc h h' r, dataG K M h -> nth_error h n = Some x ->
  walk_depth K f (fun n acc => ret (acc ++ [n])) true n acc h = (h', Ok r) ->
  exists ns, r = acc ++ ns /\ dataG K M h' /\ mono h h' /\ Forall2 (fun c s => at_path h' n s c) ns (words_post (parts K) (Z.to_nat (M - nlevel x))).
Proof.
  induction f as [|f IH]; intros n x acc h h' r Hg Hx; cbn [walk_depth]; [discriminate|].
  assert (Hh : forall h2, mono h h2 -> at_path h2 n EmptyString n) by (intros h2 Hm; destruct (Hm n x Hx) as (x2 & Hx2 & _); econstructor; eauto).
  unfold bindM at 1, get at 1. rewrite Hx. unfold bindM at 1. rewrite (maxlevel_lev K M n h (proj2 (proj1 (proj1 Hg)))), Hx.
  destruct (Z.ltb_spec (nlevel x) M).
  2: { intros E. injection E as <- <-. exists [n]. split; auto. split; auto. split; [apply mono_refl|]. replace (Z.to_nat (M - nlevel x)) with O by lia. cbn. constructor; auto using mono_refl. }
  unfold bindM at 1. destruct (walk_parts K (walk_depth K f (fun n acc => ret (acc ++ [n])) true) true n (parts K) acc h) as [h1 [r1| | |e]] eqn:E; try discriminate.
  intros E1. injection E1 as <- <-. replace (Z.to_nat (M - nlevel x)) with (S (Z.to_nat (M - (nlevel x + 1)))) by lia. cbn [words_post].
  destruct (parts_words M (nlevel x + 1) (fun s => words_post (parts K) (Z.to_nat (M - (nlevel x + 1)))) (walk_depth K f (fun n acc => ret (acc ++ [n])) true) n) with (l := parts K) (x := x) (acc := acc) (h := h) (h' := h1) (r := r1) as (ns & -> & A & B & F); auto.
  - intros c acc1 h2. apply ok_walk_depth; auto. intros. apply ok_pure. reflexivity.
  - intros c y acc1 h2 h3 r2 Hg1 Hy Ely E2. rewrite <- Ely. apply (IH c y acc1 h2 h3 r2); auto.
  - exists (ns ++ [n]). rewrite <- app_assoc. split; [reflexivity|]. split; [exact A|]. split; [exact B|]. apply Forall2_app; auto.
Qed.
End W.
