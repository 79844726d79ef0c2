(** The nodes of a level, in natural and in frequency order. *)
From Coq Require Import Ascii String Sorted Permutation.
From Verif Require Import Base Dwt Multilevel Swt Multidim MultidimProofs MultilevelNd SwtNd SwtNdArgs Packets PacketsInv PacketsPath PacketsPath2 PacketsRead PacketsSpec.

Section Level.
Context {D : Type}.
Variable K : wpclass D.
Hypothesis HK : class_ok K.
Hypothesis Hkeys : forall d cs, fwd K d = Ok cs -> fwd_keys K cs.
Local Notation at_path := (@at_path D).

Fixpoint words (k : nat) : list string :=
  match k with O => [EmptyString] | S k' => flat_map (fun p => map (append p) (words k')) (parts K) end.

(** Trees in which every node has data, and all or none of its subnodes. *)
Definition alld (h : nheap D) : Prop := forall k x, nth_error h k = Some x -> ndat x <> None.
Definition dataG M (h : nheap D) : Prop := fullG K M h /\ alld h.
Lemma data_sub M n part dec h : pv (dataG M) mono h (get_subnode K n part dec).
Proof.
  intros (Hf & Ha). destruct (full_sub K HK Hkeys M n part dec h Hf) as (Hf' & Hm). split; auto. split; auto. clear Hf' Hm.
  unfold get_subnode. destruct (negb _); [exact Ha|]. unfold bindM, get. destruct (nth_error h n) as [x|] eqn:Hx; [|exact Ha].
  destruct (dget (nkids x) part); [exact Ha|]. destruct dec; [|exact Ha]. destruct (ndat x) as [d|] eqn:Hd; [|exact Ha].
  destruct (decompose_made K Hkeys M n x d h (proj2 (proj1 Hf)) Hx Hd) as [(E1 & E2)|(_ & cs & h' & Ef & E & (A1 & (ks & A2 & A3 & A4) & A5 & A6))].
  - destruct (decompose K n h) as [h' [[]| | |e]]; cbn [fst snd] in *; subst; auto; congruence.
  - rewrite E. cbv beta iota zeta. rewrite A2. cbn [fst ret]. intros k y Hy. destruct (Nat.eq_dec k n) as [->|Hn].
    + rewrite A2 in Hy. injection Hy as <-. cbn. congruence.
    + destruct (Nat.ltb_spec k (List.length h)).
      * rewrite A5 in Hy by auto. apply (Ha k y Hy).
      * destruct (A6 k y H Hy) as (p & v & _ & ->). discriminate.
Qed.
Lemma data_max M n h : pv (dataG M) mono h (maxlevel K n).
Proof. intros (Hf & Ha). rewrite (maxlevel_lev K M n h (proj2 (proj1 Hf))). cbn [fst]. split; [split; auto|apply mono_refl]. Qed.
Lemma sub_some M n x part h h' o : dataG M h -> nth_error h n = Some x -> get_subnode K n part true h = (h', Ok o) ->
  exists c, o = Some c.
Proof.
  intros (Hf & Ha) Hx E. pose proof (existsb_part K part) as Ep. unfold get_subnode in E. destruct (part_ok K part); cbn [negb] in E; [|discriminate].
  specialize (Ep eq_refl). unfold bindM, get in E. rewrite Hx in E. destruct (dget (nkids x) part) as [c|] eqn:Ek; [injection E as <- <-; eauto|].
  destruct (ndat x) as [d|] eqn:Hd; [|exfalso; apply (Ha n x Hx Hd)].
  destruct (decompose_made K Hkeys M n x d h (proj2 (proj1 Hf)) Hx Hd) as [(E1 & E2)|(_ & cs & h1 & Ef & Ed & (A1 & (ks & A2 & A3 & A4) & A5 & A6))].
  - destruct (decompose K n h) as [h1 [[]| | |e]]; cbn [snd] in *; congruence.
  - rewrite Ed, A2 in E. injection E as <- <-. cbn [nkids]. destruct (Hkeys d cs Ef) as (_ & Hi). apply Hi in Ep. apply in_map_iff in Ep.
    destruct Ep as ((q & v) & <- & Hin). destruct (A4 q v Hin) as (c & _ & Ec & _). cbn. eauto.
Qed.

Lemma at_trans h n s c t e : at_path h n s c -> at_path h c t e -> at_path h n (append s t) e.
Proof. induction 1 as [n x Hx|n x part k s d Hx Hk Hat IH]; intros H; cbn [append]; auto. rewrite append_assoc_s. econstructor; eauto. Qed.
Lemma at_mono h h' n s c : mono h h' -> at_path h n s c -> at_path h' n s c.
Proof. intros H. apply at_keeps. apply mono_keeps. auto. Qed.

Lemma parts_level M lv W sub n : (forall c acc h, ok K h (sub c acc)) ->
  (forall c y acc h h' r, dataG M h -> nth_error h c = Some y -> nlevel y = lv -> sub c acc h = (h', Ok r) ->
     exists ns, r = acc ++ ns /\ dataG M h' /\ mono h h' /\ Forall2 (fun e s => at_path h' c s e) ns W) ->
  forall l x acc h h' r, dataG M h -> nth_error h n = Some x -> nlevel x + 1 = lv -> walk_parts K sub true n l acc h = (h', Ok r) ->
  exists ns, r = acc ++ ns /\ dataG M h' /\ mono h h' /\ Forall2 (fun e s => at_path h' n s e) ns (flat_map (fun p => map (append p) W) l).
Proof.
  intros Ho Hs. induction l as [|p l IH]; intros x acc h h' r Hg Hx Hlv; cbn [walk_parts flat_map].
  { intros E. injection E as <- <-. exists []. rewrite app_nil_r. split; auto. split; auto. split; [apply mono_refl|constructor]. }
  unfold bindM at 1. pose proof (data_sub M n p true h Hg) as (Hg1 & M1). pose proof (sub_some M n x p h) as So. pose proof (get_subnode_slot K n p true h) as Sl.
  destruct (ok_get_subnode K HK n p true h (proj1 (proj1 (proj1 Hg)))) as (_ & _ & G1).
  destruct (get_subnode K n p true h) as [h1 [o| | |e]]; cbn [fst] in *; try discriminate.
  destruct (So h1 o Hg Hx eq_refl) as (c & ->). destruct (Sl h1 c eq_refl) as (Hp & x1 & Hx1 & Hc).
  destruct (G1 n x Hx) as (x1' & Hx1' & _ & El1). assert (x1' = x1) by congruence. subst x1'.
  destruct (proj1 (proj1 (proj1 Hg1)) n x1 Hx1) as (_ & _ & _ & A4 & _). destruct (A4 p c Hc) as (_ & _ & y & Hy & _ & _ & Hyl).
  unfold bindM. destruct (sub c acc h1) as [h2 [acc2| | |e]] eqn:Es; try discriminate.
  destruct (Hs c y acc h1 h2 acc2 Hg1 Hy ltac:(lia) Es) as (ns1 & -> & Hg2 & M2 & F2).
  destruct (Ho c acc h1 (proj1 (proj1 (proj1 Hg1)))) as (_ & _ & G2). rewrite Es in G2. cbn [fst] in G2.
  destruct (G2 n x1 Hx1) as (x2 & Hx2 & _ & El2). intros E.
  destruct (IH x2 _ h2 h' r Hg2 Hx2 ltac:(lia) E) as (ns2 & -> & Hg3 & M3 & F3).
  exists (ns1 ++ ns2). rewrite app_assoc. split; auto. split; auto. split; [eapply mono_trans; [exact M1|]; eapply mono_trans; eauto|].
  assert (Hn : at_path h' n p c).
  { apply (at_mono h1); [eapply mono_trans; eauto|]. rewrite <- (append_nil_r p). econstructor; eauto. econstructor; eauto. }
  apply Forall2_app; auto. clear - F2 M3 Hn. induction F2; cbn; constructor; auto. eapply at_trans; [exact Hn|]. apply (at_mono h2); auto.
Qed.
Lemma walk_level M L f : L <= M -> forall n x acc h h' r, dataG M h -> nth_error h n = Some x -> nlevel x <= L ->
  walk K f (level_collect L) true n acc h = (h', Ok r) ->
  exists ns, r = acc ++ ns /\ dataG M h' /\ mono h h' /\ Forall2 (fun c s => at_path h' n s c) ns (words (Z.to_nat (L - nlevel x))).
Proof.
  intros HL. induction f as [|f IH]; intros n x acc h h' r Hg Hx Hlv; cbn [walk]; [discriminate|].
  unfold level_collect at 1. unfold bindM at 1 2, get at 1. rewrite Hx. destruct (Z.eqb_spec (nlevel x) L) as [El|El].
  { cbn. intros E. injection E as <- <-. exists [n]. split; auto. split; auto. split; [apply mono_refl|]. rewrite El, Z.sub_diag. cbn.
    constructor; [econstructor; eauto|constructor]. }
  cbn [ret fst snd negb]. unfold bindM, get. rewrite Hx. rewrite (maxlevel_lev K M n h (proj2 (proj1 (proj1 Hg)))), Hx.
  destruct (Z.ltb_spec (nlevel x) M); [cbn [negb]|lia].
  replace (Z.to_nat (L - nlevel x)) with (S (Z.to_nat (L - (nlevel x + 1)))) by lia. cbn [words].
  apply (parts_level M (nlevel x + 1)) with (x := x); auto.
  - intros c acc1 h1. apply ok_walk; auto. intros. apply ok_level_collect.
  - intros c y acc1 h1 h2 r1 Hg1 Hy Ely E. rewrite <- Ely. apply (IH c y acc1 h1 h2 r1); auto. lia.
Qed.
Theorem level_nodes_words M L f n x h h' r : 0 <= nlevel x <= L -> dataG M h -> nth_error h n = Some x ->
  level_nodes K f n L true h = (h', Ok r) ->
  L <= M /\ dataG M h' /\ mono h h' /\ Forall2 (fun c s => at_path h' n s c) r (words (Z.to_nat (L - nlevel x))).
Proof.
  intros Hl Hg Hx. unfold level_nodes, bindM. rewrite (maxlevel_lev K M n h (proj2 (proj1 (proj1 Hg)))), Hx.
  destruct (Z.ltb_spec M L); [discriminate|]. intros E.
  destruct (walk_level M L f H n x [] h h' r Hg Hx ltac:(lia) E) as (ns & -> & H1 & H2 & H3). cbn [List.app]. auto.
Qed.

(** The paths of nodes. *)
Definition paths (h : nheap D) (ns : list nat) : list (option string) := map (fun c => option_map npath (nth_error h c)) ns.
Lemma paths_at h n x r ws : tree_ok K h -> nth_error h n = Some x -> npath x = EmptyString ->
  Forall2 (fun c s => at_path h n s c) r ws -> paths h r = map Some ws.
Proof.
  intros Ht Hx Hp. induction 1 as [|c s r ws Hc _ IH]; [reflexivity|]. unfold paths in *. cbn [map]. rewrite IH.
  destruct (at_path_node K HK h n s c Ht Hc x Hx) as (y & Hy & E & _). rewrite Hy. cbn. rewrite E, Hp. reflexivity.
Qed.

(** In frequency order: the same nodes in the order of the Gray code. *)
Lemma mapMM_paths r ws h : paths h r = map Some ws -> mapMM (@node_path D) r h = (h, Ok ws).
Proof.
  revert ws. induction r as [|c r IH]; intros [|s ws] H; unfold paths in H; cbn [map] in H; try discriminate; [reflexivity|].
  injection H as H1 H2. cbn [mapMM]. unfold bindM at 1. unfold node_path at 1, bindM at 1, get at 1.
  destruct (nth_error h c) as [y|]; [|discriminate]. cbn in H1. injection H1 as <-.
  cbn [ret]. unfold bindM. rewrite (IH ws H2). reflexivity.
Qed.
Lemma dset_fresh {A} (d : dict A) k v : ~ In k (map fst d) -> dset d k v = d ++ [(k, v)].
Proof.
  induction d as [|[j u] d IH]; cbn; intros H; auto. destruct (String.eqb_spec j k); [subst; tauto|]. rewrite IH; auto.
Qed.
Lemma fold_dset {A} (l : list (string * A)) d : NoDup (map fst d ++ map fst l) -> fold_left (fun d '(p, c) => dset d p c) l d = d ++ l.
Proof.
  revert d. induction l as [|[k v] l IH]; intros d H; cbn [fold_left map fst] in *; [symmetry; apply app_nil_r|].
  pose proof (NoDup_remove_2 _ _ _ H) as Hk. rewrite dset_fresh by (rewrite in_app_iff in Hk; tauto).
  rewrite IH, <- app_assoc; [reflexivity|]. rewrite map_app. cbn. rewrite <- app_assoc. exact H.
Qed.
Lemma flat_map_found (d : dict nat) h g : (forall p, In p g -> exists c y, dget d p = Some c /\ nth_error h c = Some y /\ npath y = p) ->
  paths h (flat_map (fun p => match dget d p with Some c => [c] | None => [] end) g) = map Some g.
Proof.
  induction g as [|p g IH]; intros H; cbn [flat_map map]; auto.
  destruct (H p ltac:(cbn; auto)) as (c & y & E1 & E2 & E3). rewrite E1. cbn. rewrite E2. cbn. rewrite E3. f_equal.
  apply IH. intros q Hq. apply H. cbn. auto.
Qed.
Lemma flat_map_perm (d : dict nat) g : NoDup (map fst d) -> Permutation g (map fst d) ->
  Permutation (flat_map (fun p => match dget d p with Some c => [c] | None => [] end) g) (map snd d).
Proof.
  intros Hnd Hp. rewrite Hp.
  replace (map snd d) with (flat_map (fun p => match dget d p with Some c => [c] | None => [] end) (map fst d)); auto.
  assert (Hs : forall l, (forall k v, In (k, v) l -> dget d k = Some v) ->
     flat_map (fun p => match dget d p with Some c => [c] | None => [] end) (map fst l) = map snd l).
  { induction l as [|[k v] l IH]; intros H; cbn; auto. rewrite (H k v) by (cbn; auto). cbn. f_equal. apply IH. intros. apply H. cbn. auto. }
  apply Hs. intros k v Hin. apply dget_in; auto.
Qed.
Lemma combine_fst {A B} (l : list A) (m : list B) : List.length l = List.length m -> map fst (combine l m) = l.
Proof. revert m. induction l; intros [|b m] H; cbn in *; auto; try discriminate. f_equal. auto. Qed.
Lemma combine_snd {A B} (l : list A) (m : list B) : List.length l = List.length m -> map snd (combine l m) = m.
Proof. revert m. induction l; intros [|b m] H; cbn in *; auto; try discriminate. f_equal. auto. Qed.

Theorem get_level_freq f n level h h' r ws : level_nodes K f n level true h = (h', Ok r) -> paths h' r = map Some ws -> NoDup ws ->
  Permutation (get_graycode_order level "a" "d") ws ->
  exists q, get_level K f n level true true h = (h', Ok q) /\ Permutation q r /\ paths h' q = map Some (get_graycode_order level "a" "d").
Proof.
  intros E Hp Hnd Hg. unfold get_level, bindM. rewrite E. cbn [negb]. rewrite (mapMM_paths r ws h' Hp).
  assert (El : List.length ws = List.length r) by (apply (f_equal (@List.length _)) in Hp; unfold paths in Hp; rewrite !map_length in Hp; auto).
  eexists. split; [reflexivity|]. rewrite fold_dset by (cbn; rewrite combine_fst; auto). cbn [List.app].
  split.
  { pose proof (flat_map_perm (combine ws r) (get_graycode_order level "a" "d")) as P. rewrite combine_snd, combine_fst in P by auto. auto. }
  apply flat_map_found. intros p Hin. assert (Hw : In p ws) by (eapply Permutation_in; eauto).
  clear - Hw Hp Hnd El. revert r Hp El. induction ws as [|s ws IH]; intros [|c r] Hp El; cbn in *; try discriminate; [tauto|].
  injection Hp as H1 H2. inversion Hnd as [|? ? N1 N2]; subst. destruct (String.eqb_spec s p) as [->|Hs].
  - destruct (nth_error h' c) as [y|] eqn:Ey; [|discriminate]. cbn in H1. injection H1 as H1. exists c, y. auto.
  - destruct Hw as [Hw|Hw]; [congruence|]. apply IH; auto.
Qed.
End Level.

(** ** The natural order *)
Lemma ad_keys_words n : forall s, In s (ad_keys n) <-> String.length s = n /\ over "a" "d" s.
Proof.
  induction n as [|n IH]; intros s; cbn [ad_keys].
  - split; [intros [<-|[]]; cbn; auto|]. intros (H & _). destruct s; [cbn; auto|discriminate].
  - rewrite in_app_iff, !in_map_iff. split.
    + intros [(t & <- & Ht)|(t & <- & Ht)]; apply IH in Ht; destruct Ht as (H1 & H2); cbn; rewrite H1; auto.
    + destruct s as [|c s]; cbn; intros (H1 & H2); [discriminate|]. injection H1 as H1. destruct H2 as ([->| ->] & H2); [left|right]; exists s; split; auto; apply IH; auto.
Qed.
Lemma ltb_cons c s t : String.ltb (String c s) (String c t) = String.ltb s t.
Proof.
  unfold String.ltb. cbn [String.compare]. unfold Ascii.compare. rewrite N.compare_refl. reflexivity.
Qed.
Lemma ssorted_map_cons c l : StronglySorted (fun s t => String.ltb s t = true) l -> StronglySorted (fun s t => String.ltb s t = true) (map (String c) l).
Proof.
  induction 1 as [|s l H IH F]; cbn; constructor; auto. rewrite Forall_map. eapply Forall_impl; [|exact F]. intros t Ht. cbn beta. rewrite ltb_cons. auto.
Qed.
Lemma ssorted_app {A} (R : A -> A -> Prop) l m : StronglySorted R l -> StronglySorted R m -> (forall a b, In a l -> In b m -> R a b) -> StronglySorted R (l ++ m).
Proof.
  induction 1 as [|a l H IH F]; cbn; intros Hm Hr; auto. constructor; [apply IH; auto|]. apply Forall_app. split; auto.
  apply Forall_forall. intros b Hb. apply Hr; auto.
Qed.
Theorem ad_keys_lex n : lexicographic n (ad_keys n).
Proof.
  split; [|apply ad_keys_words]. induction n as [|n IH]; cbn [ad_keys]; [repeat constructor|].
  apply ssorted_app; [apply ssorted_map_cons; auto|apply ssorted_map_cons; auto|].
  intros s t Hs Ht. apply in_map_iff in Hs, Ht. destruct Hs as (s' & <- & _), Ht as (t' & <- & _). reflexivity.
Qed.
Lemma words_ad {D} (K : wpclass D) : parts K = ["a"; "d"]%string -> forall k, words K k = ad_keys k.
Proof.
  intros H. induction k as [|k IH]; cbn [words ad_keys]; auto. rewrite H. cbn [flat_map]. rewrite IH, app_nil_r. reflexivity.
Qed.
Lemma ltb_irrefl s : String.ltb s s = false.
Proof. unfold String.ltb. induction s as [|c s IH]; cbn; auto. unfold Ascii.compare. rewrite N.compare_refl. auto. Qed.
Lemma ad_keys_nodup n : NoDup (ad_keys n).
Proof.
  destruct (ad_keys_lex n) as (H & _). induction H as [|s l H IH F]; constructor; auto. intros Hin.
  rewrite Forall_forall in F. pose proof (F s Hin) as E. cbv beta in E. rewrite ltb_irrefl in E. discriminate.
Qed.

(** ** Gray code *)
Definition gstep (x y : string) (l : list string) : list string := map (append x) l ++ map (append y) (rev l).
Lemma gray_step x y n l : gray_loop x y n (gstep x y l) = gstep x y (gray_loop x y n l).
Proof. revert l. induction n as [|n IH]; intros l; cbn [gray_loop]; auto. exact (IH (gstep x y l)). Qed.
Fixpoint gray (n : nat) : list string := match n with O => ["a"; "d"]%string | S n' => gstep "a" "d" (gray n') end.
Lemma gray_loop_gray n : gray_loop "a" "d" n ["a"; "d"]%string = gray n.
Proof. induction n as [|n IH]; cbn [gray_loop gray]; auto. change (map _ _ ++ _) with (gstep "a" "d" ["a"; "d"]%string). rewrite gray_step, IH. reflexivity. Qed.
Lemma gray_nodup n : NoDup (gray n).
Proof.
  assert (Hinj : forall c l, NoDup l -> NoDup (map (append (String c EmptyString)) l)).
  { intros c l. apply FinFun.Injective_map_NoDup. intros s t H. cbn in H. congruence. }
  induction n as [|n IH]; cbn [gray]; [repeat constructor; cbn; intuition discriminate|].
  assert (Happ : forall (l m : list string), NoDup l -> NoDup m -> (forall s, In s l -> ~ In s m) -> NoDup (l ++ m)).
  { induction l as [|a l IHl]; intros m H1 H2 H3; cbn; auto. inversion H1; subst. constructor; [rewrite in_app_iff; intros [H|H]; auto; apply (H3 a); cbn; auto|].
    apply IHl; auto. intros s Hs. apply H3. cbn. auto. }
  apply Happ; auto; [apply Hinj, NoDup_rev; auto|]. intros s Hs Ht. apply in_map_iff in Hs, Ht.
  destruct Hs as (u & <- & _), Ht as (v & E & _). discriminate.
Qed.
Lemma gray_words n : forall s, In s (gray n) <-> String.length s = S n /\ over "a" "d" s.
Proof.
  induction n as [|n IH]; intros s; cbn [gray].
  - split; [intros [<-|[<-|[]]]; cbn; auto|]. intros (H1 & H2). destruct s as [|c [|e s]]; try discriminate.
    destruct H2 as ([->| ->] & _); cbn; auto.
  - unfold gstep. rewrite in_app_iff, !in_map_iff. split.
    + intros [(t & <- & Ht)|(t & <- & Ht)]; [|apply in_rev in Ht]; apply IH in Ht; destruct Ht as (H1 & H2); cbn; rewrite H1; auto.
    + destruct s as [|c s]; cbn; intros (H1 & H2); [discriminate|]. injection H1 as H1.
      destruct H2 as ([->| ->] & H2); [left|right]; exists s; (split; [reflexivity|]); [|apply in_rev; rewrite rev_involutive]; apply IH; auto.
Qed.
Theorem gray_perm n : Permutation (gray n) (ad_keys (S n)).
Proof. apply NoDup_Permutation; [apply gray_nodup|apply ad_keys_nodup|]. intros s. rewrite gray_words, ad_keys_words. tauto. Qed.

Lemma chain_app {A} (R : A -> A -> Prop) l a m b : chain R (l ++ [a]) -> chain R (b :: m) -> R a b -> chain R ((l ++ [a]) ++ b :: m).
Proof.
  induction l as [|c l IH]; intros H1 H2 H3.
  - cbn [List.app]. cbn [chain]. split; auto.
  - destruct l as [|e l]; cbn [List.app] in *; destruct H1 as (H1 & H1'); split; auto.
Qed.
Lemma chain_snoc {A} (R : A -> A -> Prop) l a b : chain R (l ++ [a]) -> R a b -> chain R ((l ++ [a]) ++ [b]).
Proof. intros. apply chain_app; cbn; auto. Qed.
Lemma chain_rev {A} (R : A -> A -> Prop) (Rs : forall a b, R a b -> R b a) l : chain R l -> chain R (rev l).
Proof.
  induction l as [|a l IH]; cbn [rev]; auto. intros H. destruct l as [|b l]; [cbn; auto|]. destruct H as (H1 & H2).
  specialize (IH H2). cbn [rev] in *. apply chain_snoc; auto.
Qed.
Lemma chain_map {A B} (R : A -> A -> Prop) (S : B -> B -> Prop) (f : A -> B) l : (forall a b, R a b -> S (f a) (f b)) -> chain R l -> chain S (map f l).
Proof.
  intros Hf. induction l as [|a l IH]; auto. destruct l as [|b l]; [cbn; auto|]. intros (H1 & H2). cbn [map] in *. split; auto.
Qed.
Lemma one_letter_sym s t : one_letter s t -> one_letter t s.
Proof. intros (u & c & d & v & -> & -> & H). exists u, d, c, v. auto. Qed.
Lemma one_letter_cons e s t : one_letter s t -> one_letter (append (String e EmptyString) s) (append (String e EmptyString) t).
Proof. intros (u & c & d & v & -> & -> & H). exists (String e u), c, d, v. auto. Qed.
Fixpoint rep (n : nat) : string := match n with O => EmptyString | S n' => String "a" (rep n') end.
Lemma gray_shape n : exists m z, gray n = m ++ [z] /\ exists t, gray n = rep (S n) :: t.
Proof.
  assert (H : exists t, gray n = rep (S n) :: t).
  { induction n as [|n (t & IH)]; cbn [gray]; [exists ["d"%string]; reflexivity|]. rewrite IH. eexists. reflexivity. }
  destruct H as (t & E). assert (Hne : gray n <> []) by congruence. destruct (exists_last Hne) as (m & z & Em). exists m, z. split; auto. exists t. auto.
Qed.
Theorem gray_chain n : chain one_letter (gray n).
Proof.
  induction n as [|n IH]; cbn [gray].
  - split; [|cbn; auto]. exists EmptyString, "a"%char, "d"%char, EmptyString. repeat split. discriminate.
  - unfold gstep. destruct (gray_shape n) as (m & z & Em & _). rewrite Em in IH |- *. rewrite rev_app_distr. cbn [rev List.app map]. rewrite map_app. cbn [map].
    apply chain_app.
    + change [append "a" z] with (map (append "a") [z]). rewrite <- map_app. apply (chain_map one_letter); auto. intros a b. apply one_letter_cons.
    + change (chain one_letter (map (append "d") (z :: rev m))). apply (chain_map one_letter); [intros a b; apply one_letter_cons|].
      apply (chain_rev one_letter one_letter_sym) in IH. rewrite rev_app_distr in IH. exact IH.
    + exists EmptyString, "a"%char, "d"%char, z. repeat split. discriminate.
Qed.
Theorem graycode_spec L : 1 <= L -> let g := get_graycode_order L "a" "d" in
  Permutation g (ad_keys (Z.to_nat L)) /\ chain one_letter g /\ hd_error g = Some (rep (Z.to_nat L)).
Proof.
  intros HL. cbv zeta. unfold get_graycode_order. rewrite gray_loop_gray. replace (Z.to_nat L) with (S (Z.to_nat (L - 1))) by lia.
  split; [apply gray_perm|]. split; [apply gray_chain|]. destruct (gray_shape (Z.to_nat (L - 1))) as (_ & _ & _ & t & E). rewrite E. reflexivity.
Qed.
