(** The nodes of a level of the 2-D and n-D packets. *)
From Coq Require Import Ascii String Sorted Permutation.
From Verif Require Import Base Spec Dwt Multilevel Swt Nd Multidim MultidimProofs MultidimFacts MultilevelNd SwtNd SwtNdArgs Packets PacketsInv PacketsPath PacketsPath2 PacketsRead PacketsSpec PacketsLevel PacketsClasses PacketsFacts PacketsFacts2.

(** ** Specification *)
(** The order a, h, v, d of the parts, and the lexicographic order it gives. *)
Definition rank4 (c : ascii) : nat :=
  (if Ascii.eqb c "a" then 0 else if Ascii.eqb c "h" then 1 else if Ascii.eqb c "v" then 2 else 3)%char%nat.
Definition before4 (s t : string) : Prop :=
  exists u c d v w, s = append u (String c v) /\ t = append u (String d w) /\ (rank4 c < rank4 d)%nat.
Definition lexicographic4 (L : nat) (l : list string) : Prop :=
  StronglySorted before4 l /\ forall s, In s l <-> String.length s = L /\ over4 s.
(** The part with low-pass (l) or high-pass (h) rows and columns, letter by letter. *)
Definition part_of (r c : ascii) : ascii :=
  (if Ascii.eqb r "l" then if Ascii.eqb c "l" then "a" else "v" else if Ascii.eqb c "l" then "h" else "d")%char.
Fixpoint path_of (r c : string) : string :=
  match r, c with String a r, String b c => String (part_of a b) (path_of r c) | _, _ => EmptyString end.

(** ** Any class *)
Section Any.
Context {D : Type}.
Variable K : wpclass D.
Hypothesis HK : class_ok K.
Hypothesis Hkeys : forall d cs, fwd K d = Ok cs -> fwd_keys K cs.

Theorem level_paths d M ops f L h r : 0 <= M -> 0 <= L -> forallb reading ops = true ->
  level_nodes K f 0 L true (run K [root_node K (Some d) (Some M)] ops) = (h, Ok r) ->
  paths h r = map Some (words K (Z.to_nat L)).
Proof.
  intros HM HL Hr E. set (h0 := run K _ ops) in E.
  assert (Hd : dataG K M h0) by (apply run_data; auto; apply root_data; auto).
  destruct (root_grow K HK (Some d) (Some M) ops) as (x & Hx & Ep & El). fold h0 in Hx.
  destruct (level_nodes_words K HK Hkeys M L f 0 x h0 h r ltac:(lia) Hd Hx E) as (_ & Hd' & Hm & HF).
  rewrite El, Z.sub_0_r in HF. destruct (Hm 0%nat x Hx) as (x' & Hx' & _).
  assert (Px : npath x' = EmptyString).
  { pose proof (ok_level_nodes K HK f 0%nat L true h0 (proj1 (proj1 (proj1 Hd)))) as (_ & _ & G).
    rewrite E in G. cbn [fst] in G. destruct (G 0%nat x Hx) as (x2 & Hx2 & E2 & _). congruence. }
  apply (paths_at K HK h 0 x'); auto. apply (proj1 (proj1 (proj1 Hd'))).
Qed.
Theorem packet_max_level d M ops n x : 0 <= M -> forallb reading ops = true -> nth_error (run K [root_node K (Some d) (Some M)] ops) n = Some x ->
  maxlevel K n (run K [root_node K (Some d) (Some M)] ops) = (run K [root_node K (Some d) (Some M)] ops, Ok (Some M)).
Proof.
  intros HM Hr Hx. assert (Hd : dataG K M (run K [root_node K (Some d) (Some M)] ops)) by (apply run_data; auto; apply root_data; auto).
  rewrite (maxlevel_lev K M n _ (proj2 (proj1 (proj1 Hd)))), Hx. reflexivity.
Qed.
End Any.

(** ** Natural order *)
Lemma words4_words {D} (K : wpclass D) : parts K = ["a"; "h"; "v"; "d"]%string -> forall k s, In s (words K k) <-> String.length s = k /\ over4 s.
Proof.
  intros H k s. split.
  - revert s. induction k as [|k IH]; intros s; cbn [words]; [intros [<-|[]]; cbn; auto|].
    rewrite in_flat_map, H. intros (p & Hp & Hs). apply in_map_iff in Hs. destruct Hs as (t & <- & Ht). apply IH in Ht. destruct Ht as (H1 & H2).
    destruct Hp as [<-|[<-|[<-|[<-|[]]]]]; cbn; rewrite H1; auto 6.
  - intros (<- & Ho). apply words_over4; auto.
Qed.
Lemma before4_cons c s t : before4 s t -> before4 (append (String c EmptyString) s) (append (String c EmptyString) t).
Proof. intros (u & a & b & v & w & -> & -> & H). exists (String c u), a, b, v, w. auto. Qed.
Lemma ssorted_map {A B} (R : A -> A -> Prop) (S : B -> B -> Prop) (f : A -> B) l : (forall a b, R a b -> S (f a) (f b)) ->
  StronglySorted R l -> StronglySorted S (map f l).
Proof. intros Hf. induction 1 as [|a l H IH F]; cbn; constructor; auto. rewrite Forall_map. eapply Forall_impl; [|exact F]. auto. Qed.
Theorem words4_lex {D} (K : wpclass D) : parts K = ["a"; "h"; "v"; "d"]%string -> forall k, lexicographic4 k (words K k).
Proof.
  intros H k. split; [|apply words4_words; auto]. induction k as [|k IH]; cbn [words]; [repeat constructor|].
  rewrite H. cbn [flat_map]. rewrite app_nil_r.
  assert (Hs : forall p, StronglySorted before4 (map (append (String p EmptyString)) (words K k))).
  { intros p. apply (ssorted_map before4); auto. intros a b. apply before4_cons. }
  assert (Hc : forall p q s t, (rank4 p < rank4 q)%nat -> In s (map (append (String p EmptyString)) (words K k)) ->
    In t (map (append (String q EmptyString)) (words K k)) -> before4 s t).
  { intros p q s t Hr Hs' Ht. apply in_map_iff in Hs', Ht. destruct Hs' as (s' & <- & _), Ht as (t' & <- & _). exists EmptyString, p, q, s', t'. auto. }
  repeat (apply ssorted_app; [apply Hs| |intros s t Is It; repeat (apply in_app_iff in It; destruct It as [It|It]); (eapply Hc; [|exact Is|exact It]; cbn; lia)]).
  apply Hs.
Qed.
Lemma words4_count {D} (K : wpclass D) : parts K = ["a"; "h"; "v"; "d"]%string -> forall k, Z.of_nat (List.length (words K k)) = 4 ^ Z.of_nat k.
Proof.
  intros H. induction k as [|k IH]; cbn [words]; [reflexivity|]. rewrite H. cbn [flat_map]. rewrite app_nil_r, !app_length, !map_length, !Nat2Z.inj_add, IH.
  replace (Z.of_nat (S k)) with (Z.of_nat k + 1) by lia. rewrite Z.pow_add_r by lia. lia.
Qed.

Lemma ad_keys_app n m : flat_map (fun p => map (append p) (ad_keys m)) (ad_keys n) = ad_keys (n + m).
Proof.
  induction n as [|n IH]; cbn [ad_keys Nat.add flat_map]; [rewrite app_nil_r; apply map_id|].
  rewrite flat_map_app. rewrite <- IH. f_equal; clear; induction (ad_keys n) as [|p l IHl]; cbn [flat_map map]; auto; rewrite IHl, map_app, map_map; reflexivity.
Qed.
Lemma words_adn {D} (K : wpclass D) n : parts K = ad_keys n -> forall k, words K k = ad_keys (n * k).
Proof.
  intros H. induction k as [|k IH]; cbn [words]; [rewrite Nat.mul_0_r; reflexivity|]. rewrite H, IH, ad_keys_app. f_equal. lia.
Qed.

(** ** Gray code over any two letters *)
Section Gray.
Variables x y : ascii.
Hypothesis Hxy : x <> y.
Local Notation X := (String x EmptyString).
Local Notation Y := (String y EmptyString).
Fixpoint gray2 (n : nat) : list string := match n with O => [X; Y] | S n' => gstep X Y (gray2 n') end.
Lemma gray2_loop n : gray_loop X Y n [X; Y] = gray2 n.
Proof. induction n as [|n IH]; cbn [gray_loop gray2]; auto. change (map _ _ ++ _) with (gstep X Y [X; Y]). rewrite gray_step, IH. reflexivity. Qed.
Lemma gray2_nodup n : NoDup (gray2 n).
Proof.
  assert (Hinj : forall c l, NoDup l -> NoDup (map (append (String c EmptyString)) l)).
  { intros c l. apply FinFun.Injective_map_NoDup. intros s t H. cbn in H. congruence. }
  induction n as [|n IH]; cbn [gray2]; [repeat constructor; cbn; intuition congruence|].
  assert (Happ : forall (l m : list string), NoDup l -> NoDup m -> (forall s, In s l -> ~ In s m) -> NoDup (l ++ m)).
  { induction l as [|a l IHl]; intros m H1 H2 H3; cbn; auto. inversion H1; subst. constructor; [rewrite in_app_iff; intros [H|H]; auto; apply (H3 a); cbn; auto|].
    apply IHl; auto. intros s Hs. apply H3. cbn. auto. }
  apply Happ; auto; [apply Hinj, NoDup_rev; auto|]. intros s Hs Ht. apply in_map_iff in Hs, Ht.
  destruct Hs as (u & <- & _), Ht as (v & E & _). cbn in E. congruence.
Qed.
Lemma gray2_words n : forall s, In s (gray2 n) <-> String.length s = S n /\ over x y s.
Proof.
  induction n as [|n IH]; intros s; cbn [gray2].
  - split; [intros [<-|[<-|[]]]; cbn; auto|]. intros (H1 & H2). destruct s as [|c [|e s]]; try discriminate.
    destruct H2 as ([->| ->] & _); cbn; auto.
  - unfold gstep. rewrite in_app_iff, !in_map_iff. split.
    + intros [(t & <- & Ht)|(t & <- & Ht)]; [|apply in_rev in Ht]; apply IH in Ht; destruct Ht as (H1 & H2); cbn; rewrite H1; auto.
    + destruct s as [|c s]; cbn; intros (H1 & H2); [discriminate|]. injection H1 as H1.
      destruct H2 as ([->| ->] & H2); [left|right]; exists s; (split; [reflexivity|]); [|apply in_rev; rewrite rev_involutive]; apply IH; auto.
Qed.
Fixpoint rep2 (n : nat) : string := match n with O => EmptyString | S n' => String x (rep2 n') end.
Lemma gray2_shape n : exists m z, gray2 n = m ++ [z] /\ exists t, gray2 n = rep2 (S n) :: t.
Proof.
  assert (H : exists t, gray2 n = rep2 (S n) :: t).
  { induction n as [|n (t & IH)]; cbn [gray2]; [exists [Y]; reflexivity|]. rewrite IH. eexists. reflexivity. }
  destruct H as (t & E). assert (Hne : gray2 n <> []) by congruence. destruct (exists_last Hne) as (m & z & Em). exists m, z. split; auto. exists t. auto.
Qed.
Theorem gray2_chain n : chain one_letter (gray2 n).
Proof.
  induction n as [|n IH]; cbn [gray2].
  - split; [|cbn; auto]. exists EmptyString, x, y, EmptyString. repeat split. auto.
  - unfold gstep. destruct (gray2_shape n) as (m & z & Em & _). rewrite Em in IH |- *. rewrite rev_app_distr. cbn [rev List.app map]. rewrite map_app. cbn [map].
    apply chain_app.
    + change [append X z] with (map (append X) [z]). rewrite <- map_app. apply (chain_map one_letter); auto. intros a b. apply one_letter_cons.
    + change (chain one_letter (map (append Y) (z :: rev m))). apply (chain_map one_letter); [intros a b; apply one_letter_cons|].
      apply (chain_rev one_letter one_letter_sym) in IH. rewrite rev_app_distr in IH. exact IH.
    + exists EmptyString, x, y, z. repeat split. auto.
Qed.
(** All words of length [L], each once, neighbours one letter apart, starting
    with the word of [x] only. *)
Theorem graycode2 L : 1 <= L -> let g := get_graycode_order L X Y in
  NoDup g /\ (forall s, In s g <-> String.length s = Z.to_nat L /\ over x y s) /\ chain one_letter g /\ hd_error g = Some (rep2 (Z.to_nat L)).
Proof.
  intros HL. cbv zeta. unfold get_graycode_order. rewrite gray2_loop. replace (Z.to_nat L) with (S (Z.to_nat (L - 1))) by lia.
  split; [apply gray2_nodup|]. split; [apply gray2_words|]. split; [apply gray2_chain|].
  destruct (gray2_shape (Z.to_nat (L - 1))) as (_ & _ & _ & t & E). rewrite E. reflexivity.
Qed.
End Gray.

(** ** Rows and columns *)
Lemma expand_over4 s : over4 s -> exists r c, expand_2d s = Ok (r, c) /\ path_of r c = s /\
  String.length r = String.length s /\ String.length c = String.length s /\ over "l" "h" r /\ over "l" "h" c.
Proof.
  induction s as [|a s IH]; intros H; [exists EmptyString, EmptyString; cbn; auto 6|]. destruct H as (Ha & H).
  destruct (IH H) as (r & c & E & Ep & L1 & L2 & O1 & O2).
  destruct Ha as [->|[->|[->| ->]]]; cbn [expand_2d Ascii.eqb Bool.eqb bind]; rewrite E; cbn [bind];
    eexists; eexists; (split; [reflexivity|]); cbn; rewrite Ep, L1, L2; auto 8.
Qed.
Lemma path_expand r c : String.length r = String.length c -> over "l" "h" r -> over "l" "h" c -> expand_2d (path_of r c) = Ok (r, c) /\ over4 (path_of r c) /\ String.length (path_of r c) = String.length r.
Proof.
  revert c. induction r as [|a r IH]; intros [|b c] HL Hr Hc; try discriminate; [cbn; auto|]. injection HL as HL.
  destruct Hr as (Ha & Hr), Hc as (Hb & Hc). destruct (IH c HL Hr Hc) as (E & O & L).
  destruct Ha as [->| ->], Hb as [->| ->]; cbn -[expand_2d]; cbn [expand_2d Ascii.eqb Bool.eqb bind]; rewrite E; cbn [bind]; cbn; rewrite L; auto 8.
Qed.

Section Grid.
Definition put2 (d : dict (dict nat)) (e : string * string * nat) : dict (dict nat) :=
  let '((row, col), c) := e in dset d row (dset (match dget d row with Some r => r | None => [] end) col c).
Definition look2 (d : dict (dict nat)) (r c : string) : option nat := match dget d r with Some row => dget row c | None => None end.
Lemma look2_put d r c n r' c' : look2 (put2 d ((r, c), n)) r' c' = if String.eqb r r' && String.eqb c c' then Some n else look2 d r' c'.
Proof.
  unfold look2, put2. rewrite dget_dset. destruct (String.eqb_spec r r') as [<-|]; cbn [andb]; auto. rewrite dget_dset.
  destruct (String.eqb c c'); auto. destruct (dget d r); reflexivity.
Qed.
Lemma look2_other l : forall d r c, ~ In (r, c) (map fst l) -> look2 (fold_left put2 l d) r c = look2 d r c.
Proof.
  induction l as [|[[r0 c0] n] l IH]; intros d r c H; cbn [fold_left]; auto. cbn [map fst In] in H. rewrite IH by tauto. rewrite look2_put.
  destruct (String.eqb_spec r0 r) as [->|]; cbn [andb]; auto. destruct (String.eqb_spec c0 c) as [->|]; auto. tauto.
Qed.
Lemma look2_in l : forall d r c n, NoDup (map fst l) -> In ((r, c), n) l -> look2 (fold_left put2 l d) r c = Some n.
Proof.
  induction l as [|[[r0 c0] n0] l IH]; intros d r c n Hn Hi; [destruct Hi|]. cbn [map fst] in Hn. inversion Hn as [|? ? N1 N2]; subst. cbn [fold_left].
  destruct Hi as [E|Hi]; [|apply IH; auto]. injection E as -> -> ->. rewrite look2_other by auto. rewrite look2_put, !String.eqb_refl. reflexivity.
Qed.
Lemma pick_all {A B} (d : dict A) (F : string -> B) (G : A -> B) g : (forall p, In p g -> exists v, dget d p = Some v /\ G v = F p) ->
  map G (flat_map (fun p => match dget d p with Some v => [v] | None => [] end) g) = map F g.
Proof.
  induction g as [|p g IH]; intros H; cbn [flat_map map]; auto. destruct (H p (or_introl eq_refl)) as (v & E1 & E2). rewrite E1. cbn [List.app map].
  rewrite E2, IH; auto. intros q Hq. apply H. right. auto.
Qed.
Lemma grid_all d g (N : string -> string -> nat) : g <> [] -> (forall r c, In r g -> In c g -> look2 d r c = Some (N r c)) ->
  map (fun row => flat_map (fun p => match dget row p with Some c => [c] | None => [] end) g)
      (flat_map (fun p => match dget d p with Some r => [r] | None => [] end) g) = map (fun r => map (N r) g) g.
Proof.
  intros Hg H. apply pick_all. intros r Hr. destruct g as [|c0 g']; [congruence|]. set (g := c0 :: g') in *.
  assert (E0 := H r c0 Hr (or_introl eq_refl)). unfold look2 in E0. destruct (dget d r) as [row|] eqn:Er; [|discriminate].
  exists row. split; auto. rewrite <- (pick_all row (N r) (fun c => c) g); [symmetry; apply map_id|].
  intros c Hc. specialize (H r c Hr Hc). unfold look2 in H. rewrite Er in H. eauto.
Qed.
End Grid.

Lemma mapM_ok {A B} (f : A -> res B) (g : A -> B) l : (forall a, In a l -> f a = Ok (g a)) -> mapM f l = Ok (map g l).
Proof. induction l as [|a l IH]; intros H; cbn [mapM map]; auto. rewrite (H a (or_introl eq_refl)). cbn [bind]. rewrite IH; [reflexivity|]. intros b Hb. apply H. right; auto. Qed.
Definition split2 (s : string) : string * string := match expand_2d s with Ok p => p | _ => (EmptyString, EmptyString) end.

(** The grid in frequency order: node (i, j) has the row letters of the i-th and
    the column letters of the j-th word of the Gray code. *)
Theorem level_2d_freq {D} (K : wpclass D) f n L h h' r ws : 1 <= L -> level_nodes K f n L true h = (h', Ok r) -> paths h' r = map Some ws ->
  NoDup ws -> (forall s, In s ws <-> String.length s = Z.to_nat L /\ over4 s) ->
  let g := get_graycode_order L "l" "h" in
  exists q, get_level_2d_freq K f n L true h = (h', Ok q) /\ (forall c, In c (concat q) <-> In c r) /\
    map (paths h') q = map (fun a => map (fun b => Some (path_of a b)) g) g.
Proof.
  intros HL E Hp Hnd Hw g. destruct (graycode2 "l" "h" ltac:(discriminate) L HL) as (G1 & G2 & _ & G4). fold g in G1, G2, G4.
  unfold get_level_2d_freq, bindM. rewrite E. rewrite (PacketsLevel.mapMM_paths r ws h' Hp).
  assert (Ee : mapM expand_2d ws = Ok (map split2 ws)).
  { apply mapM_ok. intros s Hs. apply Hw in Hs. destruct (expand_over4 s (proj2 Hs)) as (a & b & Ea & _). unfold split2. rewrite Ea. reflexivity. }
  unfold lift at 1. rewrite Ee. eexists. split; [reflexivity|].
  assert (El : List.length ws = List.length r) by (apply (f_equal (@List.length _)) in Hp; unfold paths in Hp; rewrite !map_length in Hp; auto).
  assert (El2 : List.length (map split2 ws) = List.length r) by (rewrite map_length; auto).
  match goal with |- context [fold_left ?F _ _] => change F with put2 end.
  set (l := combine (map split2 ws) r). set (d := fold_left put2 l []).
  assert (Hinj : NoDup (map fst l)).
  { unfold l. rewrite combine_fst by auto. clear - Hnd Hw. assert (Hs : forall s, In s ws -> over4 s) by (intros s Hs; apply Hw; auto). clear Hw.
    induction Hnd as [|s ws Hn Hd IH]; cbn [map]; constructor; [|apply IH; intros; apply Hs; right; auto].
    intros Hi. apply in_map_iff in Hi. destruct Hi as (t & Et & Ht). apply Hn. replace s with t; auto.
    destruct (expand_over4 s (Hs s (or_introl eq_refl))) as (a & b & E1 & E2 & _).
    destruct (expand_over4 t (Hs t (or_intror Ht))) as (a' & b' & E3 & E4 & _). unfold split2 in Et. rewrite E1, E3 in Et. congruence. }
  assert (Hone : forall a b, In a g -> In b g -> exists c y, In ((a, b), c) l /\ In c r /\ nth_error h' c = Some y /\ npath y = path_of a b).
  { intros a b Ha Hb. apply G2 in Ha, Hb. destruct Ha as (La & Oa), Hb as (Lb & Ob).
    destruct (path_expand a b ltac:(congruence) Oa Ob) as (Ex & O4 & Lx).
    assert (Hi : In (path_of a b) ws) by (apply Hw; split; auto; congruence).
    unfold l. clear - Hi Hp Ex El. revert r Hp El. induction ws as [|s ws IH]; intros [|c r] Hp El; cbn in *; try discriminate; [tauto|].
    injection Hp as H1 H2. destruct Hi as [->|Hi].
    - destruct (nth_error h' c) as [y|] eqn:Ey; [|discriminate]. cbn in H1. injection H1 as H1. exists c, y. unfold split2 at 1. rewrite Ex. auto.
    - destruct (IH Hi r H2 ltac:(lia)) as (c' & y & A1 & A2 & A3 & A4). exists c', y. auto. }
  set (N := fun a b => match look2 d a b with Some c => c | None => 0%nat end).
  assert (HN : forall a b, In a g -> In b g -> look2 d a b = Some (N a b) /\ In (N a b) r /\ exists y, nth_error h' (N a b) = Some y /\ npath y = path_of a b).
  { intros a b Ha Hb. destruct (Hone a b Ha Hb) as (c & y & I1 & I2 & I3 & I4). unfold N.
    assert (Ed : look2 d a b = Some c) by (apply look2_in; auto). rewrite Ed. eauto. }
  fold g. rewrite (grid_all d g N); [|destruct g; [discriminate|congruence]|intros a b Ha Hb; apply HN; auto].
  split.
  - intros c. rewrite in_concat. split.
    + intros (row & Hr & Hc). apply in_map_iff in Hr. destruct Hr as (a & <- & Ha). apply in_map_iff in Hc. destruct Hc as (b & <- & Hb). apply HN; auto.
    + intros Hc. assert (Hs : exists s, In s ws /\ In (split2 s, c) l).
      { unfold l. clear - Hc El. revert r Hc El. induction ws as [|s ws IH]; intros [|c' r] Hc El; cbn in *; try discriminate; [tauto|].
        destruct Hc as [->|Hc]; [exists s; auto|]. destruct (IH r Hc ltac:(lia)) as (t & I1 & I2). exists t. auto. }
      destruct Hs as (s & Hs & Hl). apply Hw in Hs. destruct Hs as (Ls & Os). destruct (expand_over4 s Os) as (a & b & Ea & Eb & La & Lb & Oa & Ob).
      assert (Ha : In a g) by (apply G2; split; auto; congruence). assert (Hb : In b g) by (apply G2; split; auto; congruence).
      unfold split2 in Hl. rewrite Ea in Hl. pose proof (look2_in l [] a b c Hinj Hl) as Ed. fold d in Ed.
      exists (map (N a) g). split; [apply in_map_iff; eauto|]. apply in_map_iff. exists b. split; auto. unfold N. rewrite Ed. reflexivity.
  - rewrite map_map. apply map_ext_in. intros a Ha. unfold paths. rewrite map_map. apply map_ext_in. intros b Hb.
    destruct (HN a b Ha Hb) as (_ & _ & y & Ey & Ep). rewrite Ey. cbn. congruence.
Qed.
