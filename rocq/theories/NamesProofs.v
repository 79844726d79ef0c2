(** Proofs about mode and wavelet names. *)
From Coq Require Import String Ascii QArith Sorted.
From Verif Require Import Base BaseLemmas CConv Lengths Dwt Swt DwtProofs Filters FiltersFacts Tables TablesProofs NamesSpec Names.
Open Scope Z_scope.

Lemma assoc_in {A} s (l : list (string * A)) v : assoc s l = Some v -> In (s, v) l.
Proof.
  induction l as [|[k u] t IH]; cbn [assoc]; [discriminate|]. destruct (String.eqb_spec s k) as [->|].
  - intros [= ->]. left. reflexivity.
  - intros H. right. auto.
Qed.
Lemma assoc_some {A} s (l : list (string * A)) v : In (s, v) l -> exists u, assoc s l = Some u.
Proof.
  induction l as [|[k u] t IH]; cbn [assoc]; [contradiction|]. intros [H|H].
  - injection H as -> ->. rewrite String.eqb_refl. eauto.
  - destruct (String.eqb s k); eauto.
Qed.
Lemma mem_in s l : mem s l = true <-> In s l.
Proof.
  unfold mem. rewrite existsb_exists. split.
  - intros (x & Hx & E). apply String.eqb_eq in E. subst. auto.
  - intros H. exists s. rewrite String.eqb_refl. auto.
Qed.

(** * Modes *)
Theorem from_object_int z : from_object (MInt z) = if (0 <=? z) && (z <=? 8) then Ok (AMode z) else Err ValueError.
Proof.
  unfold from_object, MODE_INVALID, MODE_MAX. destruct (z <=? -1) eqn:E1, (9 <=? z) eqn:E2, (0 <=? z) eqn:E3, (z <=? 8) eqn:E4; cbn; auto; lia.
Qed.

Theorem from_object_name s m : In (s, m) (mode_names ++ former_names) -> from_object (MStr s) = Ok (AMode (mode_code m)).
Proof.
  cbn [app mode_names former_names In]. intros H.
  repeat (destruct H as [H|H]; [injection H as <- <-; vm_compute; reflexivity|]). contradiction.
Qed.

Theorem from_object_string s a : from_object (MStr s) = Ok a ->
  (exists m, In (s, m) (mode_names ++ former_names) /\ a = AMode (mode_code m)) \/ (not_a_mode_name s /\ a = AOther).
Proof.
  unfold from_object, getattr_modes.
  assert (G : forall s a, getattribute s = Some a ->
    (exists m, In (s, m) mode_names /\ a = AMode (mode_code m)) \/ (not_a_mode_name s /\ a = AOther)).
  { clear s a. intros s a. unfold getattribute. destruct (assoc s mode_attrs) as [z|] eqn:E.
    - intros [= <-]. apply assoc_in in E. left. cbn [mode_attrs In] in E.
      repeat (destruct E as [E|E]; [injection E as <- <-; eexists; split; [cbn [mode_names In]; intuition reflexivity|reflexivity]|]). contradiction.
    - destruct (mem s other_attrs) eqn:E2; [|discriminate]. intros [= <-]. right. split; [|reflexivity].
      apply mem_in in E2. cbn [other_attrs In] in E2. unfold not_a_mode_name.
      repeat (destruct E2 as [E2|E2]; [subst s; first [left; reflexivity | right; left; reflexivity | right; right; reflexivity]|]). contradiction. }
  destruct (getattribute s) as [a'|] eqn:E.
  - intros [= <-]. destruct (G _ _ E) as [(m & Hm & ->)|H]; [left|right; auto]. exists m. split; [apply in_or_app; auto|reflexivity].
  - unfold getattr_fallback. destruct (mem s old_modes) eqn:E2.
    + apply mem_in in E2. cbn [old_modes In] in E2. intros H. left.
      repeat (destruct E2 as [E2|E2]; [subst s; vm_compute in H; injection H as <-; eexists; split; [apply in_or_app; right; cbn [former_names In]; intuition reflexivity|reflexivity]|]). contradiction.
    + rewrite E. discriminate.
Qed.

Theorem from_object_raises m e : from_object m = Err e -> e = ValueError \/ (m = MOther /\ e = TypeError).
Proof.
  destruct m as [z|s|]; cbn [from_object].
  - destruct (_ || _); intros [= <-]; auto.
  - destruct (getattr_modes s); intros [= <-]; auto.
  - intros [= <-]; auto.
Qed.
Theorem from_object_total m : (exists a, from_object m = Ok a) \/ (exists e, from_object m = Err e).
Proof.
  destruct m as [z|s|]; cbn [from_object]; eauto.
  - destruct (_ || _); eauto.
  - destruct (getattr_modes s); eauto.
Qed.

Lemma more_strings_accepted : exists s a, (forall m, ~ In (s, m) mode_names) /\ from_object (MStr s) = Ok a.
Proof. exists "from_object"%string, AOther. split; [|reflexivity]. intros m H. cbn in H. repeat (destruct H as [H|H]; [discriminate|]). contradiction. Qed.

(** * Sorting *)
Lemma insert_in s l x : In x (insert s l) <-> x = s \/ In x l.
Proof.
  induction l as [|t r IH]; cbn [insert]; [cbn; intuition auto|]. destruct (key_lt t s); cbn [In]; [rewrite IH|]; intuition auto.
Qed.
Lemma sort_in l x : In x (sort l) <-> In x l.
Proof.
  induction l as [|t r IH]; cbn [sort fold_right]; [reflexivity|]. fold (sort r). rewrite insert_in, IH. cbn [In]. intuition auto.
Qed.
Lemma filterM_in {A} (f : A -> res bool) l r x : filterM f l = Ok r -> (In x r <-> In x l /\ f x = Ok true).
Proof.
  revert r. induction l as [|y t IH]; intros r; cbn [filterM].
  - intros [= <-]. cbn. intuition auto.
  - destruct (f y) as [b| | |e] eqn:E; cbn [bind]; try discriminate. destruct (filterM f t) as [r'| | |]; cbn [bind]; try discriminate.
    intros [= <-]. specialize (IH r' eq_refl). destruct b; cbn [In].
    + rewrite IH. split; [intros [->|H]; intuition auto|]. intros [[->|H] H2]; intuition auto.
    + rewrite IH. split; [intuition auto|]. intros [[->|H] H2]; [congruence|auto].
Qed.

(** * The registry *)
Definition all_families : list family := [HAAR; RBIO; DB; SYM; COIF; BIOR; DMEY; GAUS; MEXH; MORL; CGAU; SHAN; FBSP; CMOR].
Lemma all_families_in f : In f all_families.
Proof. destruct f; cbn; intuition auto. Qed.
Definition fam_eqb (f g : family) : bool := String.eqb (short f) (short g).
Lemma fam_eqb_eq f g : fam_eqb f g = true -> f = g.
Proof. destruct f, g; vm_compute; auto; discriminate. Qed.

Lemma registry_sound s f n : In (s, (f, n)) registry -> valid_name f n = true /\ s = name_of f n.
Proof.
  assert (H : forallb (fun '(s, (f, n)) => valid_name f n && String.eqb s (name_of f n)) registry = true) by (vm_compute; reflexivity).
  rewrite forallb_forall in H. intros Hi. specialize (H _ Hi). cbn beta iota in H. apply andb_true_iff in H. destruct H as (H1 & H2).
  apply String.eqb_eq in H2. auto.
Qed.

Lemma valid_range f n : valid_name f n = true -> 0 <= n < 70.
Proof.
  destruct f; cbn [valid_name]; try lia;
  rewrite existsb_exists; intros (k & Hk & E); apply Z.eqb_eq in E; subst k; cbn [In] in Hk; lia.
Qed.

Lemma registry_complete f n : valid_name f n = true -> assoc (name_of f n) registry = Some (f, n).
Proof.
  intros H. pose proof (valid_range f n H).
  assert (G : forallb (fun k => forallb (fun f => let n := Z.of_nat k in
     implb (valid_name f n) (match assoc (name_of f n) registry with Some (g, m) => fam_eqb f g && (n =? m) | None => false end)) all_families) (seq 0 70) = true) by (vm_compute; reflexivity).
  rewrite forallb_forall in G. specialize (G (Z.to_nat n) ltac:(apply in_seq; lia)).
  rewrite forallb_forall in G. specialize (G f (all_families_in f)). cbv zeta in G. rewrite Z2Nat.id in G by lia. rewrite H in G. cbn [implb] in G.
  destruct (assoc (name_of f n) registry) as [[g m]|]; [|discriminate]. apply andb_true_iff in G. destruct G as (G1 & G2).
  apply fam_eqb_eq in G1. apply Z.eqb_eq in G2. subst. reflexivity.
Qed.

Lemma registry_short s c : In (s, c) registry -> (4 <? Z.of_nat (String.length s)) && mem (pre 4 s) special = false.
Proof.
  assert (H : forallb (fun '(s, c) => negb ((4 <? Z.of_nat (String.length s)) && mem (pre 4 s) special)) registry = true) by (vm_compute; reflexivity).
  rewrite forallb_forall in H. intros Hi. specialize (H _ Hi). cbn beta iota in H. apply negb_true_iff in H. exact H.
Qed.

(** A name is extended when it is one of cmor, shan, fbsp followed by something. *)
Definition extended (s : string) : bool := (4 <? Z.of_nat (String.length s)) && mem (pre 4 s) special.

Theorem code_of_name f n : valid_name f n = true -> wname_to_code (name_of f n) = Ok (f, n).
Proof.
  intros H. pose proof (registry_complete f n H) as A. unfold wname_to_code.
  rewrite (registry_short (name_of f n) (f, n)) by (apply assoc_in; auto). rewrite A. reflexivity.
Qed.
Theorem name_of_code s f n : wname_to_code s = Ok (f, n) -> extended s = false -> valid_name f n = true /\ s = name_of f n.
Proof.
  unfold wname_to_code. intros H E. fold (extended s) in H. rewrite E in H. destruct (assoc s registry) as [[g m]|] eqn:A; [|discriminate].
  injection H as -> ->. apply registry_sound. apply assoc_in. auto.
Qed.
Theorem code_extended s : extended s = true ->
  exists f, (f = CMOR \/ f = SHAN \/ f = FBSP) /\ pre 4 s = short f /\ wname_to_code s = Ok (f, 0).
Proof.
  intros E. unfold wname_to_code. fold (extended s). rewrite E. unfold extended in E. apply andb_true_iff in E. destruct E as (_ & E).
  apply mem_in in E. cbn [special In] in E.
  destruct E as [<-|[<-|[<-|[]]]]; [exists CMOR|exists SHAN|exists FBSP]; (split; [auto|]); (split; [reflexivity|]); vm_compute; reflexivity.
Qed.
Theorem code_total s : (exists c, wname_to_code s = Ok c) \/ wname_to_code s = Err ValueError.
Proof. unfold wname_to_code. destruct (assoc _ registry); eauto. Qed.

(** * wavelist *)
Definition kind_ok (k : kind) (f : family) : bool :=
  match k with KAll => true | KDiscrete => is_discrete_wavelet f | KContinuous => negb (is_discrete_wavelet f) end.

Lemma wavelist_ok k : exists l, wavelist None k = Ok l.
Proof. destruct k; eexists; vm_compute; reflexivity. Qed.

Theorem wavelist_complete k l s : wavelist None k = Ok l ->
  (In s l <-> exists f n, valid_name f n = true /\ kind_ok k f = true /\ s = name_of f n).
Proof.
  cbn [wavelist]. destruct (filterM _ _) as [r| | |] eqn:E; cbn [bind]; try discriminate. intros [= <-].
  rewrite sort_in. rewrite (filterM_in _ _ _ s E). rewrite in_map_iff. split.
  - intros (([s' [f n]] & Es & Hi) & Hk). cbn [fst] in Es. subst s'. destruct (registry_sound _ _ _ Hi) as (Hv & ->).
    exists f, n. split; [auto|]. split; [|reflexivity]. unfold check_kind in Hk. rewrite (code_of_name f n Hv) in Hk. cbn [bind fst] in Hk.
    destruct k; cbn [kind_ok]; congruence.
  - intros (f & n & Hv & Hk & ->). split.
    + exists (name_of f n, (f, n)). split; [reflexivity|]. apply assoc_in. apply registry_complete. auto.
    + unfold check_kind. rewrite (code_of_name f n Hv). cbn [bind fst]. destruct k; cbn [kind_ok] in Hk; congruence.
Qed.

Fixpoint nodupb (l : list string) : bool := match l with [] => true | x :: t => negb (mem x t) && nodupb t end.
Lemma nodupb_ok l : nodupb l = true -> NoDup l.
Proof.
  induction l as [|x t IH]; [constructor|]. cbn [nodupb]. rewrite andb_true_iff, negb_true_iff. intros (H1 & H2). constructor; [|auto].
  intros Hi. apply mem_in in Hi. congruence.
Qed.
Theorem wavelist_nodup k l : wavelist None k = Ok l -> NoDup l.
Proof. destruct k; intros H; vm_compute in H; injection H as <-; apply nodupb_ok; vm_compute; reflexivity. Qed.

(** Within a family the numbers increase along the list. *)
Fixpoint numbers_of (f : family) (l : list string) : list Z :=
  match l with
  | [] => []
  | s :: t => match wname_to_code s with Ok (g, n) => if fam_eqb f g then n :: numbers_of f t else numbers_of f t | _ => numbers_of f t end
  end.
Fixpoint incb (l : list Z) : bool := match l with a :: (b :: _) as t => (a <? b) && incb t | _ => true end.
Lemma incb_cons a b t : incb (a :: b :: t) = (a <? b) && incb (b :: t).
Proof. reflexivity. Qed.
Lemma incb_ok l : incb l = true -> StronglySorted Z.lt l.
Proof.
  intros H. apply Sorted_StronglySorted; [intros x y z; lia|].
  induction l as [|a [|b t] IH]; [constructor|constructor; constructor|]. rewrite incb_cons in H. apply andb_true_iff in H.
  constructor; [apply IH; apply H|]. constructor. lia.
Qed.
Theorem wavelist_sorted k l f : wavelist None k = Ok l -> StronglySorted Z.lt (numbers_of f l).
Proof.
  intros H. apply incb_ok. revert f. assert (G : forallb (fun f => incb (numbers_of f l)) all_families = true).
  { destruct k; vm_compute in H; injection H as <-; vm_compute; reflexivity. }
  rewrite forallb_forall in G. intros f. apply G. apply all_families_in.
Qed.

Theorem wavelist_family fam k :
  (exists f l, fam = short f /\ wavelist (Some fam) k = Ok l /\ NoDup l /\ StronglySorted Z.lt (numbers_of f l) /\
     (forall s, In s l <-> exists n, valid_name f n = true /\ s = name_of f n))
  \/ ((forall f, fam <> short f) /\ wavelist (Some fam) k = Err ValueError).
Proof.
  cbn [wavelist]. destruct (mem fam family_list_short) eqn:E.
  - left. apply mem_in in E.
    assert (Hf : exists f, fam = short f).
    { cbn [family_list_short In] in E.
      destruct E as [<-|[<-|[<-|[<-|[<-|[<-|[<-|[<-|[<-|[<-|[<-|[<-|[<-|[<-|[]]]]]]]]]]]]]]];
      [exists HAAR|exists DB|exists SYM|exists COIF|exists BIOR|exists RBIO|exists DMEY|exists GAUS|exists MEXH|exists MORL|exists CGAU|exists SHAN|exists FBSP|exists CMOR]; reflexivity. }
    destruct Hf as (f & ->). exists f. eexists. split; [reflexivity|]. split; [reflexivity|].
    assert (P : forall s g n, In (s, (g, n)) registry -> String.prefix (short f) s = fam_eqb f g).
    { assert (G : forallb (fun f => forallb (fun '(s, (g, n)) => Bool.eqb (String.prefix (short f) s) (fam_eqb f g)) registry) all_families = true) by (vm_compute; reflexivity).
      rewrite forallb_forall in G. specialize (G f (all_families_in f)). rewrite forallb_forall in G. intros s g n Hi. specialize (G _ Hi).
      cbn beta iota in G. apply Bool.eqb_prop in G. exact G. }
    split; [destruct f; apply nodupb_ok; vm_compute; reflexivity|].
    split; [destruct f; apply incb_ok; vm_compute; reflexivity|].
    intros s. rewrite sort_in, filter_In, in_map_iff. split.
    + intros (([s' [g n]] & Es & Hi) & Hp). cbn [fst] in Es. subst s'. rewrite (P _ _ _ Hi) in Hp. apply fam_eqb_eq in Hp. subst g.
      exists n. apply registry_sound. auto.
    + intros (n & Hv & ->). pose proof (assoc_in _ _ _ (registry_complete f n Hv)) as Hi. split.
      * exists (name_of f n, (f, n)). auto.
      * rewrite (P _ _ _ Hi). unfold fam_eqb. apply String.eqb_refl.
  - right. split; [|reflexivity]. intros f ->. destruct f; vm_compute in E; discriminate.
Qed.

(** * Constructors *)
Lemma lower_char_idem c : lower_char (lower_char c) = lower_char c.
Proof. destruct c as [[] [] [] [] [] [] [] []]; reflexivity. Qed.
Lemma lower_idem s : lower (lower s) = lower s.
Proof. induction s as [|c t IH]; cbn [lower]; [reflexivity|]. rewrite lower_char_idem, IH. reflexivity. Qed.
Lemma lower_length s : String.length (lower s) = String.length s.
Proof. induction s as [|c t IH]; cbn [lower String.length]; auto. Qed.

Lemma valid_discrete f n : is_discrete_wavelet f = true -> valid_name f n = true -> valid_order f n = true.
Proof. destruct f; cbn; auto; discriminate. Qed.

Section W.
Variable C : CRing.
Variable fuel : nat.
Variable T : tables C.
Hypothesis HT : tables_ok T.
Hypothesis Hf : 22 < Z.of_nat fuel.

(** Wavelet(s): accepted exactly when lower(s) is a discrete name. *)
Theorem wavelet_new_spec s :
  (exists f n w, valid_name f n = true /\ is_discrete_wavelet f = true /\ lower s = name_of f n /\
     wavelet_new fuel T s = Ok w /\ discrete_wavelet fuel T f n = Ok (Some w) /\ wf_bank (w_bank w))
  \/ ((~ exists f n, valid_name f n = true /\ is_discrete_wavelet f = true /\ lower s = name_of f n) /\
      wavelet_new fuel T s = Err (if String.eqb s "" then TypeError else ValueError)).
Proof.
  destruct s as [|c t].
  - right. split; [|reflexivity]. intros (f & n & Hv & _ & H). cbn [lower] in H.
    assert (G : In (EmptyString, (f, n)) registry) by (rewrite H; apply assoc_in, registry_complete; auto).
    assert (G2 : forallb (fun '(s, _) => negb (String.eqb s EmptyString)) registry = true) by (vm_compute; reflexivity).
    rewrite forallb_forall in G2. specialize (G2 _ G). discriminate.
  - change (String.eqb (String c t) "") with false. cbn iota.
    assert (E : wavelet_new fuel T (String c t) =
      ('(f, n) <- wname_to_code (lower (String c t)) ;;
       w <- (if is_discrete_wavelet f then discrete_wavelet fuel T f n else Ok None) ;;
       match w with Some w => Ok w | None => Err ValueError end)) by reflexivity.
    rewrite E. set (q := lower (String c t)). clearbody q. clear E.
    destruct (wname_to_code q) as [[f n]| | |e] eqn:Eq; try (destruct (code_total q) as [(x & Hx)|Hx]; congruence).
    + cbn [bind]. destruct (is_discrete_wavelet f) eqn:Ed.
      * destruct (extended q) eqn:Ee.
        { exfalso. destruct (code_extended q Ee) as (g & Hg & _ & Hq). rewrite Hq in Eq. injection Eq as <- <-.
          destruct Hg as [->|[->| ->]]; discriminate. }
        destruct (name_of_code q f n Eq Ee) as (Hv & Hn). left.
        pose proof (valid_range f n Hv) as Hr.
        pose proof (discrete_wavelet_accepts C fuel T f n HT ltac:(unfold uint_range; lia) Hf) as A.
        rewrite (valid_discrete f n Ed Hv) in A. destruct A as (w & A1 & A2).
        exists f, n, w. rewrite A1. cbn [bind]. auto 10.
      * right. cbn [bind]. split; [|reflexivity]. intros (g & m & Hv & Hd & ->). rewrite code_of_name in Eq by auto. injection Eq as -> ->. congruence.
    + right. cbn [bind]. split.
      * intros (f & n & Hv & Hd & ->). rewrite code_of_name in Eq by auto. discriminate.
      * destruct (code_total q) as [(x & Hx)|Hx]; congruence.
Qed.

Theorem wavelet_new_lower s : wavelet_new fuel T (lower s) = wavelet_new fuel T s.
Proof. destruct s as [|c t]; [reflexivity|]. cbn [lower wavelet_new]. rewrite lower_char_idem, lower_idem. reflexivity. Qed.
End W.

Theorem continuous_new_lower s : continuous_new (lower s) = continuous_new s.
Proof. unfold continuous_new. rewrite lower_idem. reflexivity. Qed.

Lemma base_plain q : extended q = false ->
  (if (4 <=? Z.of_nat (String.length q)) && mem (pre 4 q) special then pre 4 q else q) = q.
Proof.
  unfold extended. intros H. destruct (Z.leb_spec 4 (Z.of_nat (String.length q))) as [H4|H4]; [|reflexivity].
  destruct (Z.ltb_spec 4 (Z.of_nat (String.length q))) as [H5|H5].
  - cbn [andb] in *. rewrite H. reflexivity.
  - cbn [andb]. destruct (mem (pre 4 q) special); [|reflexivity].
    assert (L : String.length q = 4%nat) by lia. unfold pre.
    destruct q as [|a [|b [|c [|d [|e r]]]]]; cbn in L; try discriminate. reflexivity.
Qed.

(** Without parameters: accepted exactly when lower(s) is a continuous name. *)
Theorem continuous_new_plain s : extended (lower s) = false ->
  (exists f n, valid_name f n = true /\ is_discrete_wavelet f = false /\ lower s = name_of f n /\
     continuous_new s = Ok (mkCwave f n None None None))
  \/ ((~ exists f n, valid_name f n = true /\ is_discrete_wavelet f = false /\ lower s = name_of f n) /\ continuous_new s = Err ValueError).
Proof.
  unfold continuous_new. set (q := lower s). clearbody q. intros Ee. rewrite (base_plain q Ee).
  destruct (wname_to_code q) as [[f n]| | |e] eqn:Eq; try (destruct (code_total q) as [(x & Hx)|Hx]; congruence).
  - cbn [bind]. destruct (name_of_code q f n Eq Ee) as (Hv & Hn).
    rewrite String.eqb_refl. destruct (is_discrete_wavelet f) eqn:Ed.
    + right. split.
      * intros (g & m & Hv' & Hd & ->). rewrite code_of_name in Eq by auto. injection Eq as -> ->. congruence.
      * destruct f; try discriminate; reflexivity.
    + left. exists f, n. replace (continuous_wavelet f n) with true; [cbn [negb]; auto|].
      destruct f; cbn in *; try discriminate; try reflexivity; symmetry; apply negb_true_iff; lia.
  - right. cbn [bind]. split.
    + intros (f & n & Hv & Hd & ->). rewrite code_of_name in Eq by auto. discriminate.
    + destruct (code_total q) as [(x & Hx)|Hx]; congruence.
Qed.
