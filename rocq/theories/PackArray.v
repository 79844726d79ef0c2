(** coeffs_to_array is a sequence of writes to disjoint parts. *)
From Coq Require Import Ascii String Permutation.
From Verif Require Import Base BaseLemmas Dwt Nd Swt AxisProofs Multidim MultidimProofs MultidimFacts MultilevelNd MultilevelNdProofs SwtNd PackSpec Packing PackRavel PackRavelFacts PackBox.
Open Scope Z_scope.

(** ** By axis *)
Lemma within_nth : forall ss sh, List.length ss = List.length sh ->
  (forall ax, (ax < List.length sh)%nat -> match nth ax ss SAll with SAll => 0 <= nthz ax sh | SRange a b => 0 <= a <= b /\ b <= nthz ax sh end) ->
  within ss sh.
Proof.
  unfold nthz. induction ss as [|s ss IH]; intros [|n sh] El H; cbn in *; auto; try discriminate.
  assert (W : within ss sh) by (apply IH; [lia|]; intros ax Ha; apply (H (S ax)); lia). specialize (H O ltac:(lia)). cbn in H. destruct s; tauto.
Qed.
Lemma extent_nth : forall ss sh s, List.length ss = List.length sh -> List.length s = List.length sh ->
  (forall ax, (ax < List.length sh)%nat -> match nth ax ss SAll with SAll => nthz ax s = nthz ax sh | SRange a b => nthz ax s = b - a end) ->
  extent ss sh = s.
Proof.
  unfold nthz, extent. induction ss as [|t ss IH]; intros [|n sh] [|v s] E1 E2 H; cbn in *; auto; try discriminate.
  pose proof (H O ltac:(lia)) as H0. cbn in H0.
  assert (E : map snd (box ss sh) = s) by (apply IH; try lia; intros ax Ha; apply (H (S ax)); lia).
  destruct t; cbn; rewrite E; congruence.
Qed.
Lemma selects_nth : forall ss sh idx ax a b, selects ss sh idx -> (ax < List.length sh)%nat -> nth ax ss SAll = SRange a b -> a <= nthz ax idx < b.
Proof.
  unfold nthz. induction ss as [|s ss IH].
  - intros. destruct ax; discriminate.
  - intros [|n sh] [|i idx] ax a b H Ha E; cbn in *; try tauto; try lia. destruct ax as [|ax].
    + subst s. lia.
    + apply (IH sh idx ax a b); auto; [|lia]. destruct s; tauto.
Qed.

Lemma nth_map_seq {A} (f : nat -> A) n k d : (k < n)%nat -> nth k (map f (seq 0 n)) d = f k.
Proof.
  intros H. rewrite (nth_indep _ d (f O)) by (rewrite map_length, seq_length; auto). rewrite map_nth, seq_nth by auto. reflexivity.
Qed.

(** ** Keys *)
Fixpoint letter (key : string) (axs : list nat) (ax : nat) : option ascii :=
  match key, axs with String c key', k :: axs' => if Nat.eqb k ax then Some c else letter key' axs' ax | _, _ => None end.
Fixpoint ad_word (k : string) : Prop := match k with EmptyString => True | String c k' => (c = "a" \/ c = "d")%char /\ ad_word k' end.

Lemma letter_none key : forall axs ax, ~ In ax axs -> letter key axs ax = None.
Proof. induction key as [|c key IH]; intros [|k axs] ax H; cbn; auto. destruct (Nat.eqb_spec k ax) as [->|]; [exfalso; apply H; cbn; auto|]. apply IH. intros Hi. apply H. cbn. auto. Qed.
Lemma letter_some key : forall axs ax, ad_word key -> List.length axs = String.length key -> In ax axs -> letter key axs ax = Some "a"%char \/ letter key axs ax = Some "d"%char.
Proof.
  induction key as [|c key IH]; intros [|k axs] ax Hk El Hi; cbn in *; try tauto; try discriminate. destruct (Nat.eqb_spec k ax) as [->|Hn].
  - destruct Hk as ([->| ->] & _); auto.
  - apply IH; [tauto|lia|]. destruct Hi; [congruence|auto].
Qed.
Lemma letter_in key : forall axs ax c, letter key axs ax = Some c -> In ax axs.
Proof. induction key as [|c' key IH]; intros [|k axs] ax c; cbn; try discriminate. destruct (Nat.eqb_spec k ax); auto. intros H. right. eauto. Qed.
(** Different words differ along some axis. *)
Lemma letters_differ k : forall j axs, NoDup axs -> ad_word k -> ad_word j -> List.length axs = String.length k -> List.length axs = String.length j -> k <> j ->
  exists ax, In ax axs /\ (letter k axs ax = Some "a"%char /\ letter j axs ax = Some "d"%char \/ letter k axs ax = Some "d"%char /\ letter j axs ax = Some "a"%char).
Proof.
  induction k as [|c k IH]; intros [|c' j] [|x axs] Hn Hk Hj E1 E2 Hd; cbn in *; try discriminate; try congruence.
  apply NoDup_cons_iff in Hn. destruct Hn as (N1 & N2). destruct (ascii_dec c c') as [<-|Hc].
  - destruct (IH j axs N2) as (ax & Ha & H); try tauto; try lia; [congruence|]. exists ax. split; auto.
    destruct (Nat.eqb_spec x ax) as [->|]; [contradiction|auto].
  - exists x. split; auto. rewrite Nat.eqb_refl. destruct Hk as ([->| ->] & _), Hj as ([->| ->] & _); auto; congruence.
Qed.
Lemma has_d k : forall axs, NoDup axs -> ad_word k -> List.length axs = String.length k -> k <> all_a (List.length axs) -> exists ax, In ax axs /\ letter k axs ax = Some "d"%char.
Proof.
  intros axs Hn Hk El Hd. assert (Ha : ad_word (all_a (List.length axs))) by (clear; induction (List.length axs); cbn; auto).
  assert (Hl : List.length axs = String.length (all_a (List.length axs))) by (clear; induction (List.length axs); cbn; auto).
  destruct (letters_differ k (all_a (List.length axs)) axs Hn Hk Ha El Hl Hd) as (ax & Hi & [(_ & H)|(H & _)]); eauto.
  exfalso. revert H. clear. induction axs as [|x axs IH]; cbn; [discriminate|]. destruct (Nat.eqb x ax); [discriminate|auto].
Qed.

Definition lslice (c : option ascii) (p s : Z) (other : sl) : sl :=
  match c with Some c => if Ascii.eqb c "a" then SRange 0 s else SRange p (p + s) | None => other end.
Definition kslices (key : string) (axs : list nat) (P s : list Z) : list sl :=
  map (fun ax => lslice (letter key axs ax) (nthz ax P) (nthz ax s) SAll) (seq 0 (List.length P)).

(** The axes argument, resolved. *)
Definition axes_are (dim : nat) (axes : list Z) (axs : list nat) : Prop :=
  NoDup axs /\ Forall2 (fun ax k => (k < dim)%nat /\ (ax = Z.of_nat k \/ ax = Z.of_nat k - Z.of_nat dim)) axes axs.

Lemma ax_ok dim ax k (l : list Z) : (k < dim)%nat -> (ax = Z.of_nat k \/ ax = Z.of_nat k - Z.of_nat dim) -> List.length l = dim ->
  py_index l ax = Ok (nthz k l) /\ py_ax (zlen l) ax = k.
Proof.
  intros Hk Ha El. unfold py_index, py_ax, zlen. rewrite El.
  replace ((ax <? - Z.of_nat dim) || (Z.of_nat dim <=? ax)) with false by lia.
  replace (Z.to_nat (if ax <? 0 then ax + Z.of_nat dim else ax)) with k; [auto|]. destruct (Z.ltb_spec ax 0); lia.
Qed.

Lemma Forall2_cons_inv2 {X Y} (R : X -> Y -> Prop) x y l m : Forall2 R (x :: l) (y :: m) -> R x y /\ Forall2 R l m.
Proof. intros H. inversion H. auto. Qed.
Lemma sset_length k v l : List.length (sset k v l) = List.length l.
Proof. revert k. induction l; intros [|k]; cbn; auto. Qed.
Lemma nth_sset j k v l : (k < List.length l)%nat -> nth j (sset k v l) SAll = if Nat.eqb k j then v else nth j l SAll.
Proof.
  revert j k. induction l as [|h t IH]; intros j k H; cbn in *; [lia|]. destruct k as [|k]; destruct j as [|j]; cbn; auto.
  apply IH. lia.
Qed.

Lemma key_slices_gen dim P s : List.length P = dim -> List.length s = dim ->
  forall key axes axs acc, ad_word key -> List.length axs = String.length key -> axes_are dim axes axs -> List.length acc = dim ->
  key_slices key axes P s acc = Ok (map (fun ax => lslice (letter key axs ax) (nthz ax P) (nthz ax s) (nth ax acc SAll)) (seq 0 dim)).
Proof.
  intros EP Es. induction key as [|c key IH]; intros axes axs acc Hw El (Hn & Ha) Eacc.
  - cbn. f_equal. apply (nth_ext _ _ SAll SAll); [rewrite map_length, seq_length; auto|].
    intros n Hl. rewrite nth_map_seq by lia. destruct axs; reflexivity.
  - destruct axs as [|k axs]; [discriminate|]. destruct axes as [|ax axes]; [inversion Ha|].
    apply Forall2_cons_inv2 in Ha. destruct Ha as ((Hk & Hax) & Ha). apply NoDup_cons_iff in Hn. destruct Hn as (N1 & N2).
    destruct (ax_ok dim ax k P Hk Hax EP) as (I1 & I2). destruct (ax_ok dim ax k s Hk Hax Es) as (I3 & _).
    cbn [key_slices]. destruct Hw as (Hc & Hw).
    assert (E : (if Ascii.eqb c "a" then n <- py_index s ax;; Ok (SRange 0 n) else
       if Ascii.eqb c "d" then s0 <- py_index P ax;; n <- py_index s ax;; Ok (SRange s0 (s0 + n)) else Err ValueError)
       = Ok (lslice (Some c) (nthz k P) (nthz k s) SAll)).
    { rewrite I1, I3. destruct Hc as [->| ->]; reflexivity. }
    rewrite E. cbn [bind]. rewrite I1. cbn [bind]. rewrite I2.
    rewrite (IH axes axs); auto; [|split; auto|rewrite sset_length; auto]. f_equal. apply map_ext_in. intros j Hj. apply in_seq in Hj.
    rewrite nth_sset by lia. cbn [letter]. destruct (Nat.eqb_spec k j) as [<-|Hne]; [|reflexivity].
    rewrite letter_none by auto. cbn. destruct Hc as [->| ->]; reflexivity.
Qed.
Lemma key_slices_spec dim P s key axes axs : List.length P = dim -> List.length s = dim -> ad_word key -> List.length axs = String.length key -> axes_are dim axes axs ->
  key_slices key axes P s (repeat SAll dim) = Ok (kslices key axs P s).
Proof.
  intros EP Es Hw El Ha. rewrite (key_slices_gen dim P s EP Es key axes axs) by (auto; apply repeat_length). unfold kslices. rewrite EP.
  f_equal. apply map_ext. intros j. f_equal. clear. revert j. induction dim; intros [|j]; cbn; auto.
Qed.

Section A.
Variable C : CRing.
Local Notation nd := (nd C).
Variable dim : nat.
Variable axs : list nat.
Variable axes : list Z.
Hypothesis Haxes : axes_are dim axes axs.
(** Shape of the approximation. *)
Variable A : list Z.
Hypothesis HA : List.length A = dim.

Fixpoint zadd (P s : list Z) : list Z := match P, s with x :: P', y :: s' => x + y :: zadd P' s' | _, _ => [] end.
Lemma zadd_length P s : List.length P = List.length s -> List.length (zadd P s) = List.length P.
Proof. revert s. induction P; intros [|y s] H; cbn in *; auto. Qed.
Lemma nth_zadd P s ax : List.length P = List.length s -> nthz ax (zadd P s) = nthz ax P + nthz ax s.
Proof. unfold nthz. revert s ax. induction P as [|x P IH]; intros [|y s] [|ax] H; cbn in *; auto; try discriminate. Qed.
Lemma add_shape_zadd P s : List.length P = List.length s -> add_shape P s = Ok (zadd P s).
Proof. revert s. induction P as [|x P IH]; intros [|y s] H; cbn in *; auto; try discriminate. rewrite IH by lia. reflexivity. Qed.

(** One level: the common shape and the arrays. *)
Definition level : Type := (list Z * dict nd)%type.
Definition level_ok (P : list Z) (l : level) : Prop :=
  let (s, d) := l in
  List.length s = dim /\ shape_ok s /\ (forall ax, ~ In ax axs -> nthz ax s = nthz ax A) /\ (forall ax, In ax axs -> nthz ax s <= nthz ax P) /\
  dict_wf d /\ In (all_d (List.length axs)) (map fst d) /\
  forall k x, In (k, x) d -> ad_word k /\ List.length axs = String.length k /\ k <> all_a (List.length axs) /\ nshape x = s.
Fixpoint levels_are (P : list Z) (ls : list level) : Prop :=
  match ls with [] => True | l :: ls' => level_ok P l /\ levels_are (zadd P (fst l)) ls' end.
Definition final (P : list Z) (ls : list level) : list Z := fold_left (fun P l => zadd P (fst l)) ls P.

Lemma final_length ls : forall P, List.length P = dim -> levels_are P ls -> List.length (final P ls) = dim.
Proof.
  induction ls as [|(s, d) ls IH]; intros P HP H; cbn in *; auto. destruct H as ((H1 & _) & H). apply IH; auto. rewrite zadd_length by congruence. auto.
Qed.
Lemma final_mono ls : forall P ax, List.length P = dim -> levels_are P ls -> nthz ax P <= nthz ax (final P ls).
Proof.
  induction ls as [|(s, d) ls IH]; intros P ax HP H; [apply Z.le_refl|]. destruct H as ((H1 & H2 & _) & H). cbn [fst] in H. change (nthz ax P <= nthz ax (final (zadd P s) ls)).
  specialize (IH (zadd P s) ax ltac:(rewrite zadd_length by congruence; auto) H). rewrite nth_zadd in IH by congruence.
  pose proof (shape_ok_nth s ax H2). lia.
Qed.

(** The array: [final] along the transformed axes, the approximation along the others. *)
Variable S : list Z.
Hypothesis HS : List.length S = dim.
Hypothesis HSo : forall ax, ~ In ax axs -> nthz ax S = nthz ax A.
Hypothesis HSp : shape_ok S.

Definition entry (P s : list Z) (kx : string * nd) : list sl * nd := (kslices (fst kx) axs P s, snd kx).
Fixpoint entries (P : list Z) (ls : list level) : list (list sl * nd) :=
  match ls with [] => [] | (s, d) :: ls' => map (entry P s) d ++ entries (zadd P s) ls' end.

Lemma axs_lt ax : In ax axs -> (ax < dim)%nat.
Proof.
  destruct Haxes as (_ & H). clear - H. revert ax. induction H as [|x k l m (Hk & _) _ IH]; intros ax Hi; [destruct Hi|]. destruct Hi as [<-|Hi]; [exact Hk|]. apply IH. exact Hi.
Qed.

Lemma entry_fits P s d k x : List.length P = dim -> (forall ax, 0 <= nthz ax P) -> level_ok P (s, d) ->
  (forall ax, In ax axs -> nthz ax P + nthz ax s <= nthz ax S) -> In (k, x) d -> fits C S (entry P s (k, x)).
Proof.
  intros HP HP0 (E1 & E2 & E3 & E4 & (E5 & E6) & _ & E7) Hb Hi. destruct (E7 k x Hi) as (K1 & K2 & K3 & K4).
  unfold fits, entry. cbn [fst snd].
  assert (Hl : List.length (kslices k axs P s) = List.length S) by (unfold kslices; rewrite map_length, seq_length; congruence).
  split; [|split; [apply (E6 k); auto|]].
  - apply within_nth; auto. intros ax Ha. unfold kslices. rewrite nth_map_seq by congruence.
    pose proof (shape_ok_nth s ax E2). pose proof (HP0 ax). destruct (in_dec Nat.eq_dec ax axs) as [Hx|Hx].
    + specialize (Hb ax Hx). specialize (E4 ax Hx). destruct (letter_some k axs ax K1 K2 Hx) as [-> | ->]; cbn; lia.
    + rewrite letter_none by auto. cbn. apply shape_ok_nth. auto.
  - symmetry. rewrite K4. apply extent_nth; auto; [congruence|]. intros ax Ha. unfold kslices. rewrite nth_map_seq by congruence.
    destruct (in_dec Nat.eq_dec ax axs) as [Hx|Hx].
    + destruct (letter_some k axs ax K1 K2 Hx) as [-> | ->]; cbn; lia.
    + rewrite letter_none by auto. cbn. rewrite E3, HSo by auto. reflexivity.
Qed.

Definition below (P idx : list Z) : Prop := forall ax, In ax axs -> nthz ax idx < nthz ax P.
Definition reaches (P idx : list Z) : Prop := exists ax, In ax axs /\ nthz ax P <= nthz ax idx.

Lemma entry_range P s d k x idx : List.length P = dim -> level_ok P (s, d) -> In (k, x) d ->
  selects (kslices k axs P s) S idx -> reaches P idx /\ below (zadd P s) idx.
Proof.
  intros HP (E1 & E2 & E3 & E4 & E5 & _ & E7) Hi Hs. destruct (E7 k x Hi) as (K1 & K2 & K3 & K4). split.
  - destruct (has_d k axs (proj1 Haxes) K1 K2 K3) as (ax & Hx & Hc). exists ax. split; auto.
    pose proof (axs_lt ax Hx) as Hlt. apply (selects_nth _ _ _ ax (nthz ax P) (nthz ax P + nthz ax s)) in Hs; [lia|congruence|].
    unfold kslices. rewrite nth_map_seq by congruence. rewrite Hc. reflexivity.
  - intros ax Hx. pose proof (axs_lt ax Hx) as Hlt. rewrite nth_zadd by congruence. specialize (E4 ax Hx).
    destruct (letter_some k axs ax K1 K2 Hx) as [Hc|Hc].
    + apply (selects_nth _ _ _ ax 0 (nthz ax s)) in Hs; [|congruence|].
      * pose proof (shape_ok_nth s ax E2). lia.
      * unfold kslices. rewrite nth_map_seq by congruence. rewrite Hc. reflexivity.
    + apply (selects_nth _ _ _ ax (nthz ax P) (nthz ax P + nthz ax s)) in Hs; [lia|congruence|].
      unfold kslices. rewrite nth_map_seq by congruence. rewrite Hc. reflexivity.
Qed.

Lemma entries_reach ls : forall P w idx, List.length P = dim -> levels_are P ls -> In w (entries P ls) -> selects (fst w) S idx -> reaches P idx.
Proof.
  induction ls as [|(s, d) ls IH]; intros P w idx HP H Hw Hs; [destruct Hw|]. destruct H as (H1 & H2). cbn [entries] in Hw. apply in_app_or in Hw.
  destruct Hw as [Hw|Hw].
  - apply in_map_iff in Hw. destruct Hw as ((k, x) & <- & Hi). exact (proj1 (entry_range P s d k x idx HP H1 Hi Hs)).
  - assert (E1 : List.length s = dim) by apply H1. assert (E2 : shape_ok s) by apply H1.
    destruct (IH (zadd P s) w idx) as (ax & Ha & Hr); auto; [rewrite zadd_length by congruence; auto|].
    exists ax. split; auto. rewrite nth_zadd in Hr by congruence. pose proof (shape_ok_nth s ax E2). lia.
Qed.

Lemma FOP_app {X} (R : X -> X -> Prop) l1 l2 : ForallOrdPairs R l1 -> ForallOrdPairs R l2 -> (forall x y, In x l1 -> In y l2 -> R x y) -> ForallOrdPairs R (l1 ++ l2).
Proof.
  induction 1 as [|x l H1 H2 IH]; intros Hl Hc; cbn; auto. constructor.
  - apply Forall_app. split; auto. apply Forall_forall. intros y Hy. apply Hc; cbn; auto.
  - apply IH; auto. intros; apply Hc; cbn; auto.
Qed.

Lemma level_apart P s d : List.length P = dim -> level_ok P (s, d) -> ForallOrdPairs (apart C S) (map (entry P s) d).
Proof.
  intros HP (E1 & E2 & E3 & E4 & (E5 & E6) & _ & E7). clear E6. induction d as [|(k, x) d IH]; cbn; [constructor|].
  cbn in E5. apply NoDup_cons_iff in E5. destruct E5 as (N1 & N2). constructor.
  - apply Forall_forall. intros w Hw. apply in_map_iff in Hw. destruct Hw as ((j, y) & <- & Hj). intros idx Hk Hs. cbn in Hk, Hs.
    destruct (E7 k x (or_introl eq_refl)) as (K1 & K2 & K3 & K4). destruct (E7 j y (or_intror Hj)) as (J1 & J2 & J3 & J4).
    assert (Hd : k <> j) by (intros ->; apply N1; apply in_map_iff; exists (j, y); auto).
    destruct (letters_differ k j axs (proj1 Haxes) K1 J1 K2 J2 Hd) as (ax & Hx & Hl). specialize (E4 ax Hx). pose proof (axs_lt ax Hx) as Hlt.
    destruct Hl as [(L1 & L2)|(L1 & L2)].
    + apply (selects_nth _ _ _ ax 0 (nthz ax s)) in Hk; [|congruence|unfold kslices; rewrite nth_map_seq by congruence; rewrite L1; reflexivity].
      apply (selects_nth _ _ _ ax (nthz ax P) (nthz ax P + nthz ax s)) in Hs; [|congruence|unfold kslices; rewrite nth_map_seq by congruence; rewrite L2; reflexivity]. lia.
    + apply (selects_nth _ _ _ ax 0 (nthz ax s)) in Hs; [|congruence|unfold kslices; rewrite nth_map_seq by congruence; rewrite L2; reflexivity].
      apply (selects_nth _ _ _ ax (nthz ax P) (nthz ax P + nthz ax s)) in Hk; [|congruence|unfold kslices; rewrite nth_map_seq by congruence; rewrite L1; reflexivity]. lia.
  - apply IH; auto. intros; apply E7; cbn; auto.
Qed.

Lemma entries_apart ls : forall P, List.length P = dim -> levels_are P ls -> ForallOrdPairs (apart C S) (entries P ls).
Proof.
  induction ls as [|(s, d) ls IH]; intros P HP H; [constructor|]. destruct H as (H1 & H2). cbn [entries].
  assert (E1 : List.length s = dim) by apply H1. assert (HP' : List.length (zadd P s) = dim) by (rewrite zadd_length by congruence; auto).
  apply FOP_app; [apply (level_apart P s d); auto|apply IH; auto|]. intros w v Hw Hv idx Sw Sv.
  apply in_map_iff in Hw. destruct Hw as ((k, x) & <- & Hi). destruct (entry_range P s d k x idx HP H1 Hi Sw) as (_ & Hb).
  destruct (entries_reach ls (zadd P s) v idx HP' H2 Hv Sv) as (ax & Ha & Hr). specialize (Hb ax Ha). lia.
Qed.

Lemma entries_fit ls : forall P, List.length P = dim -> (forall ax, 0 <= nthz ax P) -> levels_are P ls ->
  (forall ax, In ax axs -> nthz ax (final P ls) <= nthz ax S) -> Forall (fits C S) (entries P ls).
Proof.
  induction ls as [|(s, d) ls IH]; intros P HP HP0 H Hb; [constructor|]. destruct H as (H1 & H2). cbn [entries].
  assert (E1 : List.length s = dim) by apply H1. assert (E2 : shape_ok s) by apply H1.
  assert (HP' : List.length (zadd P s) = dim) by (rewrite zadd_length by congruence; auto).
  apply Forall_app. split.
  - apply Forall_forall. intros w Hw. apply in_map_iff in Hw. destruct Hw as ((k, x) & <- & Hi). apply (entry_fits P s d); auto.
    intros ax Ha. specialize (Hb ax Ha). pose proof (final_mono ls (zadd P s) ax HP' H2) as Hm. rewrite nth_zadd in Hm by congruence. change (nthz ax (final (zadd P s) ls) <= nthz ax S) in Hb. lia.
  - apply IH; auto. intros ax. rewrite nth_zadd by congruence. pose proof (HP0 ax). pose proof (shape_ok_nth s ax E2). lia.
Qed.

(** The loops. *)
Lemma put_dict_spec P s d (arr : nd) acc : List.length P = dim -> nshape arr = S ->
  (forall k x, In (k, x) d -> fits C S (entry P s (k, x)) /\ ad_word k /\ List.length axs = String.length k /\ nshape x = s) -> List.length s = dim ->
  NoDup (map fst acc ++ map fst d) ->
  put_dict C arr P axes (bands d) acc = Ok (writes C arr (map (entry P s) d), acc ++ map (fun kx => (fst kx, kslices (fst kx) axs P s)) d).
Proof.
  intros HP. revert arr acc. induction d as [|(k, x) d IH]; intros arr acc Harr Hd Es Hn.
  - cbn. rewrite app_nil_r. reflexivity.
  - destruct (Hd k x (or_introl eq_refl)) as (F & K1 & K2 & K4). cbn [bands map put_dict as_arr bind].
    rewrite K4. rewrite HP. rewrite (key_slices_spec dim P s k axes axs) by auto. cbn [bind].
    pose proof (nd_set_put C arr (entry P s (k, x))) as E. cbn [entry fst snd] in E. rewrite Harr in E. rewrite E by auto. cbn [bind].
    cbn in Hn. assert (Hk : ~ In k (map fst acc)).
    { intros Hi. apply NoDup_remove_2 in Hn. apply Hn. apply in_or_app. auto. }
    rewrite dset_not_in by auto. fold (bands d). rewrite IH; auto.
    + cbn [writes fold_left]. rewrite <- app_assoc. reflexivity.
    + intros j y Hj. apply Hd. right. exact Hj.
    + rewrite map_app. cbn. rewrite <- app_assoc. exact Hn.
Qed.

Fixpoint sdicts (P : list Z) (ls : list level) : list (dict (list sl)) :=
  match ls with [] => [] | (s, d) :: ls' => map (fun kx => (fst kx, kslices (fst kx) axs P s)) d :: sdicts (zadd P s) ls' end.

Lemma top_get (d : dict nd) s : In (all_d (List.length axs)) (map fst d) -> (forall k x, In (k, x) d -> nshape x = s) ->
  exists x, dgetE (bands d) (all_d (List.length axes)) = Ok (Some x) /\ nshape x = s.
Proof.
  intros Hi Hs. assert (El : List.length axes = List.length axs) by (destruct Haxes as (_ & F); clear - F; induction F; cbn; auto). rewrite El. clear El.
  generalize dependent (all_d (List.length axs)). intros k Hi. unfold dgetE, bands.
  induction d as [|(j, y) d IH]; [destruct Hi|]. cbn. destruct (String.eqb_spec j k) as [->|Hne].
  - exists y. split; auto. apply (Hs k). cbn. auto.
  - apply IH; [intros; apply (Hs k0); cbn; auto|]. destruct Hi as [H|H]; [cbn in H; congruence|auto].
Qed.

Lemma put_loop_spec ls : forall P (arr : nd) acc, List.length P = dim -> (forall ax, 0 <= nthz ax P) -> levels_are P ls ->
  (forall ax, In ax axs -> nthz ax (final P ls) <= nthz ax S) -> nshape arr = S ->
  put_loop C arr P axes (dicts C (map snd ls)) acc = Ok (writes C arr (entries P ls), rev acc ++ sdicts P ls).
Proof.
  induction ls as [|(s, d) ls IH]; intros P arr acc HP HP0 H Hb Harr.
  - cbn. rewrite app_nil_r. reflexivity.
  - pose proof (entries_fit ((s, d) :: ls) P HP HP0 H Hb) as HF. destruct H as (H1 & H2). cbn [entries] in HF. apply Forall_app in HF. destruct HF as (HF & _).
    destruct H1 as (E1 & E2 & E3 & E4 & E5 & E6 & E7).
    cbn [map snd dicts put_loop as_dict bind]. rewrite no_missing.
    destruct (top_get d s E6 (fun k x H => proj2 (proj2 (proj2 (E7 k x H))))) as (top & Et & Es). rewrite Et. cbn [bind as_arr].
    rewrite (put_dict_spec P s d arr []); auto; [|intros k x Hi; split; [rewrite Forall_forall in HF; apply HF; apply in_map; auto|destruct (E7 k x Hi) as (? & ? & ? & ?); auto]|apply E5].
    cbn [bind app]. rewrite Es, add_shape_zadd by congruence. cbn [bind]. fold (dicts C (map snd ls)). rewrite IH; auto.
    + cbn [entries sdicts rev]. unfold writes. rewrite fold_left_app. rewrite <- app_assoc. reflexivity.
    + rewrite zadd_length by congruence. auto.
    + intros ax. rewrite nth_zadd by congruence. pose proof (HP0 ax). pose proof (shape_ok_nth s ax E2). lia.
    + rewrite writes_shape. auto.
Qed.
End A.
