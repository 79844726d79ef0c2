(** The pictures of packet bases are tilings, and the keys of wavedec and
    wavedec2 are the leaves of a tree. *)
From Coq Require Import Ascii String QArith.
From Verif Require Import Base BaseLemmas Dwt Multidim DocUtils DocUtilsSpec.
Open Scope list_scope. Open Scope Z_scope.

(** ** [only] *)
Lemma nth_error_In_iff {A} (l : list A) x : In x l <-> exists k, nth_error l k = Some x.
Proof. split; [apply In_nth_error|]. intros (k & E). eapply nth_error_In; eauto. Qed.
Lemma only_ext {A} (P Q : A -> Prop) l : (forall x, In x l -> (P x <-> Q x)) -> only P l -> only Q l.
Proof.
  intros H (k & Hk). exists k. intros k'. rewrite <- Hk. split; intros (x & E & Hx); exists x; split; auto; apply nth_error_In in E; apply (H x E); auto.
Qed.
Lemma only_map {A B} (f : A -> B) (P : B -> Prop) l : only (fun x => P (f x)) l -> only P (map f l).
Proof.
  intros (k & Hk). exists k. intros k'. rewrite <- Hk. rewrite nth_error_map. split.
  - intros (y & E & Hy). destruct (nth_error l k') as [x|]; [|discriminate]. injection E as <-. eauto.
  - intros (x & E & Hx). rewrite E. cbn. eauto.
Qed.
Lemma only_app_l {A} (P : A -> Prop) l1 l2 : only P l1 -> (forall x, In x l2 -> ~ P x) -> only P (l1 ++ l2).
Proof.
  intros (k & Hk) H. exists k. intros k'. rewrite <- Hk. destruct (Nat.lt_ge_cases k' (List.length l1)) as [L|L].
  - rewrite nth_error_app1 by auto. tauto.
  - rewrite nth_error_app2 by auto. split; intros (x & E & Hx); exfalso.
    + apply (H x); auto. eapply nth_error_In; eauto.
    + assert (nth_error l1 k' = None) by (apply nth_error_None; auto). congruence.
Qed.
Lemma only_app_r {A} (P : A -> Prop) l1 l2 : (forall x, In x l1 -> ~ P x) -> only P l2 -> only P (l1 ++ l2).
Proof.
  intros H (k & Hk). exists (List.length l1 + k)%nat. intros k'. destruct (Nat.lt_ge_cases k' (List.length l1)) as [L|L].
  - rewrite nth_error_app1 by auto. split; [|lia]. intros (x & E & Hx). exfalso. apply (H x); auto. eapply nth_error_In; eauto.
  - rewrite nth_error_app2 by auto. rewrite Hk. lia.
Qed.
Lemma only_eq {A} (x : A) l : NoDup l -> In x l -> only (fun y => y = x) l.
Proof.
  intros N I. apply In_nth_error in I. destruct I as (k & E). exists k. intros k'. split.
  - intros (y & E' & ->). apply (proj1 (NoDup_nth_error l) N); [apply nth_error_Some; congruence|congruence].
  - intros ->. eauto.
Qed.
Lemma only_prod {A B} (P : A -> Prop) (Q : B -> Prop) la lb : only P la -> only Q lb -> only (fun '(a, b) => P a /\ Q b) (list_prod la lb).
Proof.
  intros (k & Hk) HQ. revert k Hk. induction la as [|a la IH]; intros k Hk.
  - exfalso. destruct (proj2 (Hk k) eq_refl) as (x & E & _). destruct k; discriminate.
  - cbn [list_prod]. destruct k as [|k].
    + assert (Pa : P a) by (destruct (proj2 (Hk 0%nat) eq_refl) as (x & E & Hx); injection E as <-; auto).
      apply only_app_l.
      * apply only_map. apply (only_ext Q); auto. tauto.
      * intros (a', b) I (Pa' & _). apply in_prod_iff in I. destruct I as (I & _). apply In_nth_error in I. destruct I as (j & E).
        assert (S j = 0%nat) by (apply Hk; exists a'; auto). discriminate.
    + apply only_app_r.
      * intros (a', b) I (Pa' & _). apply in_map_iff in I. destruct I as (b' & E & _). injection E as <- <-.
        assert (0%nat = S k) by (apply Hk; exists a; auto). discriminate.
      * apply (IH k). intros k'. specialize (Hk (S k')). cbn [nth_error] in Hk. rewrite Hk. split; congruence.
Qed.

(** ** One axis *)
Fixpoint off (hb : ascii -> bool) (s : Z) (key : string) : Z :=
  match key with EmptyString => 0 | String c r => (if hb c then s / 2 else 0) + off hb (s / 2) r end.
Definition wid (s : Z) (key : string) : Z := s / 2 ^ Z.of_nat (String.length key).
Lemma wid_ge0 s key : 0 <= s -> 0 <= wid s key.
Proof. intros H. apply Z.div_pos; auto. apply Z.pow_pos_nonneg; lia. Qed.
Fixpoint bits (L : nat) (s i : Z) : list bool :=
  match L with O => [] | S L => let b := s / 2 <=? i in b :: bits L (s / 2) (if b then i - s / 2 else i) end.
Fixpoint starts (hb : ascii -> bool) (key : string) (l : list bool) : Prop :=
  match key, l with
  | EmptyString, _ => True
  | String c r, b :: l => hb c = b /\ starts hb r l
  | String _ _, [] => False
  end.
Lemma half_div L s : (2 ^ Z.of_nat (S L) | s) -> s = 2 * (s / 2) /\ (2 ^ Z.of_nat L | s / 2).
Proof.
  intros (q & ->). rewrite Nat2Z.inj_succ, Z.pow_succ_r by lia. replace (q * (2 * 2 ^ Z.of_nat L)) with (q * 2 ^ Z.of_nat L * 2) by ring.
  rewrite Z.div_mul by lia. split; [ring|]. exists q. ring.
Qed.
Lemma wid_S s c r : wid s (String c r) = wid (s / 2) r.
Proof. unfold wid. cbn [String.length]. rewrite Nat2Z.inj_succ, Z.pow_succ_r by lia. rewrite Z.div_div by lia. reflexivity. Qed.
Lemma off_range hb key : forall L s, (String.length key <= L)%nat -> (2 ^ Z.of_nat L | s) -> 0 <= s -> 0 <= off hb s key /\ off hb s key + wid s key <= s.
Proof.
  induction key as [|c r IH]; intros L s HL Hd Hs.
  - cbn [off]. unfold wid. cbn [String.length]. rewrite Z.pow_0_r, Z.div_1_r. lia.
  - destruct L as [|L]; cbn [String.length] in HL; [lia|]. destruct (half_div L s Hd) as (E & D). rewrite wid_S. cbn [off].
    destruct (IH L (s / 2) ltac:(lia) D ltac:(lia)). destruct (hb c); lia.
Qed.
Lemma within_iff hb key : forall L s i, (String.length key <= L)%nat -> (2 ^ Z.of_nat L | s) -> 0 <= i < s ->
  (off hb s key <= i < off hb s key + wid s key <-> starts hb key (bits L s i)).
Proof.
  induction key as [|c r IH]; intros L s i HL Hd Hi.
  - cbn [off starts]. unfold wid. cbn [String.length]. rewrite Z.pow_0_r, Z.div_1_r. split; auto; lia.
  - destruct L as [|L]; cbn [String.length] in HL; [lia|]. destruct (half_div L s Hd) as (E & D). rewrite wid_S. cbn [off bits starts]. cbv zeta.
    destruct (off_range hb r L (s / 2) ltac:(lia) D ltac:(lia)) as (R1 & R2).
    specialize (IH L (s / 2)). clear Hd. set (h := s / 2) in *. clearbody h. subst s.
    set (o := off hb h r) in *. set (v := wid h r) in *. clearbody o v.
    destruct (Z.leb_spec h i) as [M|M].
    + rewrite <- (IH (i - h) ltac:(lia) D ltac:(lia)). clear IH D. destruct (hb c); (split; [intros H; split; [first [reflexivity|exfalso; lia]|lia]|intros (H & H'); first [discriminate H|lia]]).
    + rewrite <- (IH i ltac:(lia) D ltac:(lia)). clear IH D. destruct (hb c); (split; [intros H; split; [first [reflexivity|exfalso; lia]|lia]|intros (H & H'); first [discriminate H|lia]]).
Qed.

(** ** The outlines *)
Lemma box_ends ox oy sx sy : 0 <= sx -> 0 <= sy -> let b := box_ (ox, - oy) (ox + sx, - oy - sy) in
  lo (fst b) = ox /\ hi (fst b) = ox + sx /\ lo (snd b) = - oy - sy /\ hi (snd b) = - oy.
Proof.
  intros H1 H2. unfold box_. cbn [fst snd]. cbv zeta. cbn [fst snd].
  assert (A : forall a b, a <= b -> Z.min a b = a) by (intros; lia). assert (A' : forall a b, b <= a -> Z.min a b = b) by (intros; lia).
  assert (B : forall a b, a <= b -> Z.max a b = b) by (intros; lia). assert (B' : forall a b, b <= a -> Z.max a b = a) by (intros; lia).
  repeat split; unfold lo, hi; cbn [fold_right hd]; repeat first [rewrite A by lia | rewrite A' by lia | rewrite B by lia | rewrite B' by lia]; reflexivity.
Qed.
Lemma holds_box i j ox oy sx sy : 0 <= sx -> 0 <= sy -> (holds i j (box_ (ox, - oy) (ox + sx, - oy - sy)) <-> (ox <= i < ox + sx /\ oy <= j < oy + sy)).
Proof.
  intros H1 H2. unfold holds. destruct (box_ends ox oy sx sy H1 H2) as (-> & -> & -> & ->). clear. lia.
Qed.
Definition bx (c : ascii) : bool := (Ascii.eqb c "h" || Ascii.eqb c "d")%char.
Definition by_ (c : ascii) : bool := (Ascii.eqb c "v" || Ascii.eqb c "d")%char.
Definition bd (c : ascii) : bool := Ascii.eqb c "d"%char.
Lemma div_pow_S s i : 0 <= i -> s / 2 ^ (i + 1) = s / 2 ^ i / 2.
Proof. intros H. rewrite Z.pow_add_r by lia. rewrite Z.div_div by (try lia; apply Z.pow_pos_nonneg; lia). reflexivity. Qed.
Lemma offsets_eq s0 s1 key : forall i ox oy n, 0 <= i -> offsets s0 s1 key i (ox, oy, n) =
  (ox + off bx (s0 / 2 ^ i) key, oy + off by_ (s1 / 2 ^ i) key, match key with EmptyString => n | _ => Some (i + Z.of_nat (String.length key) - 1) end).
Proof.
  induction key as [|c r IH]; intros i ox oy n Hi; cbn [offsets off].
  - rewrite !Z.add_0_r. reflexivity.
  - change ((c =? "h")%char || (c =? "d")%char) with (bx c). change ((c =? "v")%char || (c =? "d")%char) with (by_ c).
    rewrite IH by lia. rewrite !div_pow_S by lia. f_equal; [f_equal|].
    + destruct (bx c); lia.
    + destruct (by_ c); lia.
    + destruct r; cbn [String.length]; f_equal; lia.
Qed.
Lemma offset1_eq s key : forall i o n, 0 <= i -> offset1 s key i o n = (o + off bd (s / 2 ^ i) key, match key with EmptyString => n | _ => Some (i + Z.of_nat (String.length key) - 1) end).
Proof.
  induction key as [|c r IH]; intros i o n Hi; cbn [offset1 off].
  - rewrite !Z.add_0_r. reflexivity.
  - rewrite IH by lia. rewrite !div_pow_S by lia. f_equal.
    + change (c =? "d")%char with (bd c). destruct (bd c); lia.
    + destruct r; cbn [String.length]; f_equal; lia.
Qed.
Definition wbox (s0 s1 : Z) (key : string) : list Z * list Z :=
  box_ (off bx s0 key, - off by_ s1 key) (off bx s0 key + wid s0 key, - off by_ s1 key - wid s1 key).
Definition wmid (s0 s1 : Z) (key : string) : Z * Z := (off bx s0 key + wid s0 key / 2, - off by_ s1 key - wid s1 key / 2).
Lemma dget_same {A} (d : dict A) k v : dget (dset d k v) k = Some v.
Proof. induction d as [|(k', v') d IH]; cbn [dset dget]; [rewrite String.eqb_refl; auto|]. destruct (String.eqb_spec k' k) as [->|N]; cbn [dget]; [rewrite String.eqb_refl; auto|]. destruct (String.eqb_spec k' k); tauto. Qed.
Lemma dget_other {A} (d : dict A) k v k' : k' <> k -> dget (dset d k v) k' = dget d k'.
Proof.
  intros N. induction d as [|(k0, v0) d IH]; cbn [dset dget].
  - destruct (String.eqb_spec k k'); congruence.
  - destruct (String.eqb_spec k0 k) as [->|N0]; cbn [dget]; [destruct (String.eqb_spec k k'); congruence|]. rewrite IH. reflexivity.
Qed.
Lemma wp_loop_eq s0 s1 keys : forall n coords centers, (forall k, In k keys -> k <> EmptyString) ->
  exists c, wp_loop s0 s1 keys n coords centers = Ok (coords ++ map (wbox s0 s1) keys, c) /\
    (forall k, In k keys -> dget c k = Some (wmid s0 s1 k)) /\ forall k, ~ In k keys -> dget c k = dget centers k.
Proof.
  induction keys as [|key keys IH]; intros n coords centers H; cbn [wp_loop map].
  - rewrite app_nil_r. exists centers. split; auto. split; [intros k []|auto].
  - rewrite offsets_eq by lia. rewrite !Z.pow_0_r, !Z.div_1_r, !Z.add_0_l. assert (Hk := H key (or_introl eq_refl)). destruct key as [|ch r]; [congruence|].
    cbv beta iota. replace (Z.of_nat (String.length (String ch r)) - 1 + 1) with (Z.of_nat (String.length (String ch r))) by lia.
    match goal with |- context [wp_loop _ _ _ ?a ?b ?d] => destruct (IH a b d ltac:(intros; apply H; right; auto)) as (c & E & C1 & C2) end.
    exists c. rewrite E. rewrite <- app_assoc. split; [reflexivity|]. clear E.
    assert (K : dget c (String ch r) = Some (wmid s0 s1 (String ch r))).
    { destruct (in_dec string_dec (String ch r) keys) as [I|I]; [apply C1; auto|]. rewrite C2, dget_same by auto. reflexivity. }
    split.
    + intros k [<-|I]; [exact K|apply C1; auto].
    + intros k N. cbn [In] in N. rewrite C2, dget_other by (intros ?; apply N; auto). reflexivity.
Qed.
Definition fbox (s0 s1 : Z) (k : string * string) : list Z * list Z :=
  box_ (off bd s0 (fst k), - off bd s1 (snd k)) (off bd s0 (fst k) + wid s0 (fst k), - off bd s1 (snd k) - wid s1 (snd k)).
Definition fmid (s0 s1 : Z) (k : string * string) : Q * Q :=
  (inject_Z (off bd s0 (fst k)) + inject_Z (wid s0 (fst k)) / 2, inject_Z (- off bd s1 (snd k)) - inject_Z (wid s1 (snd k)) / 2)%Q.
Lemma fsw_loop_eq s0 s1 keys : forall n0 n1 acc, (forall k, In k keys -> fst k <> EmptyString /\ snd k <> EmptyString) ->
  fsw_loop s0 s1 keys n0 n1 acc = Ok (fst acc ++ map (fbox s0 s1) keys, snd acc ++ map (fun k => (k, fmid s0 s1 k)) keys).
Proof.
  induction keys as [|[key0 key1] keys IH]; intros n0 n1 acc H; cbn [fsw_loop map].
  - rewrite !app_nil_r. destruct acc. reflexivity.
  - rewrite !offset1_eq by lia. rewrite !Z.pow_0_r, !Z.div_1_r, !Z.add_0_l. destruct (H _ (or_introl eq_refl)) as (K0 & K1). cbn [fst snd] in K0, K1.
    destruct key0 as [|c0 r0]; [congruence|]. destruct key1 as [|c1 r1]; [congruence|].
    cbv beta iota. rewrite !Z.sub_add. rewrite IH by (intros; apply H; right; auto). cbn [fst snd]. rewrite <- !app_assoc. reflexivity.
Qed.
(** ** Words of cells *)
Definition ahvd : list ascii := ["a"; "h"; "v"; "d"]%char.
Definition ad : list ascii := ["a"; "d"]%char.
Definition letter (x y : bool) : ascii := (if x then if y then "d" else "h" else if y then "v" else "a")%char.
Fixpoint word2 (xs ys : list bool) : string := match xs, ys with x :: xs, y :: ys => String (letter x y) (word2 xs ys) | _, _ => EmptyString end.
Fixpoint word1 (xs : list bool) : string := match xs with x :: xs => String (letter x x) (word1 xs) | _ => EmptyString end.
Lemma bits_length L : forall s i, List.length (bits L s i) = L.
Proof. induction L; intros; cbn; auto. Qed.
Lemma word2_ok xs : forall ys, List.length ys = List.length xs -> over ahvd (word2 xs ys) /\ String.length (word2 xs ys) = List.length xs.
Proof.
  induction xs as [|x xs IH]; intros [|y ys] E; try discriminate; [cbn; auto|]. injection E as E. destruct (IH ys E) as (A & B). cbn [word2 over String.length List.length]. rewrite B.
  split; auto. split; auto. unfold letter, ahvd. destruct x, y; cbn; tauto.
Qed.
Lemma word1_ok xs : over ad (word1 xs) /\ String.length (word1 xs) = List.length xs.
Proof. induction xs as [|x xs (A & B)]; [cbn; auto|]. cbn [word1 over String.length List.length]. rewrite B. split; auto. split; auto. unfold letter, ad. destruct x; cbn; tauto. Qed.
Lemma prefix_cons c r c' w : String.prefix (String c r) (String c' w) = true <-> c = c' /\ String.prefix r w = true.
Proof. cbn [String.prefix]. destruct (ascii_dec c c') as [->|N]; split; try tauto. discriminate. Qed.
Lemma prefix_nil w : String.prefix EmptyString w = true.
Proof. destruct w; reflexivity. Qed.
Lemma prefix_word2 key : forall xs ys, over ahvd key -> List.length ys = List.length xs -> (String.length key <= List.length xs)%nat ->
  (String.prefix key (word2 xs ys) = true <-> starts bx key xs /\ starts by_ key ys).
Proof.
  induction key as [|c r IH]; intros xs ys Ho E HL; [rewrite prefix_nil; cbn; tauto|]. destruct xs as [|x xs]; cbn [String.length List.length] in HL; [lia|].
  destruct ys as [|y ys]; [discriminate|]. injection E as E. destruct Ho as (Hc & Ho). cbn [word2 starts]. rewrite prefix_cons, (IH xs ys Ho E) by lia.
  assert (K : c = letter x y <-> bx c = x /\ by_ c = y); [|tauto].
  destruct Hc as [<-|[<-|[<-|[<-|[]]]]]; destruct x, y; cbn; split; try tauto; intros; try discriminate; try (destruct H; discriminate).
Qed.
Lemma prefix_word1 key : forall xs, over ad key -> (String.length key <= List.length xs)%nat -> (String.prefix key (word1 xs) = true <-> starts bd key xs).
Proof.
  induction key as [|c r IH]; intros xs Ho HL; [rewrite prefix_nil; cbn; tauto|]. destruct xs as [|x xs]; cbn [String.length List.length] in HL; [lia|].
  destruct Ho as (Hc & Ho). cbn [word1 starts]. rewrite prefix_cons, (IH xs Ho) by lia.
  assert (K : c = letter x x <-> bd c = x); [|tauto].
  destruct Hc as [<-|[<-|[]]]; destruct x; cbn; split; try tauto; intros; discriminate.
Qed.

(** The picture of a packet basis. *)
Theorem wp_tiling L keys s0 s1 : leaves ahvd L keys -> (2 ^ Z.of_nat L | s0) -> (2 ^ Z.of_nat L | s1) -> 0 <= s0 -> 0 <= s1 ->
  exists bs c, wp_basis_coords (s0, s1) keys = Ok (bs, c) /\ List.length bs = List.length keys /\ tiling s0 s1 bs /\
    forall n k b, nth_error keys n = Some k -> nth_error bs n = Some b -> dget c k = Some (middle b).
Proof.
  intros (Hk & Hw) D0 D1 P0 P1.
  destruct (wp_loop_eq s0 s1 keys None [] []) as (c & E & C1 & _).
  { intros k I ->. destruct (Hk _ I) as (_ & K). cbn in K. lia. }
  exists (map (wbox s0 s1) keys), c. split; [exact E|]. split; [apply map_length|].
  cut (tiling s0 s1 (map (wbox s0 s1) keys)).
  { intros T. split; auto. intros n k b E1 E2. rewrite nth_error_map, E1 in E2. injection E2 as <-. rewrite C1 by (eapply nth_error_In; eauto). f_equal.
    unfold wbox, middle. destruct (box_ends (off bx s0 k) (off by_ s1 k) (wid s0 k) (wid s1 k)) as (-> & -> & -> & ->); try (apply wid_ge0; auto).
    unfold wmid. f_equal; do 2 f_equal; ring. }
  split.
  - intros i j Hi Hj. apply only_map.
    pose proof (bits_length L s0 i) as B0. pose proof (bits_length L s1 j) as B1.
    destruct (word2_ok (bits L s0 i) (bits L s1 j) ltac:(congruence)) as (W1 & W2).
    apply (only_ext (fun k => String.prefix k (word2 (bits L s0 i) (bits L s1 j)) = true)); [|apply Hw; auto; congruence].
    intros k I. destruct (Hk k I) as (Ho & Hl). unfold wbox. rewrite holds_box by (apply wid_ge0; auto).
    rewrite prefix_word2 by (auto; lia). rewrite (within_iff bx k L s0 i), (within_iff by_ k L s1 j) by (auto; lia). tauto.
  - intros i j b I Hb. apply in_map_iff in I. destruct I as (k & <- & I). destruct (Hk k I) as (Ho & Hl).
    unfold wbox in Hb. apply holds_box in Hb; try (apply wid_ge0; auto).
    pose proof (off_range bx k L s0 ltac:(lia) D0 P0). pose proof (off_range by_ k L s1 ltac:(lia) D1 P1). lia.
Qed.
(** The picture of the fully separable transform. *)
Lemma fsw_tiling_keys L keys s0 s1 : leaves ad L keys -> (2 ^ Z.of_nat L | s0) -> (2 ^ Z.of_nat L | s1) -> 0 <= s0 -> 0 <= s1 ->
  tiling s0 s1 (map (fbox s0 s1) (list_prod keys keys)).
Proof.
  intros (Hk & Hw) D0 D1 P0 P1. split.
  - intros i j Hi Hj. apply only_map.
    pose proof (bits_length L s0 i) as B0. pose proof (bits_length L s1 j) as B1.
    destruct (word1_ok (bits L s0 i)) as (W1 & W2). destruct (word1_ok (bits L s1 j)) as (V1 & V2).
    apply (only_ext (fun '(k, k') => String.prefix k (word1 (bits L s0 i)) = true /\ String.prefix k' (word1 (bits L s1 j)) = true)).
    + intros (k, k') I. apply in_prod_iff in I. destruct I as (I & I'). destruct (Hk k I) as (Ho & Hl). destruct (Hk k' I') as (Ho' & Hl').
      unfold fbox. cbn [fst snd]. rewrite holds_box by (apply wid_ge0; auto).
      rewrite !prefix_word1 by (auto; lia). rewrite (within_iff bd k L s0 i), (within_iff bd k' L s1 j) by (auto; lia). tauto.
    + apply only_prod; apply Hw; auto; congruence.
  - intros i j b I Hb. apply in_map_iff in I. destruct I as ((k, k') & <- & I). apply in_prod_iff in I. destruct I as (I & I').
    destruct (Hk k I) as (Ho & Hl). destruct (Hk k' I') as (Ho' & Hl').
    unfold fbox in Hb. cbn [fst snd] in Hb. apply holds_box in Hb; try (apply wid_ge0; auto).
    pose proof (off_range bd k L s0 ltac:(lia) D0 P0). pose proof (off_range bd k' L s1 ltac:(lia) D1 P1). lia.
Qed.
