(** The sort order of wavelist, str.lower, and the fbspM-B-C names. *)
From Coq Require Import String Ascii QArith Sorted Permutation.
From Verif Require Import Base BaseLemmas CConv Lengths Dwt Swt Filters NamesSpec Names NamesProofs NamesProofs2.
Open Scope Z_scope.
Local Infix "++s" := String.append (at level 60, right associativity).

(** ** The order *)
Definition nat_before (s t : string) : Prop :=
  String.compare (substring 0 2 s) (substring 0 2 t) = Lt \/
  (substring 0 2 s = substring 0 2 t /\
   ((String.length s < String.length t)%nat \/ (String.length s = String.length t /\ String.compare s t = Lt))).

Lemma str_lt_compare s t : str_lt s t = true <-> String.compare s t = Lt.
Proof.
  revert t. induction s as [|a s IH]; intros [|b t]; cbn [str_lt String.compare]; try (split; discriminate); [split; auto|].
  unfold Ascii.compare, nat_of_ascii. destruct (N.compare_spec (N_of_ascii a) (N_of_ascii b)) as [E|E|E].
  - rewrite E, !Nat.ltb_irrefl. apply IH.
  - replace (_ <? _)%nat with true by (symmetry; apply Nat.ltb_lt; lia). split; auto.
  - replace (N.to_nat (N_of_ascii a) <? N.to_nat (N_of_ascii b))%nat with false by (symmetry; apply Nat.ltb_ge; lia).
    replace (N.to_nat (N_of_ascii b) <? N.to_nat (N_of_ascii a))%nat with true by (symmetry; apply Nat.ltb_lt; lia). split; discriminate.
Qed.
Lemma str_lt_trans s t u : str_lt s t = true -> str_lt t u = true -> str_lt s u = true.
Proof.
  revert t u. induction s as [|a s IH]; intros [|b t] [|c u]; cbn [str_lt]; try discriminate; auto.
  destruct (Nat.ltb_spec (nat_of_ascii a) (nat_of_ascii b)), (Nat.ltb_spec (nat_of_ascii b) (nat_of_ascii c)),
    (Nat.ltb_spec (nat_of_ascii a) (nat_of_ascii c)); auto; try lia;
  destruct (Nat.ltb_spec (nat_of_ascii b) (nat_of_ascii a)), (Nat.ltb_spec (nat_of_ascii c) (nat_of_ascii b)),
    (Nat.ltb_spec (nat_of_ascii c) (nat_of_ascii a)); auto; try lia; try discriminate.
  apply IH.
Qed.
Lemma str_lt_total s t : str_lt s t = false -> str_lt t s = false -> s = t.
Proof.
  revert t. induction s as [|a s IH]; intros [|b t]; cbn [str_lt]; try discriminate; auto.
  destruct (Nat.ltb_spec (nat_of_ascii a) (nat_of_ascii b)), (Nat.ltb_spec (nat_of_ascii b) (nat_of_ascii a)); try discriminate.
  intros H1 H2. f_equal; [|apply IH; auto]. rewrite <- (ascii_nat_embedding a), <- (ascii_nat_embedding b). f_equal. lia.
Qed.
Lemma str_lt_irrefl s : str_lt s s = false.
Proof. induction s as [|a s IH]; cbn [str_lt]; auto. rewrite Nat.ltb_irrefl. auto. Qed.

Lemma key_lt_spec s t : key_lt s t = true <-> nat_before s t.
Proof.
  unfold key_lt, nat_before, pre. rewrite <- !str_lt_compare.
  destruct (str_lt (substring 0 2 s) (substring 0 2 t)) eqn:E1; [split; auto|].
  destruct (str_lt (substring 0 2 t) (substring 0 2 s)) eqn:E2.
  - split; [discriminate|]. intros [H|[H _]]; [discriminate|]. rewrite H, str_lt_irrefl in E2. discriminate.
  - pose proof (str_lt_total _ _ E1 E2) as E. destruct (Nat.ltb_spec (String.length s) (String.length t)); [split; auto|].
    destruct (Nat.ltb_spec (String.length t) (String.length s)).
    + split; [discriminate|]. intros [?|(_ & [?|[? _]])]; try discriminate; lia.
    + split; [intros; right; split; [auto|right; split; [lia|auto]]|]. intros [?|(_ & [?|[_ ?]])]; auto; try discriminate; lia.
Qed.
Lemma before_trans s t u : nat_before s t -> nat_before t u -> nat_before s u.
Proof.
  unfold nat_before. rewrite <- !str_lt_compare. intros [H1|(H1 & H2)] [H3|(H3 & H4)].
  - left. eapply str_lt_trans; eauto.
  - left. rewrite <- H3. auto.
  - left. rewrite H1. auto.
  - right. split; [congruence|]. destruct H2 as [H2|(H2 & H2')], H4 as [H4|(H4 & H4')]; try (left; lia).
    right. split; [lia|]. eapply str_lt_trans; eauto.
Qed.
Lemma before_total s t : ~ nat_before s t -> s <> t -> nat_before t s.
Proof.
  intros H Hne. apply key_lt_spec. destruct (key_lt t s) eqn:E; auto. exfalso. apply Hne.
  assert (E' : key_lt s t = false) by (destruct (key_lt s t) eqn:E'; auto; apply key_lt_spec in E'; tauto).
  unfold key_lt in E, E'. destruct (str_lt (pre 2 s) (pre 2 t)); try discriminate. destruct (str_lt (pre 2 t) (pre 2 s)); try discriminate.
  destruct (Nat.ltb_spec (String.length s) (String.length t)); try discriminate.
  destruct (Nat.ltb_spec (String.length t) (String.length s)); try discriminate. apply str_lt_total; auto.
Qed.

(** [before_eq]: before or equal. *)
Definition before_eq (s t : string) : Prop := nat_before s t \/ s = t.
Lemma before_eq_trans s t u : before_eq s t -> before_eq t u -> before_eq s u.
Proof. unfold before_eq. intros [H|<-] [H'|<-]; auto. left. eapply before_trans; eauto. Qed.
Theorem sort_sorted l : Permutation l (sort l) /\ StronglySorted before_eq (sort l).
Proof.
  induction l as [|s l (IP & IS)]; cbn [sort fold_right]; [split; constructor|]. fold (sort l).
  assert (G : forall r, Permutation (s :: r) (insert s r) /\ (StronglySorted before_eq r -> StronglySorted before_eq (insert s r))).
  { clear. induction r as [|t r (IP & IS)]; cbn [insert]; [split; [auto|intros; repeat constructor]|].
    destruct (key_lt t s) eqn:E.
    - split; [rewrite perm_swap; constructor; auto|]. intros H. inversion H; subst. constructor; auto.
      apply Forall_forall. intros x Hx. apply (Permutation_in _ (Permutation_sym IP)) in Hx. destruct Hx as [<-|Hx]; [left; apply key_lt_spec; auto|].
      rewrite Forall_forall in H3. auto.
    - split; auto. intros H. assert (Hst : before_eq s t).
      { destruct (string_dec s t) as [->|Hne]; [right; auto|]. left. apply before_total; auto. intros Hk. apply key_lt_spec in Hk. congruence. }
      constructor; auto. constructor; auto. inversion H; subst. eapply Forall_impl; [|eassumption]. intros x Hx. eapply before_eq_trans; eauto. }
  split; [rewrite IP at 1; apply G|apply G; auto].
Qed.

Theorem wavelist_order fam k l : wavelist fam k = Ok l -> StronglySorted before_eq l.
Proof.
  unfold wavelist. destruct fam as [f|].
  - generalize (filter (String.prefix f) (map fst registry)) as r. destruct (mem f _); [|discriminate]. intros r E.
    apply (f_equal (fun x => match x with Ok a => a | _ => [] end)) in E. subst l. apply sort_sorted.
  - generalize (filterM (fun n => check_kind n k) (map fst registry)) as r. intros [m| | |e]; cbn [bind]; try discriminate.
    intros E. injection E as <-. apply sort_sorted.
Qed.

(** ** lower *)
Definition upper_letters : string := "ABCDEFGHIJKLMNOPQRSTUVWXYZ".
Definition lower_letters : string := "abcdefghijklmnopqrstuvwxyz".
Theorem lower_get s : String.length (lower s) = String.length s /\ forall i c, String.get i s = Some c ->
  String.get i (lower s) = match String.index 0 (String c EmptyString) upper_letters with Some k => String.get k lower_letters | None => Some c end.
Proof.
  split.
  - induction s as [|c s IH]; cbn; auto.
  - induction s as [|x s IH]; intros i c; [destruct i; discriminate|]. destruct i as [|i]; cbn [String.get lower]; [|apply IH].
    intros E. injection E as ->. destruct c as [[] [] [] [] [] [] [] []]; reflexivity.
Qed.

(** ** fbspM-B-C *)
Lemma append_nil_r s : s ++s EmptyString = s.
Proof. induction s as [|x s IH]; cbn [String.append]; [reflexivity|]. rewrite IH. reflexivity. Qed.

(** The order is a whole number of at least one. *)
Definition whole (m : token) (k : Z) : Prop := (decimal_value m == inject_Z k)%Q.
Theorem fbsp_name m b c : decimal m -> decimal b -> decimal c ->
  (forall k, whole m k -> 1 <= k ->
     continuous_new ("fbsp" ++s render m ++s "-" ++s render b ++s "-" ++s render c) = Ok (mkCwave FBSP 0 (Some (decimal_value b)) (Some (decimal_value c)) (Some k))) /\
  ((forall k, whole m k -> k < 1) ->
     continuous_new ("fbsp" ++s render m ++s "-" ++s render b ++s "-" ++s render c) = Err ValueError).
Proof.
  intros Hm Hb Hc.
  assert (G : continuous_new ("fbsp" ++s render m ++s "-" ++s render b ++s "-" ++s render c)
    = let q := decimal_value m in if negb (Qle_bool 1 q) || negb (Qnum q mod Zpos (Qden q) =? 0) then Err ValueError
      else Ok (mkCwave FBSP 0 (Some (decimal_value b)) (Some (decimal_value c)) (Some (Qnum q / Zpos (Qden q))))).
  { unfold continuous_new.
    assert (L : lower ("fbsp" ++s render m ++s "-" ++s render b ++s "-" ++s render c) = "fbsp" ++s render m ++s "-" ++s render b ++s "-" ++s render c).
    { rewrite !lower_app, !lower_render by auto. reflexivity. }
    rewrite L. set (name := "fbsp" ++s _). assert (P : pre 4 name = "fbsp"%string).
    { unfold name, pre. cbn [String.append String.substring]. rewrite sub00. reflexivity. }
    assert (Gl : (4 <=? Z.of_nat (String.length name)) = true) by (unfold name; rewrite slen_app; cbn [String.length]; lia).
    rewrite Gl, P. change (mem "fbsp" special) with true. cbn [andb].
    assert (W : wname_to_code "fbsp" = Ok (FBSP, 0)) by (vm_compute; reflexivity). rewrite W. cbn [bind].
    change (negb (continuous_wavelet FBSP 0)) with false. cbn iota.
    assert (N : String.eqb "fbsp" name = false).
    { apply String.eqb_neq. intros E. assert (El : String.length "fbsp" = String.length name) by (rewrite <- E; reflexivity).
      unfold name in El. rewrite slen_app in El. destruct (render_len m Hm) as (x & y & Hx). rewrite Hx in El. cbn [String.append String.length] in El. lia. }
    rewrite N. change (mem "fbsp" ["shan"; "cmor"]%string) with false. cbn iota.
    assert (FA : exists n, S (String.length name) = S (S (S (S n)))).
    { unfold name. rewrite slen_app. cbn [String.length Nat.add]. eauto. }
    destruct FA as (n & ->). unfold name.
    rewrite findall_step by (auto; discriminate || reflexivity).
    rewrite findall_step by (auto; discriminate || reflexivity).
    replace ("-" ++s render c) with ("-" ++s render c ++s EmptyString) by (rewrite append_nil_r; reflexivity).
    rewrite findall_step by (auto; discriminate || reflexivity).
    cbn [findall span]. rewrite !to_float_decimal by auto. reflexivity. }
  rewrite G. cbv zeta. unfold whole. set (q := decimal_value m). clearbody q. clear G. split.
  - intros k Hk H1. destruct q as [n d]. unfold Qeq, inject_Z in Hk. cbn [Qnum Qden] in *. rewrite Z.mul_1_r in Hk.
    assert (E1 : Qle_bool 1 (n # d) = true) by (apply Qle_bool_iff; unfold Qle; cbn [Qnum Qden]; nia). rewrite E1, Hk, Z_mod_mult, Z_div_mult by lia. reflexivity.
  - intros H. destruct (Qle_bool 1 q) eqn:E1; cbn [negb orb]; [|reflexivity]. destruct (Z.eqb_spec (Qnum q mod Z.pos (Qden q)) 0) as [E|E]; [|reflexivity].
    exfalso. apply Qle_bool_iff in E1. destruct q as [n d]. cbn [Qnum Qden] in *.
    specialize (H (n / Zpos d)). assert (Hd : n = n / Zpos d * Zpos d) by (pose proof (Z.div_mod n (Zpos d)); lia).
    assert (n / Zpos d < 1) by (apply H; unfold Qeq, inject_Z; cbn [Qnum Qden]; lia). unfold Qle in E1. cbn [Qnum Qden] in E1. nia.
Qed.
