(** Names with parameters: cmorB-C, shanB-C, fbspM-B-C. *)
From Coq Require Import String Ascii QArith.
From Verif Require Import Base BaseLemmas CConv Lengths Dwt Swt Filters NamesSpec Names NamesProofs.
Open Scope Z_scope.
Local Infix "++s" := String.append (at level 60, right associativity).

Fixpoint all_chars (p : ascii -> bool) (s : string) : bool :=
  match s with EmptyString => true | String c t => p c && all_chars p t end.
Definition head_not (p : ascii -> bool) (s : string) : bool :=
  match s with EmptyString => true | String c _ => negb (p c) end.

(** A decimal numeral: digits, at most one dot, digits after the dot only. *)
Definition decimal (t : token) : Prop :=
  let '(d1, k, d2) := t in
  all_chars is_digit d1 = true /\ d1 <> EmptyString /\ all_chars is_digit d2 = true /\ (k = 1%nat \/ k = 0%nat /\ d2 = EmptyString).
Definition render (t : token) : string :=
  let '(d1, k, d2) := t in d1 ++s (if (k =? 0)%nat then EmptyString else ".") ++s d2.
(** Its value. *)
Definition decimal_value (t : token) : Q :=
  let '(d1, k, d2) := t in Qmake (digits_val 0 (d1 ++s d2)) (Z.to_pos (10 ^ Z.of_nat (String.length d2))).

Lemma span_app p s r : all_chars p s = true -> head_not p r = true -> span p (s ++s r) = (s, r).
Proof.
  intros Hs Hr. induction s as [|c t IH]; cbn [String.append].
  - destruct r as [|c t]; [reflexivity|]. cbn [span head_not] in *. apply negb_true_iff in Hr. rewrite Hr. reflexivity.
  - cbn [all_chars] in Hs. apply andb_true_iff in Hs. destruct Hs as (H1 & H2). cbn [span]. rewrite H1, IH by auto. reflexivity.
Qed.


Lemma app_empty_l s : EmptyString ++s s = s. Proof. reflexivity. Qed.
Lemma sapp_assoc a b c : (a ++s b) ++s c = a ++s b ++s c.
Proof. induction a as [|x a IH]; cbn [String.append]; [reflexivity|]. rewrite IH. reflexivity. Qed.

Lemma digit_not_dot c : is_digit c = true -> is_dot c = false.
Proof. destruct c as [[] [] [] [] [] [] [] []]; vm_compute; auto; discriminate. Qed.

(** One match: non-digits, then a decimal, then something that starts neither
    with a digit nor with a dot. *)
Lemma findall_step fuel nd t rest :
  all_chars (fun c => negb (is_digit c)) nd = true -> nd <> EmptyString -> decimal t ->
  head_not is_digit rest = true -> head_not is_dot rest = true ->
  findall (S fuel) (nd ++s render t ++s rest) = t :: findall fuel rest.
Proof.
  destruct t as [[d1 k] d2]. intros Hnd Hne (H1 & H2 & H3 & H4) Hd Hp. cbn [findall render].
  set (dots := if (k =? 0)%nat then EmptyString else "."%string).
  assert (Ed : String.length dots = k /\ all_chars is_dot dots = true /\ (dots = EmptyString -> d2 = EmptyString)).
  { unfold dots. destruct H4 as [->|[-> ->]]; cbn; repeat split; auto; discriminate. }
  destruct Ed as (Ed1 & Ed2 & Ed3). clearbody dots.
  rewrite !sapp_assoc. rewrite (span_app _ nd).
  2: auto. 2: { destruct d1 as [|c d1]; [congruence|]. cbn [all_chars] in H1. apply andb_true_iff in H1. cbn [String.append head_not]. rewrite (proj1 H1). reflexivity. }
  destruct nd as [|c nd]; [congruence|].
  rewrite (span_app is_digit d1).
  2: auto. 2: { destruct dots as [|c' dots].
    - rewrite Ed3 by auto. exact Hd.
    - cbn [all_chars] in Ed2. apply andb_true_iff in Ed2. cbn [String.append head_not].
      destruct (is_digit c') eqn:E; [|reflexivity]. apply digit_not_dot in E. destruct Ed2. congruence. }
  destruct d1 as [|c1 d1]; [congruence|].
  rewrite (span_app is_dot dots).
  2: auto. 2: { destruct d2 as [|c' d2]; [exact Hp|]. cbn [all_chars] in H3. apply andb_true_iff in H3. cbn [String.append head_not].
    rewrite digit_not_dot by apply H3. reflexivity. }
  rewrite (span_app is_digit d2) by auto. rewrite Ed1. reflexivity.
Qed.

Lemma digits_val_app a s t : digits_val a (s ++s t) = digits_val (digits_val a s) t.
Proof. revert a. induction s as [|c s IH]; intros a; cbn [String.append digits_val]; auto. Qed.

Lemma to_float_decimal t : decimal t -> to_float t = Ok (decimal_value t).
Proof.
  destruct t as [[d1 k] d2]. intros (_ & _ & _ & H). cbn [to_float decimal_value]. rewrite digits_val_app.
  destruct H as [->|[-> _]]; reflexivity.
Qed.

(** lower leaves digits, dots and dashes alone. *)
Lemma lower_app s t : lower (s ++s t) = lower s ++s lower t.
Proof. induction s as [|c s IH]; cbn [String.append lower]; [reflexivity|]. rewrite IH. reflexivity. Qed.
Lemma lower_digits s : all_chars is_digit s = true -> lower s = s.
Proof.
  induction s as [|c s IH]; cbn [all_chars lower]; [reflexivity|]. rewrite andb_true_iff. intros (H1 & H2). rewrite IH by auto. f_equal.
  revert H1. destruct c as [[] [] [] [] [] [] [] []]; vm_compute; auto; discriminate.
Qed.
Lemma lower_render t : decimal t -> lower (render t) = render t.
Proof.
  destruct t as [[d1 k] d2]. intros (H1 & _ & H3 & _). cbn [render]. rewrite !lower_app, (lower_digits d1 H1).
  rewrite (lower_digits d2 H3). destruct (k =? 0)%nat; reflexivity.
Qed.
Lemma render_len t : decimal t -> exists c s, render t = String c s.
Proof. destruct t as [[d1 k] d2]. intros (_ & H & _). cbn [render]. destruct d1; [congruence|]. cbn [String.append]. eauto. Qed.

Lemma slen_app a b : String.length (a ++s b) = (String.length a + String.length b)%nat.
Proof. induction a as [|x a IH]; cbn [String.append String.length]; lia. Qed.

Lemma sub00 s : String.substring 0 0 s = EmptyString.
Proof. destruct s; reflexivity. Qed.

Theorem cmor_shan_name f b c : f = CMOR \/ f = SHAN -> decimal b -> decimal c ->
  continuous_new (short f ++s render b ++s "-" ++s render c) = Ok (mkCwave f 0 (Some (decimal_value b)) (Some (decimal_value c)) None).
Proof.
  intros Hf Hb Hc. unfold continuous_new.
  assert (L : lower (short f ++s render b ++s "-" ++s render c) = short f ++s render b ++s "-" ++s render c).
  { rewrite !lower_app, !lower_render by auto. destruct Hf as [-> | ->]; reflexivity. }
  rewrite L. set (name := short f ++s render b ++s "-" ++s render c).
  assert (P : pre 4 name = short f).
  { unfold name, pre. destruct Hf as [-> | ->]; cbn [short String.append String.substring]; rewrite sub00; reflexivity. }
  assert (G : (4 <=? Z.of_nat (String.length name)) = true).
  { unfold name. rewrite slen_app. destruct Hf as [-> | ->]; cbn [short String.length]; lia. }
  rewrite G, P. replace (mem (short f) special) with true by (destruct Hf as [-> | ->]; reflexivity). cbn [andb].
  assert (W : wname_to_code (short f) = Ok (f, 0)) by (destruct Hf as [-> | ->]; vm_compute; reflexivity).
  rewrite W. cbn [bind]. replace (continuous_wavelet f 0) with true by (destruct Hf as [-> | ->]; reflexivity). cbn [negb].
  assert (N : String.eqb (short f) name = false).
  { apply String.eqb_neq. intros E. assert (El : String.length (short f) = String.length name) by (rewrite <- E; reflexivity).
    unfold name in El. rewrite slen_app in El. destruct (render_len b Hb) as (x & y & Hx). rewrite Hx in El. cbn [String.append String.length] in El. lia. }
  rewrite N. replace (mem (short f) ["shan"; "cmor"]%string) with true by (destruct Hf as [-> | ->]; reflexivity).
  assert (FA : exists m, S (String.length name) = S (S (S m))).
  { unfold name. rewrite slen_app. destruct Hf as [-> | ->]; cbn [short String.length Nat.add]; eauto. }
  destruct FA as (m & ->). unfold name.
  rewrite findall_step; [|destruct Hf as [-> | ->]; reflexivity|destruct Hf as [-> | ->]; discriminate|auto|reflexivity|reflexivity].
  replace ("-" ++s render c) with ("-" ++s render c ++s EmptyString).
  2: { f_equal. clear. induction (render c) as [|x s IH]; cbn [String.append]; [reflexivity|]. rewrite IH. reflexivity. }
  rewrite (findall_step (S m) "-" c EmptyString); [|reflexivity|discriminate|auto|reflexivity|reflexivity].
  cbn [findall span]. rewrite !to_float_decimal by auto. reflexivity.
Qed.

(** Too few parameters: rejected. *)
Theorem cmor_shan_one f b : f = CMOR \/ f = SHAN -> decimal b -> continuous_new (short f ++s render b) = Err ValueError.
Proof.
  intros Hf Hb. unfold continuous_new.
  assert (L : lower (short f ++s render b) = short f ++s render b).
  { rewrite !lower_app, !lower_render by auto. destruct Hf as [-> | ->]; reflexivity. }
  rewrite L. set (name := short f ++s render b).
  assert (P : pre 4 name = short f).
  { unfold name, pre. destruct Hf as [-> | ->]; cbn [short String.append String.substring]; rewrite sub00; reflexivity. }
  assert (G : (4 <=? Z.of_nat (String.length name)) = true).
  { unfold name. rewrite slen_app. destruct Hf as [-> | ->]; cbn [short String.length]; lia. }
  rewrite G, P. replace (mem (short f) special) with true by (destruct Hf as [-> | ->]; reflexivity). cbn [andb].
  assert (W : wname_to_code (short f) = Ok (f, 0)) by (destruct Hf as [-> | ->]; vm_compute; reflexivity).
  rewrite W. cbn [bind]. replace (continuous_wavelet f 0) with true by (destruct Hf as [-> | ->]; reflexivity). cbn [negb].
  assert (N : String.eqb (short f) name = false).
  { apply String.eqb_neq. intros E. assert (El : String.length (short f) = String.length name) by (rewrite <- E; reflexivity).
    unfold name in El. rewrite slen_app in El. destruct (render_len b Hb) as (x & y & Hx). rewrite Hx in El. cbn [String.append String.length] in El. lia. }
  rewrite N. replace (mem (short f) ["shan"; "cmor"]%string) with true by (destruct Hf as [-> | ->]; reflexivity).
  unfold name. replace (short f ++s render b) with (short f ++s render b ++s EmptyString) at 2.
  2: { f_equal. clear. induction (render b) as [|x s IH]; cbn [String.append]; [reflexivity|]. rewrite IH. reflexivity. }
  rewrite findall_step; [|destruct Hf as [-> | ->]; reflexivity|destruct Hf as [-> | ->]; discriminate|auto|reflexivity|reflexivity].
  destruct (String.length _); reflexivity.
Qed.

(** The sign in front of a parameter is not part of it. *)
Lemma sign_ignored : continuous_new "cmor-1.5-1.0" = continuous_new "cmor1.5-1.0" /\
  (exists w, continuous_new "cmor-1.5-1.0" = Ok w) /\ (exists w, continuous_new "shanABC0.5xyz1.0" = Ok w).
Proof. split; [vm_compute; reflexivity|]. split; eexists; vm_compute; reflexivity. Qed.
