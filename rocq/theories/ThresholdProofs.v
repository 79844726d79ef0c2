(** Laws of the thresholding functions. *)
From Coq Require Import Lqa String.
From Verif Require Import Base Dwt Threshold.
Open Scope Q_scope.

(** Specifications. *)
Definition soft_spec (v x : Q) : Q := if Qle_bool 0 x then Qmax (x - v) 0 else - Qmax (- x - v) 0.
Definition finite (r : xq) (y : Q) : Prop := exists q, r = Fin q /\ q == y.

Lemma Qltb_lt a b : Qltb a b = true <-> a < b.
Proof. unfold Qltb. rewrite Bool.negb_true_iff. split; intros H.
  - apply Qnot_le_lt. intros L. apply Qle_bool_iff in L. congruence.
  - destruct (Qle_bool b a) eqn:E; auto. apply Qle_bool_iff in E. exfalso. apply (Qlt_not_le _ _ H E). Qed.
Lemma Qltb_ge a b : Qltb a b = false <-> b <= a.
Proof. unfold Qltb. rewrite Bool.negb_false_iff. apply Qle_bool_iff. Qed.
Lemma Qltb_spec a b : (a < b /\ Qltb a b = true) \/ (b <= a /\ Qltb a b = false).
Proof. destruct (Qltb a b) eqn:E; [left; apply Qltb_lt in E|right; apply Qltb_ge in E]; auto. Qed.
Lemma Qabs_cases x : (0 <= x /\ Qabs x == x) \/ (x < 0 /\ Qabs x == - x).
Proof. destruct (Qlt_le_dec x 0); [right|left]; split; auto; [apply Qabs_neg; lra|apply Qabs_pos; auto]. Qed.
Lemma Qeqb_false a b : ~ a == b -> Qeq_bool a b = false.
Proof. intros H. destruct (Qeq_bool a b) eqn:E; auto. apply Qeq_bool_iff in E. tauto. Qed.
Lemma Qeqb_true a b : a == b -> Qeq_bool a b = true.
Proof. apply Qeq_bool_iff. Qed.

(** The soft and garrote factors for a positive threshold. *)
Lemma factor_spec (num den x : Q) : 0 < num -> 0 <= den -> (den == 0 -> x == 0) ->
  exists q, xmul (Fin x) (xclip0 (xsub (Fin 1) (xdiv (Fin num) (Fin den)))) = Fin q /\
    (den <= num -> q == 0) /\ (num <= den -> q * den == x * (den - num)).
Proof.
  intros Hn Hd H0. unfold xdiv.
  destruct (Qlt_le_dec 0 den) as [Hp|Hp].
  - rewrite Qeqb_false by lra. cbn [xsub xopp xadd xclip0].
    assert (Hx : num / den * den == num) by (field; lra).
    set (t := num / den) in *. destruct (Qltb_spec (1 + - t) 0) as [(L & ->)|(L & ->)]; cbn [xmul]; eexists; (split; [reflexivity|]); split; intros H.
    + ring.
    + assert (1 < t) by lra. assert (den * 1 < den * t) by nra. lra.
    + assert (t <= 1) by lra. assert (t * den <= den) by nra. assert (E : num == den) by lra. assert (T1 : t == 1) by nra. rewrite T1. ring.
    + assert (E : x * (1 + - t) * den == x * (den - t * den)) by ring. rewrite E, Hx. reflexivity.
  - rewrite Qeqb_true by lra. rewrite Qeqb_false by lra. destruct (Qltb_spec 0 num) as [(L & ->)|(L & ->)]; [|lra].
    cbn [xsub xopp xadd xclip0 xmul]. eexists. split; [reflexivity|]. split; intros H; [ring|lra].
Qed.

Lemma soft1_spec v x : 0 < v -> finite (soft1 v 0 x) (soft_spec v x).
Proof.
  intros Hv. unfold soft1, finite, soft_spec. cbn [Qeq_bool Qnum Qden Zeq_bool Z.mul Z.compare].
  destruct (factor_spec v (Qabs x) x Hv (Qabs_nonneg x)) as (q & E & E1 & E2).
  { intros H. destruct (Qabs_cases x) as [(A & B)|(A & B)]; lra. }
  exists q. split.
  { rewrite <- E. reflexivity. }
  destruct (Qabs_cases x) as [(A & B)|(A & B)].
  - rewrite (proj2 (Qle_bool_iff 0 x) A). destruct (Qlt_le_dec v x) as [L|L].
    + rewrite Q.max_l by lra. rewrite B in E2. assert (H : q * x == x * (x - v)) by (apply E2; lra).
      assert (Hx : 0 < x) by lra. nra.
    + rewrite Q.max_r by lra. apply E1. lra.
  - destruct (Qle_bool 0 x) eqn:F; [apply Qle_bool_iff in F; lra|]. destruct (Qlt_le_dec v (- x)) as [L|L].
    + rewrite Q.max_l by lra. rewrite B in E2. assert (H : q * - x == x * (- x - v)) by (apply E2; lra). nra.
    + rewrite Q.max_r by lra. rewrite E1 by lra. reflexivity.
Qed.

Lemma soft_sub v s x : 0 < v -> ~ s == 0 ->
  finite (soft1 v s x) (if Qltb (Qabs x) v then s else soft_spec v x).
Proof.
  intros Hv Hs. destruct (soft1_spec v x Hv) as (q & E & Eq). unfold soft1 in *. rewrite (Qeqb_false s 0) by auto.
  cbn [Qeq_bool Qnum Qden Zeq_bool Z.mul Z.compare] in E. destruct (Qltb (Qabs x) v).
  - exists s. split; reflexivity.
  - exists q. split; auto.
Qed.

(** Garrote: x - v^2/x above the threshold. *)
Definition garrote_spec (v x : Q) : Q := if Qltb (Qabs x) v then 0 else x - v * v / x.
Lemma garrote1_spec v x : 0 < v -> finite (garrote1 v 0 x) (garrote_spec v x).
Proof.
  intros Hv. unfold garrote1, finite, garrote_spec. cbn [Qeq_bool Qnum Qden Zeq_bool Z.mul Z.compare].
  pose proof (Qabs_nonneg x) as Ha.
  destruct (factor_spec (v * v) (Qabs x * Qabs x) x ltac:(nra) ltac:(nra)) as (q & E & E1 & E2).
  { intros H. destruct (Qabs_cases x) as [(A & B)|(A & B)]; rewrite B in *; nra. }
  exists q. split.
  { rewrite <- E. reflexivity. }
  assert (Hsq : Qabs x * Qabs x == x * x) by (destruct (Qabs_cases x) as [(A & B)|(A & B)]; rewrite B; ring).
  destruct (Qltb_spec (Qabs x) v) as [(L & ->)|(L & ->)].
  - apply E1. nra.
  - assert (Hx : ~ x == 0).
    { intros Hx. rewrite Hx in L. cbn in L. lra. }
    assert (H : q * (Qabs x * Qabs x) == x * (Qabs x * Qabs x - v * v)) by (apply E2; nra).
    rewrite Hsq in H. apply (Qmult_inj_r _ _ (x * x)).
    + intros H0. apply Hx. destruct (Q_dec x 0) as [[?|?]|?]; nra.
    + rewrite H. field. auto.
Qed.

Lemma hard1_spec v s x : finite (hard1 v s x) (if Qltb (Qabs x) v then s else x).
Proof. unfold hard1, finite. destruct (Qltb _ _); eexists; split; reflexivity. Qed.
Lemma greater1_spec v s x : finite (greater1 v s x) (if Qltb x v then s else x).
Proof. unfold greater1, finite. destruct (Qltb _ _); eexists; split; reflexivity. Qed.
Lemma less1_spec v s x : finite (less1 v s x) (if Qltb v x then s else x).
Proof. unfold less1, finite. destruct (Qltb _ _); eexists; split; reflexivity. Qed.

(** ** Laws *)
Ltac qcase := repeat match goal with
  | |- context [Qabs ?x] => let A := fresh in let B := fresh in destruct (Qabs_cases x) as [(A & B)|(A & B)]; rewrite B in *; clear B
  | H : context [Qabs ?x] |- _ => let A := fresh in let B := fresh in destruct (Qabs_cases x) as [(A & B)|(A & B)]; rewrite B in *; clear B
  end.

Lemma soft_spec_cases v x : 0 < v ->
  (x <= - v /\ soft_spec v x == x + v) \/ (- v <= x <= v /\ soft_spec v x == 0) \/ (v <= x /\ soft_spec v x == x - v).
Proof.
  intros Hv. unfold soft_spec. destruct (Qle_bool 0 x) eqn:E.
  - apply Qle_bool_iff in E. destruct (Qlt_le_dec v x).
    + right; right. split; [lra|]. rewrite Q.max_l by lra. reflexivity.
    + right; left. split; [lra|]. rewrite Q.max_r by lra. reflexivity.
  - assert (Hx : x < 0) by (apply Qnot_le_lt; intros L; apply Qle_bool_iff in L; congruence).
    destruct (Qlt_le_dec v (- x)).
    + left. split; [lra|]. rewrite Q.max_l by lra. ring.
    + right; left. split; [lra|]. rewrite Q.max_r by lra. reflexivity.
Qed.

Lemma soft_odd v x : 0 < v -> soft_spec v (- x) == - soft_spec v x.
Proof.
  intros Hv. destruct (soft_spec_cases v x Hv) as [(A & ->)|[(A & ->)|(A & ->)]];
    destruct (soft_spec_cases v (- x) Hv) as [(B & ->)|[(B & ->)|(B & ->)]]; lra.
Qed.
Lemma soft_mono v x y : 0 < v -> x <= y -> soft_spec v x <= soft_spec v y.
Proof.
  intros Hv H. destruct (soft_spec_cases v x Hv) as [(A & ->)|[(A & ->)|(A & ->)]];
    destruct (soft_spec_cases v y Hv) as [(B & ->)|[(B & ->)|(B & ->)]]; lra.
Qed.
Lemma soft_contraction v x y : 0 < v -> Qabs (soft_spec v x - soft_spec v y) <= Qabs (x - y).
Proof.
  intros Hv. destruct (soft_spec_cases v x Hv) as [(A & E)|[(A & E)|(A & E)]];
    destruct (soft_spec_cases v y Hv) as [(B & F)|[(B & F)|(B & F)]]; rewrite E, F; clear E F; qcase; lra.
Qed.
Lemma soft_abs v x : 0 < v -> Qabs (soft_spec v x) == Qmax (Qabs x - v) 0.
Proof.
  intros Hv. destruct (soft_spec_cases v x Hv) as [(A & E)|[(A & E)|(A & E)]]; rewrite E; clear E; qcase;
   try (rewrite Q.max_l by lra; lra); try (rewrite Q.max_r by lra; lra); lra.
Qed.

Lemma garrote_between v x : 0 < v ->
  Qabs (soft_spec v x) <= Qabs (garrote_spec v x) <= Qabs (if Qltb (Qabs x) v then 0 else x).
Proof.
  intros Hv. unfold garrote_spec. destruct (Qltb_spec (Qabs x) v) as [(L & ->)|(L & ->)].
  - assert (E : soft_spec v x == 0).
    { destruct (soft_spec_cases v x Hv) as [(A & E)|[(A & E)|(A & E)]]; auto; qcase; lra. }
    rewrite E. lra.
  - assert (Hx : ~ x == 0) by (intros H; rewrite H in L; cbn in L; lra).
    set (t := v * v / x). assert (Ht : t * x == v * v) by (unfold t; field; auto).
    destruct (Qabs_cases x) as [(A & B)|(A & B)]; rewrite B in *.
    + assert (Hp : 0 < x) by lra. assert (T0 : 0 <= t) by nra. assert (T1 : t <= v) by nra.
      destruct (soft_spec_cases v x Hv) as [(A' & E)|[(A' & E)|(A' & E)]]; rewrite E; clear E; qcase; lra.
    + assert (T0 : t <= 0) by nra. assert (T1 : - v <= t) by nra.
      destruct (soft_spec_cases v x Hv) as [(A' & E)|[(A' & E)|(A' & E)]]; rewrite E; clear E; qcase; lra.
Qed.

Lemma Qltb_abs_opp v x : Qltb (Qabs (- x)) v = Qltb (Qabs x) v.
Proof. unfold Qltb. f_equal. destruct (Qle_bool v (Qabs x)) eqn:E.
  - apply Qle_bool_iff. apply Qle_bool_iff in E. rewrite Qabs_opp. auto.
  - destruct (Qle_bool v (Qabs (- x))) eqn:F; auto. apply Qle_bool_iff in F. rewrite Qabs_opp in F. apply Qle_bool_iff in F. congruence.
Qed.
Lemma garrote_odd v x : 0 < v -> garrote_spec v (- x) == - garrote_spec v x.
Proof.
  intros Hv. unfold garrote_spec. rewrite Qltb_abs_opp. destruct (Qltb_spec (Qabs x) v) as [(L & ->)|(L & ->)]; [reflexivity|].
  assert (Hx : ~ x == 0) by (intros H; rewrite H in L; cbn in L; lra). field. auto.
Qed.
Lemma hard_odd v x : (if Qltb (Qabs (- x)) v then 0 else - x) == - (if Qltb (Qabs x) v then 0 else x).
Proof. rewrite Qltb_abs_opp. destruct (Qltb _ _); reflexivity. Qed.
Lemma hard_mono v x y : 0 < v -> x <= y -> (if Qltb (Qabs x) v then 0 else x) <= (if Qltb (Qabs y) v then 0 else y).
Proof.
  intros Hv H. destruct (Qltb_spec (Qabs x) v) as [(L & ->)|(L & ->)]; destruct (Qltb_spec (Qabs y) v) as [(M & ->)|(M & ->)]; qcase; lra.
Qed.
Lemma garrote_mono v x y : 0 < v -> x <= y -> garrote_spec v x <= garrote_spec v y.
Proof.
  intros Hv H. unfold garrote_spec.
  destruct (Qltb_spec (Qabs x) v) as [(L & ->)|(L & ->)]; destruct (Qltb_spec (Qabs y) v) as [(M & ->)|(M & ->)].
  - lra.
  - assert (Hy : ~ y == 0) by (intros E; rewrite E in M; cbn in M; lra).
    set (t := v * v / y). assert (Ht : t * y == v * v) by (unfold t; field; auto). clearbody t.
    destruct (Qabs_cases y) as [(A & B)|(A & B)]; rewrite B in *; clear B; [|qcase; lra]. nra.
  - assert (Hx : ~ x == 0) by (intros E; rewrite E in L; cbn in L; lra).
    set (t := v * v / x). assert (Ht : t * x == v * v) by (unfold t; field; auto). clearbody t.
    destruct (Qabs_cases x) as [(A & B)|(A & B)]; rewrite B in *; clear B; [qcase; lra|]. nra.
  - assert (Hx : ~ x == 0) by (intros E; rewrite E in L; cbn in L; lra).
    assert (Hy : ~ y == 0) by (intros E; rewrite E in M; cbn in M; lra).
    set (t := v * v / x). assert (Ht : t * x == v * v) by (unfold t; field; auto). clearbody t.
    set (u := v * v / y). assert (Hu : u * y == v * v) by (unfold u; field; auto). clearbody u.
    destruct (Qabs_cases x) as [(A & B)|(A & B)]; rewrite B in *; clear B; destruct (Qabs_cases y) as [(A' & B')|(A' & B')]; rewrite B' in *; clear B'.
    + assert (T : 0 <= t) by nra. assert (K : 0 <= t * (y - x)) by nra. assert (K2 : (t - u) * y == t * (y - x)) by lra. assert (u <= t) by nra. lra.
    + lra.
    + assert (t <= 0) by nra. assert (t >= - v) by nra. assert (0 <= u <= v) by (split; nra). lra.
    + assert (T : t <= 0) by nra. assert (K : t * (y - x) <= 0) by nra. assert (K2 : (t - u) * y == t * (y - x)) by lra. assert (u <= t) by nra. lra.
Qed.

(** ** Firm thresholding *)
Definition firm_spec (low high x : Q) : Q :=
  if Qle_bool (Qabs x) low then 0
  else (if Qle_bool 0 x then 1 else -(1)) * (high * (Qabs x - low) / (high - low)).

Lemma firm0_spec low high x : 0 < low -> low < high -> finite (firm0 low high x) (firm_spec low high x).
Proof.
  intros Hl Hh. unfold firm0, firm_spec, finite.
  assert (Ed : Qeq_bool (high - low) 0 = false) by (apply Qeqb_false; lra).
  destruct (Qlt_le_dec 0 (Qabs x)) as [Hp|Hp].
  - cbn [xdiv]. rewrite (Qeqb_false (Qabs x) 0) by lra. cbn [xsub xopp xadd xmul xdiv]. rewrite Ed. cbn [xclip0].
    set (a := Qabs x) in *. set (t := high * (1 + - (low / a)) / (high - low)).
    assert (Ht : t * (high - low) * a == high * (a - low)) by (unfold t; field; split; lra).
    assert (Hx : ~ x == 0) by (intros E; unfold a in Hp; rewrite E in Hp; cbn in Hp; lra).
    destruct (Qltb_spec t 0) as [(L & ->)|(L & ->)]; cbn [xmul]; eexists; (split; [reflexivity|]).
    + destruct (Qle_bool a low) eqn:E; [ring|]. assert (low < a) by (apply Qnot_le_lt; intros K; apply Qle_bool_iff in K; congruence).
      exfalso. assert (0 < high - low) by lra. assert (0 <= high * (a - low)) by nra. assert (t * (high - low) < 0) by nra. nra.
    + destruct (Qle_bool a low) eqn:E.
      * apply Qle_bool_iff in E. assert (0 < high - low) by lra. assert (0 < high) by lra.
        assert (high * (a - low) <= 0) by nra. assert (0 <= t * (high - low)) by nra. assert (t * (high - low) == 0) by nra.
        assert (T0 : t == 0) by nra. rewrite T0. ring.
      * unfold t. destruct (Qle_bool 0 x) eqn:F.
        -- apply Qle_bool_iff in F. assert (Ea : a == x) by (unfold a; apply Qabs_pos; auto). rewrite <- Ea at 1. field. split; lra.
        -- assert (Fx : x < 0) by (apply Qnot_le_lt; intros K; apply Qle_bool_iff in K; congruence).
           assert (Ea : a == - x) by (unfold a; apply Qabs_neg; lra). assert (Ex : x == - a) by lra. rewrite Ex at 1. field. split; lra.
  - pose proof (Qabs_nonneg x). assert (Hx : x == 0) by (destruct (Qabs_cases x) as [(A & B)|(A & B)]; lra).
    cbn [xdiv]. rewrite (Qeqb_true (Qabs x) 0) by lra. rewrite (Qeqb_false low 0) by lra.
    destruct (Qltb_spec 0 low) as [(L & ->)|(L & ->)]; [|lra]. cbn [xsub xopp xadd xmul xsgn].
    assert (Eh : (high ?= 0) = Gt) by (apply Qgt_alt; lra). rewrite Eh. cbn [xdiv].
    destruct (Qltb_spec (high - low) 0) as [(K & ->)|(K & ->)]; [lra|]. cbn [xclip0 xmul].
    eexists. split; [reflexivity|]. rewrite (proj2 (Qle_bool_iff (Qabs x) low)) by lra. rewrite Hx. ring.
Qed.

(** Continuity at the two thresholds and the values in between. *)
Lemma firm_spec_low low high : 0 < low -> low < high -> firm_spec low high low == 0.
Proof.
  intros H1 H2. unfold firm_spec. rewrite (proj2 (Qle_bool_iff (Qabs low) low)); [reflexivity|].
  rewrite Qabs_pos by lra. lra.
Qed.
Lemma firm_spec_high low high x : 0 < low -> low < high -> Qabs x == high -> firm_spec low high x == x.
Proof.
  intros H1 H2 Hx. unfold firm_spec. destruct (Qle_bool (Qabs x) low) eqn:E; [apply Qle_bool_iff in E; lra|].
  destruct (Qle_bool 0 x) eqn:F.
  - apply Qle_bool_iff in F. rewrite Qabs_pos in * by auto. rewrite Hx. field. lra.
  - assert (Fx : x < 0) by (apply Qnot_le_lt; intros K; apply Qle_bool_iff in K; congruence).
    assert (Ea : Qabs x == - x) by (apply Qabs_neg; lra). assert (Ex : x == - high) by lra. rewrite Ea, Ex. field. lra.
Qed.

Theorem threshold_firm_spec data low high r : 0 < low -> low < high -> threshold_firm data low high = Ok r ->
  Forall2 (Forall2 (fun x y =>
    (Qabs x <= high -> finite y (firm_spec low high x)) /\
    (high < Qabs x -> existsb (existsb (is_large high)) (tl data) = true -> y = Fin x))) data r.
Proof.
  intros H1 H2. unfold threshold_firm. destruct (Qltb_spec low 0) as [(L & ->)|(L & ->)]; [lra|].
  destruct (Qltb_spec high low) as [(K & ->)|(K & ->)]; [lra|]. intros E. injection E as <-.
  set (b := existsb _ (tl data)). clearbody b. induction data as [|row data IH]; cbn [map]; constructor; auto.
  clear IH. induction row as [|x row IH]; cbn [map]; constructor; auto. clear IH. split.
  - intros Hx. unfold is_large. destruct (Qltb_spec high (Qabs x)) as [(M & ->)|(M & ->)]; [lra|]. rewrite Bool.andb_false_r. apply firm0_spec; auto.
  - intros Hx Hb. rewrite Hb. unfold is_large. destruct (Qltb_spec high (Qabs x)) as [(M & ->)|(M & ->)]; [|lra]. reflexivity.
Qed.
Lemma threshold_firm_ok data low high : 0 <= low -> low <= high -> exists r, threshold_firm data low high = Ok r.
Proof.
  intros H1 H2. unfold threshold_firm. destruct (Qltb_spec low 0) as [(L & ->)|(L & ->)]; [lra|].
  destruct (Qltb_spec high low) as [(K & ->)|(K & ->)]; [lra|]. eauto.
Qed.
Lemma threshold_firm_err data low high : low < 0 \/ high < low -> threshold_firm data low high = Err ValueError.
Proof.
  intros H. unfold threshold_firm. destruct (Qltb_spec low 0) as [(L & ->)|(L & ->)]; auto.
  destruct (Qltb_spec high low) as [(K & ->)|(K & ->)]; auto. exfalso. destruct H; lra.
Qed.

(** ** threshold on whole arrays *)
Lemma Forall2_mapr {A B} (P : A -> B -> Prop) f l : (forall x, P x (f x)) -> Forall2 P l (map f l).
Proof. intros H. induction l; cbn; constructor; auto. Qed.

Theorem threshold_soft data v s r : 0 < v -> threshold data v "soft" s = Ok r ->
  Forall2 (fun x y => finite y (if negb (Qeq_bool s 0) && Qltb (Qabs x) v then s else soft_spec v x)) data r.
Proof.
  intros Hv E. cbn in E. injection E as <-. apply Forall2_mapr. intros x. destruct (Qeq_bool s 0) eqn:F; cbn [negb andb].
  - destruct (soft1_spec v x Hv) as (q & A & B). exists q. split; auto. unfold soft1 in *. rewrite F. exact A.
  - apply soft_sub; auto. intros H. apply Qeq_bool_iff in H. congruence.
Qed.
Theorem threshold_garrote data v s r mode : 0 < v -> mode = "garrote"%string \/ mode = "garotte"%string -> threshold data v mode s = Ok r ->
  Forall2 (fun x y => finite y (if negb (Qeq_bool s 0) && Qltb (Qabs x) v then s else garrote_spec v x)) data r.
Proof.
  intros Hv Hm E. assert (E' : Ok (map (garrote1 v s) data) = Ok r) by (destruct Hm; subst mode; exact E). injection E' as <-.
  apply Forall2_mapr. intros x.
  destruct (garrote1_spec v x Hv) as (q & A & B). unfold garrote1 in *. cbn [Qeq_bool Qnum Qden Zeq_bool Z.mul Z.compare] in A.
  destruct (Qeq_bool s 0) eqn:F; cbn [negb andb].
  - exists q. auto.
  - destruct (Qltb (Qabs x) v); [exists s; split; reflexivity|]. exists q. auto.
Qed.
Theorem threshold_others data v s :
  threshold data v "hard" s = Ok (map (fun x => Fin (if Qltb (Qabs x) v then s else x)) data) /\
  threshold data v "greater" s = Ok (map (fun x => Fin (if Qltb x v then s else x)) data) /\
  threshold data v "less" s = Ok (map (fun x => Fin (if Qltb v x then s else x)) data).
Proof.
  assert (G : forall f g, (forall x : Q, f x = g x) -> @Ok (list xq) (map f data) = Ok (map g data)).
  { intros f g H. f_equal. apply map_ext. auto. }
  split; [|split]; apply G; intros x; unfold hard1, greater1, less1; destruct (Qltb _ _); reflexivity.
Qed.
Theorem threshold_bad_mode data v s mode : ~ In mode ["soft"; "hard"; "greater"; "less"; "garrote"; "garotte"]%string ->
  threshold data v mode s = Err ValueError.
Proof.
  intros H. unfold threshold. cbn [find].
  repeat match goal with |- context [String.eqb ?a ?b] => destruct (String.eqb_spec a b) as [E|E]; [exfalso; apply H; rewrite <- E; cbn; tauto|clear E] end.
  reflexivity.
Qed.

(** With threshold 0, non-zero values are kept and zeros become nan. *)
Theorem threshold_zero data v s r mode : v == 0 -> In mode ["soft"; "garrote"; "garotte"]%string -> threshold data v mode s = Ok r ->
  Forall2 (fun x y => (~ x == 0 -> finite y x) /\ (x == 0 -> y = NaN)) data r.
Proof.
  intros Hv Hm E.
  assert (G : exists f, (f = soft1 \/ f = garrote1) /\ r = map (f v s) data).
  { cbn in Hm. destruct Hm as [<-|[<-|[<-|[]]]]; cbn in E; injection E as <-; eexists; (split; [|reflexivity]); auto. }
  destruct G as (f & Hf & ->). apply Forall2_mapr. intros x.
  assert (Hlt : Qltb (Qabs x) v = false) by (apply Qltb_ge; pose proof (Qabs_nonneg x); lra).
  assert (K : forall num den, num == 0 -> 0 <= den -> (den == 0 <-> x == 0) ->
    let t := xmul (Fin x) (xclip0 (xsub (Fin 1) (xdiv (Fin num) (Fin den)))) in (~ x == 0 -> finite t x) /\ (x == 0 -> t = NaN)).
  { intros num den Hn Hd0 Hd. cbv zeta. split; intros Hx.
    - assert (Hd1 : ~ den == 0) by tauto.
      unfold xdiv. rewrite (Qeqb_false den 0) by auto. cbn [xsub xopp xadd xclip0].
      assert (Et : 1 + - (num / den) == 1) by (rewrite Hn; field; auto).
      destruct (Qltb_spec (1 + - (num / den)) 0) as [(L & _)|(L & ->)]; [rewrite Et in L; lra|]. cbn [xmul].
      eexists. split; [reflexivity|]. rewrite Et. ring.
    - unfold xdiv. rewrite (Qeqb_true den 0) by tauto. rewrite (Qeqb_true num 0) by auto. reflexivity. }
  pose proof (Qabs_nonneg x) as Ha.
  destruct Hf as [->| ->]; unfold soft1, garrote1; rewrite Hlt.
  - specialize (K v (Qabs x) Hv Ha). assert (D : Qabs x == 0 <-> x == 0) by (split; intros; qcase; lra). specialize (K D).
    destruct (Qeq_bool s 0); exact K.
  - specialize (K (v * v) (Qabs x * Qabs x) ltac:(rewrite Hv; ring) ltac:(nra)).
    assert (D : Qabs x * Qabs x == 0 <-> x == 0) by (split; intros; qcase; nra). specialize (K D).
    destruct (Qeq_bool s 0); exact K.
Qed.

(** Equal thresholds. *)
Theorem firm_equal data t r : 0 < t -> threshold_firm data t t = Ok r ->
  Forall2 (Forall2 (fun x y =>
    (Qabs x < t -> finite y 0) /\ (Qabs x == t -> y = NaN) /\
    (t < Qabs x -> existsb (existsb (is_large t)) (tl data) = true -> y = Fin x) /\
    (t < Qabs x -> existsb (existsb (is_large t)) (tl data) = false -> y = if Qltb 0 x then PInf else NInf))) data r.
Proof.
  intros H1. unfold threshold_firm. destruct (Qltb_spec t 0) as [(L & ->)|(L & ->)]; [lra|].
  destruct (Qltb_spec t t) as [(K & ->)|(K & ->)]; [lra|]. intros E. injection E as <-.
  set (b := existsb _ (tl data)). clearbody b. induction data as [|row data IH]; cbn [map]; constructor; auto.
  clear IH. induction row as [|x row IH]; cbn [map]; constructor; auto. clear IH row data.
  assert (Ev : Qeq_bool (t - t) 0 = true) by (apply Qeqb_true; ring).
  unfold is_large. pose proof (Qabs_nonneg x) as Ha.
  assert (Z : forall q, (q == 0 -> Qeq_bool q 0 = true) /\ (~ q == 0 -> Qeq_bool q 0 = false)).
  { intros q. split; [apply Qeqb_true|apply Qeqb_false]. }
  assert (Hm : 0 < Qabs x -> t * (1 + - (t / Qabs x)) * Qabs x == t * (Qabs x - t)) by (intros; field; lra).
  split; [|split; [|split]].
  - intros Hx. destruct (Qltb_spec t (Qabs x)) as [(M & ->)|(M & ->)]; [lra|]. rewrite Bool.andb_false_r.
    unfold firm0. destruct (Qlt_le_dec 0 (Qabs x)) as [Hp|Hp].
    + cbn [xdiv]. rewrite (Qeqb_false (Qabs x) 0) by lra. cbn [xsub xopp xadd xmul xdiv]. rewrite Ev.
      specialize (Hm Hp). set (u := t * (1 + - (t / Qabs x))) in *. clearbody u. assert (Hu : u < 0) by nra.
      rewrite (Qeqb_false u 0) by lra. destruct (Qltb_spec 0 u) as [(N & ->)|(N & ->)]; [lra|]. cbn. eexists. split; [reflexivity|]. ring.
    + cbn [xdiv]. rewrite (Qeqb_true (Qabs x) 0) by lra. rewrite (Qeqb_false t 0) by lra. destruct (Qltb_spec 0 t) as [(N & ->)|(N & ->)]; [|lra].
      cbn [xsub xopp xadd xmul xsgn]. assert (Eh : (t ?= 0) = Gt) by (apply Qgt_alt; lra). rewrite Eh. cbn [xdiv].
      destruct (Qltb_spec (t - t) 0) as [(N' & ->)|(N' & ->)]; [lra|]. cbn. eexists. split; [reflexivity|]. ring.
  - intros Hx. destruct (Qltb_spec t (Qabs x)) as [(M & ->)|(M & ->)]; [lra|]. rewrite Bool.andb_false_r.
    unfold firm0. cbn [xdiv]. rewrite (Qeqb_false (Qabs x) 0) by lra. cbn [xsub xopp xadd xmul xdiv]. rewrite Ev.
    specialize (Hm ltac:(lra)). set (u := t * (1 + - (t / Qabs x))) in *. clearbody u. assert (Hu : u == 0) by nra.
    rewrite (Qeqb_true u 0) by auto. reflexivity.
  - intros Hx Hb. rewrite Hb. destruct (Qltb_spec t (Qabs x)) as [(M & ->)|(M & ->)]; [|lra]. reflexivity.
  - intros Hx Hb. rewrite Hb. cbn [andb]. unfold firm0. cbn [xdiv]. rewrite (Qeqb_false (Qabs x) 0) by lra. cbn [xsub xopp xadd xmul xdiv]. rewrite Ev.
    specialize (Hm ltac:(lra)). set (u := t * (1 + - (t / Qabs x))) in *. clearbody u. assert (Hu : 0 < u) by nra.
    rewrite (Qeqb_false u 0) by lra. destruct (Qltb_spec 0 u) as [(N & ->)|(N & ->)]; [|lra]. cbn [xclip0].
    destruct (Qabs_cases x) as [(A & B)|(A & B)].
    + assert (Hp : 0 < x) by lra. destruct (Qltb_spec 0 x) as [(O & ->)|(O & ->)]; [|lra]. cbn [xmul xsgn].
      assert (Eh : (x ?= 0) = Gt) by (apply Qgt_alt; lra). rewrite Eh. reflexivity.
    + destruct (Qltb_spec 0 x) as [(O & ->)|(O & ->)]; [lra|]. cbn [xmul xsgn].
      assert (Eh : (x ?= 0) = Lt) by (exact (proj1 (Qlt_alt x 0) A)). rewrite Eh. reflexivity.
Qed.

(** Without a large value beyond the first row, large values in the first row
    are extrapolated instead of kept. *)
Theorem firm_first_row data low high r : 0 < low -> low < high -> existsb (existsb (is_large high)) (tl data) = false ->
  threshold_firm data low high = Ok r ->
  Forall2 (Forall2 (fun x y => finite y (firm_spec low high x))) data r.
Proof.
  intros H1 H2 Hb. unfold threshold_firm. rewrite Hb. destruct (Qltb_spec low 0) as [(L & ->)|(L & ->)]; [lra|].
  destruct (Qltb_spec high low) as [(K & ->)|(K & ->)]; [lra|]. intros E. injection E as <-.
  apply Forall2_mapr. intros row. apply Forall2_mapr. intros x. apply firm0_spec; auto.
Qed.
Lemma firm_spec_large low high x : 0 < low -> low < high -> high < Qabs x -> ~ firm_spec low high x == x.
Proof.
  intros H1 H2 H3 E. unfold firm_spec in E. destruct (Qle_bool (Qabs x) low) eqn:F; [apply Qle_bool_iff in F; lra|].
  set (u := high * (Qabs x - low) / (high - low)) in *. assert (Hu : u * (high - low) == high * (Qabs x - low)) by (unfold u; field; lra). clearbody u.
  assert (Ha : u == Qabs x).
  { destruct (Qle_bool 0 x) eqn:G.
    - apply Qle_bool_iff in G. rewrite Qabs_pos by auto. lra.
    - assert (Fx : x < 0) by (apply Qnot_le_lt; intros K; apply Qle_bool_iff in K; congruence). rewrite Qabs_neg by lra. lra. }
  rewrite Ha in Hu. clear E Ha F. nra.
Qed.

(** ** Counterexamples and display of examples *)
Definition xred (a : xq) : xq := match a with Fin q => Fin (Qred q) | _ => a end.
Definition shown (r : res (list xq)) : list xq := match r with Ok l => map xred l | _ => [] end.
Definition shown2 (r : res (list (list xq))) : list (list xq) := match r with Ok l => map (map xred) l | _ => [] end.

Lemma firm_loses_large : exists data low high r, 0 < low /\ low < high /\ threshold_firm data low high = Ok r /\
  exists i j, high <= Qabs (nth j (nth i data []) 0) /\ (j < List.length (nth i data []))%nat /\
    ~ finite (nth j (nth i r []) NaN) (nth j (nth i data []) 0).
Proof.
  exists [[10]; [0]], 1, 2. eexists. split; [reflexivity|]. split; [reflexivity|]. split; [reflexivity|].
  exists 0%nat, 0%nat. split; [discriminate|]. split; [cbn; lia|]. intros (q & E & F). cbn in E. injection E as <-. discriminate F.
Qed.
Lemma zero_threshold_nan : exists data r, threshold data 0 "soft" 0 = Ok r /\ r <> map Fin data /\ In NaN r.
Proof. exists [0]. eexists. split; [reflexivity|]. split; [discriminate|cbn; auto]. Qed.
Lemma equal_thresholds_nan : exists data t r h, 0 < t /\ threshold_firm [data] t t = Ok [r] /\
  threshold data t "hard" 0 = Ok h /\ In NaN r /\ ~ In NaN h.
Proof.
  exists [2], 2. eexists. eexists. split; [reflexivity|]. split; [reflexivity|]. split; [reflexivity|].
  split; [cbn; auto|]. cbn. intros [H|[]]. discriminate H.
Qed.
