(** Laws of thresholding for complex data. *)
From Verif Require Import Base Dwt Threshold ThresholdProofs ThreshC ThreshCSpec.
From Coq Require Import Reals Lra List String Qreals.
Import ListNotations.
Open Scope R_scope.

Lemma rltb_spec a b : (a < b /\ rltb a b = true) \/ (b <= a /\ rltb a b = false).
Proof. unfold rltb. destruct (Rlt_dec a b); [left|right]; split; auto. lra. Qed.
Lemma reqb_spec a b : (a = b /\ reqb a b = true) \/ (a <> b /\ reqb a b = false).
Proof. unfold reqb. destruct (Req_EM_T a b); [left|right]; split; auto. Qed.
Lemma norm_cabs z : norm z = cabs z.
Proof. unfold norm, cabs. f_equal. ring. Qed.
Lemma norm_ge0 z : 0 <= norm z.
Proof. apply sqrt_pos. Qed.
Lemma norm_sq z : norm z * norm z = fst z ^ 2 + snd z ^ 2.
Proof. apply sqrt_sqrt. nra. Qed.
Lemma norm_0 z : norm z = 0 -> z = (0, 0).
Proof. intros H. pose proof (norm_sq z) as E. rewrite H in E. destruct z as [a b]. cbn [fst snd] in E. f_equal; nra. Qed.
Lemma norm_scale t z : 0 <= t -> norm (t * fst z, t * snd z) = t * norm z.
Proof.
  intros H. unfold norm at 1. cbn [fst snd]. replace ((t * fst z) ^ 2 + (t * snd z) ^ 2) with ((t * norm z) * (t * norm z)) by (replace (t * norm z * (t * norm z)) with (t * t * (norm z * norm z)) by ring; rewrite norm_sq; ring).
  apply sqrt_square. pose proof (norm_ge0 z). apply Rmult_le_pos; auto.
Qed.
Definition dot (z u : point) : R := fst z * fst u + snd z * snd u.
Lemma cauchy z u : dot z u <= norm z * norm u.
Proof.
  pose proof (norm_ge0 z). pose proof (norm_ge0 u). assert (0 <= norm z * norm u) by (apply Rmult_le_pos; auto).
  destruct (Rle_or_lt (dot z u) 0); [lra|]. apply Rsqr_incr_0; try lra. unfold Rsqr.
  replace (norm z * norm u * (norm z * norm u)) with ((norm z * norm z) * (norm u * norm u)) by ring. rewrite !norm_sq. unfold dot.
  assert (0 <= (fst z * snd u - snd z * fst u) ^ 2) by apply pow2_ge_0. nra.
Qed.
Lemma distc_sq z u : distc z u ^ 2 = norm z * norm z - 2 * dot z u + norm u * norm u.
Proof. unfold distc. replace (norm _ ^ 2) with (norm (fst z - fst u, snd z - snd u) * norm (fst z - fst u, snd z - snd u)) by ring. rewrite !norm_sq. unfold dot. cbn [fst snd]. ring. Qed.

(** The result of [csoft1]. *)
Definition soft_point (v : R) (z : point) : point := if Rlt_dec v (norm z) then let t := 1 - v / norm z in (t * fst z, t * snd z) else (0, 0).
Lemma cfactor_pos num den z : 0 < num -> 0 <= den -> (den = 0 -> z = (0, 0)) ->
  cscale z (cfactor num den) = Some (if Rlt_dec num den then let t := 1 - num / den in (t * fst z, t * snd z) else (0, 0)).
Proof.
  intros Hv Hd H0. unfold cfactor.
  destruct (reqb_spec den 0) as [(E & ->)|(E & ->)].
  - destruct (rltb_spec 0 num) as [(_ & ->)|(L & _)]; [|lra]. cbn [cscale]. destruct (Rlt_dec num den); [lra|]. f_equal. f_equal; ring.
  - assert (Hp : 0 < den) by lra. assert (Ht : num / den * den = num) by (field; lra). set (t := num / den) in *. cbv zeta. cbn [cscale]. destruct (Rlt_dec num den) as [L|L].
    + destruct (rltb_spec (1 - t) 0) as [(M & _)|(M & ->)]; [nra|]. f_equal. f_equal; ring.
    + destruct (rltb_spec (1 - t) 0) as [(M & ->)|(M & ->)]; [f_equal; f_equal; ring|]. assert (t = 1) by nra. replace (1 - t) with 0 by lra. f_equal; f_equal; ring.
Qed.
Lemma csoft1_point v z : 0 < v -> cscale z (cfactor v (cabs z)) = Some (soft_point v z).
Proof. intros Hv. rewrite cfactor_pos; auto; rewrite <- norm_cabs; auto using norm_ge0, norm_0. Qed.
Lemma soft_point_norm v z : 0 < v -> norm (soft_point v z) = Rmax (norm z - v) 0.
Proof.
  intros Hv. unfold soft_point. destruct (Rlt_dec v (norm z)) as [L|L].
  - cbv zeta. assert (Ht : v / norm z * norm z = v) by (field; lra). assert (0 < v / norm z) by (apply Rdiv_lt_0_compat; lra). set (t := v / norm z) in *.
    rewrite norm_scale by nra. rewrite Rmax_left by lra. lra.
  - rewrite Rmax_right by lra. unfold norm. cbn [fst snd]. replace (0 ^ 2 + 0 ^ 2) with 0 by ring. apply sqrt_0.
Qed.
Lemma soft_point_shrunk v z : 0 < v -> shrunk z (soft_point v z).
Proof.
  intros Hv. unfold soft_point. destruct (Rlt_dec v (norm z)) as [L|L].
  - cbv zeta. assert (Ht : v / norm z * norm z = v) by (field; lra). assert (0 < v / norm z) by (apply Rdiv_lt_0_compat; lra). set (t := v / norm z) in *.
    exists (1 - t). split; [nra|reflexivity].
  - exists 0. split; [lra|]. f_equal; ring.
Qed.
(** Strong form: the distance to the result is paid as well. *)
Lemma soft_point_prox v z u : 0 < v -> l1_cost v z (soft_point v z) + distc u (soft_point v z) ^ 2 / 2 <= l1_cost v z u.
Proof.
  intros Hv. unfold l1_cost. pose proof (soft_point_norm v z Hv) as En. rewrite !distc_sq, En. pose proof (cauchy z u) as CS. pose proof (norm_ge0 z). pose proof (norm_ge0 u).
  unfold soft_point in *. destruct (Rlt_dec v (norm z)) as [L|L].
  - rewrite Rmax_left by lra. cbv zeta in *. assert (Ht : v / norm z * norm z = v) by (field; lra). assert (0 < v / norm z) by (apply Rdiv_lt_0_compat; lra). set (t := v / norm z) in *.
    assert (D1 : dot z ((1 - t) * fst z, (1 - t) * snd z) = (1 - t) * (norm z * norm z)) by (rewrite norm_sq; unfold dot; cbn [fst snd]; ring).
    assert (D2 : dot u ((1 - t) * fst z, (1 - t) * snd z) = (1 - t) * dot z u) by (unfold dot; cbn [fst snd]; ring).
    rewrite D1, D2. assert (T : t * dot z u <= v * norm u) by nra. set (m := norm z) in *. set (n := norm u) in *.
    replace ((1 - t) * (m * m)) with (m * m - v * m) by (replace v with (t * m); ring).
    replace ((1 - t) * dot z u) with (dot z u - t * dot z u) by ring. nra.
  - rewrite Rmax_right by lra.
    assert (D1 : dot z (0, 0) = 0) by (unfold dot; cbn [fst snd]; ring). assert (D2 : dot u (0, 0) = 0) by (unfold dot; cbn [fst snd]; ring).
    rewrite D1, D2. assert (norm z * norm u <= v * norm u) by nra. lra.
Qed.
Lemma soft_point_contract v z w : 0 < v -> distc (soft_point v z) (soft_point v w) <= distc z w.
Proof.
  intros Hv. pose proof (soft_point_prox v z (soft_point v w) Hv) as A. pose proof (soft_point_prox v w (soft_point v z) Hv) as B.
  set (r := soft_point v z) in *. set (s := soft_point v w) in *. unfold l1_cost in A, B.
  assert (Ds : distc s r ^ 2 = distc r s ^ 2) by (rewrite !distc_sq; unfold dot; ring). rewrite Ds in A.
  assert (K : distc r s ^ 2 <= dot (fst r - fst s, snd r - snd s) (fst z - fst w, snd z - snd w)).
  { rewrite !distc_sq in *. unfold dot in *. cbn [fst snd]. lra. }
  pose proof (cauchy (fst r - fst s, snd r - snd s) (fst z - fst w, snd z - snd w)) as CS. fold (distc r s) in CS. fold (distc z w) in CS.
  assert (0 <= distc r s) by apply norm_ge0. assert (0 <= distc z w) by apply norm_ge0. nra.
Qed.
Lemma norm_turn a z : norm (turn a z) = norm z.
Proof. unfold norm. f_equal. cbn [turn fst snd]. pose proof (sin2_cos2 a) as H. unfold Rsqr in H. nra. Qed.
Lemma soft_point_turn v a z : soft_point v (turn a z) = turn a (soft_point v z).
Proof. unfold soft_point. rewrite norm_turn. destruct (Rlt_dec v (norm z)); cbv zeta; unfold turn; cbn [fst snd]; f_equal; ring. Qed.

(** Of the list functions. *)
Lemma Forall2_mapR {A B} (P : A -> B -> Prop) (f : A -> B) l : (forall x, P x (f x)) -> Forall2 P l (map f l).
Proof. intros H. induction l; cbn; constructor; auto. Qed.
Lemma is0_spec s : (s = (0, 0) /\ is0 s = true) \/ (s <> (0, 0) /\ is0 s = false).
Proof.
  unfold is0. destruct s as [a b]. cbn [fst snd]. destruct (reqb_spec a 0) as [(-> & ->)|(N & ->)].
  - destruct (reqb_spec b 0) as [(-> & ->)|(N & ->)]; [left|right]; split; auto; congruence.
  - right. split; auto. congruence.
Qed.
(** What [threshold] returns for an element [z] with [p]: substituted below the
    threshold if a substitute was given. *)
Theorem threshold_c_soft data v s : 0 < v -> exists r, threshold_c data v "soft" s = Ok r /\
  Forall2 (fun z y => (norm z < v /\ s <> (0, 0) /\ y = Some s) \/
    ((v <= norm z \/ s = (0, 0)) /\ exists p, y = Some p /\ shrunk z p /\ norm p = Rmax (norm z - v) 0 /\
      forall u, l1_cost v z p + distc u p ^ 2 / 2 <= l1_cost v z u)) data r.
Proof.
  intros Hv. eexists. split; [reflexivity|]. apply Forall2_mapR. intros z. unfold csoft1. rewrite (csoft1_point v z Hv).
  assert (G : exists p, Some (soft_point v z) = Some p /\ shrunk z p /\ norm p = Rmax (norm z - v) 0 /\ forall u, l1_cost v z p + distc u p ^ 2 / 2 <= l1_cost v z u).
  { exists (soft_point v z). split; auto. split; [apply soft_point_shrunk; auto|]. split; [apply soft_point_norm; auto|]. intros u. apply soft_point_prox; auto. }
  destruct (is0_spec s) as [(E & ->)|(E & ->)]; [right; auto|]. unfold cless. rewrite <- norm_cabs.
  destruct (rltb_spec (norm z) v) as [(L & ->)|(L & ->)]; [left; auto|right; auto].
Qed.
Theorem threshold_c_contract v z w : 0 < v -> exists p q, threshold_c [z; w] v "soft" (0, 0) = Ok [Some p; Some q] /\ distc p q <= distc z w.
Proof.
  intros Hv. exists (soft_point v z), (soft_point v w). split; [|apply soft_point_contract; auto].
  unfold threshold_c. cbn [find String.eqb Ascii.eqb Bool.eqb map]. unfold csoft1. rewrite !csoft1_point by auto. unfold is0. cbn [fst snd].
  destruct (reqb_spec 0 0) as [(_ & ->)|(N & _)]; [reflexivity|lra].
Qed.
Definition turned (a : R) (o : option cnum) : option cnum := match o with Some p => Some (turn a p) | None => None end.
Theorem threshold_c_turn data v a mode r : 0 < v -> In mode ["soft"; "hard"; "garrote"; "garotte"]%string ->
  threshold_c data v mode (0, 0) = Ok r -> threshold_c (map (turn a) data) v mode (0, 0) = Ok (map (turned a) r).
Proof.
  intros Hv Hm. assert (R0 : is0 (0, 0) = true) by (destruct (is0_spec (0, 0)) as [(_ & E)|(N & _)]; [exact E|congruence]).
  assert (EC : forall z, cabs (turn a z) = cabs z) by (intros z; rewrite <- !norm_cabs; apply norm_turn).
  assert (ES : forall z t, cscale (turn a z) t = turned a (cscale z t)).
  { intros z [t|]; [|reflexivity]. unfold cscale, turned, turn. cbn [fst snd]. apply f_equal. apply f_equal2; ring. }
  assert (G : forall f, (forall z, f (turn a z) = turned a (f z)) -> forall r, Ok (map f data) = Ok r -> Ok (map f (map (turn a) data)) = Ok (map (turned a) r)).
  { intros f Hf r' E. injection E as <-. f_equal. rewrite !map_map. apply map_ext. auto. }
  destruct Hm as [<-|[<-|[<-|[<-|[]]]]]; unfold threshold_c; cbn [find String.eqb Ascii.eqb Bool.eqb]; apply G; intros z;
    unfold csoft1, chard1, cgarrote1, cless; rewrite ?R0, EC, ?ES; auto.
  destruct (rltb (cabs z) v); [|reflexivity]. unfold turned, turn. cbn [fst snd]. apply f_equal. apply f_equal2; ring.
Qed.
(** Hard thresholding minimises the cost that counts the result. *)
Theorem threshold_c_hard data v s : exists r, threshold_c data v "hard" s = Ok r /\
  Forall2 (fun z y => (norm z < v /\ y = Some s) \/ (v <= norm z /\ y = Some z)) data r.
Proof.
  eexists. split; [reflexivity|]. apply Forall2_mapR. intros z. unfold chard1, cless. rewrite <- norm_cabs.
  destruct (rltb_spec (norm z) v) as [(L & ->)|(L & ->)]; auto.
Qed.
Lemma distc_self z : distc z z = 0.
Proof. unfold distc, norm. cbn [fst snd]. replace ((fst z - fst z) ^ 2 + (snd z - snd z) ^ 2) with 0 by ring. apply sqrt_0. Qed.
Lemma norm_zero : norm (0, 0) = 0.
Proof. unfold norm. cbn [fst snd]. replace (0 ^ 2 + 0 ^ 2) with 0 by ring. apply sqrt_0. Qed.
Theorem threshold_c_hard_cost data v : 0 <= v -> exists r, threshold_c data v "hard" (0, 0) = Ok r /\
  Forall2 (fun z y => exists p, y = Some p /\ forall u, l0_cost v z p <= l0_cost v z u) data r.
Proof.
  intros Hv. destruct (threshold_c_hard data v (0, 0)) as (r & E & F). exists r. split; auto. clear E.
  assert (Z0 : forall z, l0_cost v z (0, 0) = norm z ^ 2 / 2).
  { intros z. unfold l0_cost. rewrite norm_zero. destruct (Req_EM_T 0 0); [|lra]. rewrite distc_sq, norm_zero. unfold dot. cbn [fst snd]. field. }
  assert (P : forall z u, 0 <= distc z u ^ 2 / 2) by (intros z u; pose proof (pow2_ge_0 (distc z u)); lra).
  assert (U : forall z u, l0_cost v z u = norm z ^ 2 / 2 \/ v ^ 2 / 2 <= l0_cost v z u).
  { intros z u. destruct (Req_EM_T (norm u) 0) as [N|N]; [left; rewrite (norm_0 u N); apply Z0|]. right. unfold l0_cost. destruct (Req_EM_T (norm u) 0); [tauto|]. specialize (P z u). lra. }
  assert (S : forall z, l0_cost v z z <= v ^ 2 / 2 /\ l0_cost v z z <= norm z ^ 2 / 2 \/ norm z < v).
  { intros z. destruct (Rlt_dec (norm z) v) as [L|L]; auto. left. unfold l0_cost. rewrite distc_self. destruct (Req_EM_T (norm z) 0); split; nra. }
  induction F as [|z y zs ys H F IH]; constructor; auto. clear IH F.
  destruct H as [(L & ->)|(L & ->)]; [exists (0, 0)|exists z]; split; auto; intros u.
  - rewrite Z0. pose proof (norm_ge0 z). destruct (U z u) as [->|K]; [lra|]. nra.
  - destruct (S z) as [(S1 & S2)|S1]; [|lra]. destruct (U z u) as [->|K]; lra.
Qed.
Theorem threshold_c_garrote data v s mode : 0 < v -> In mode ["garrote"; "garotte"]%string -> exists r, threshold_c data v mode s = Ok r /\
  Forall2 (fun z y => (norm z < v /\ s <> (0, 0) /\ y = Some s) \/
    ((v <= norm z \/ s = (0, 0)) /\ exists p, y = Some p /\ shrunk z p /\ (norm z <= v -> p = (0, 0)) /\ (v <= norm z -> norm p * norm z = norm z ^ 2 - v ^ 2) /\
      Rmax (norm z - v) 0 <= norm p <= norm z)) data r.
Proof.
  intros Hv Hm. assert (exists r, threshold_c data v mode s = Ok r /\ r = map (cgarrote1 v s) data) as (r & Er & ->).
  { destruct Hm as [<-|[<-|[]]]; eexists; split; reflexivity. }
  exists (map (cgarrote1 v s) data). split; auto. clear Er Hm. apply Forall2_mapR. intros z. unfold cgarrote1. rewrite <- norm_cabs.
  assert (Hn := norm_ge0 z). rewrite cfactor_pos; [|nra|nra|intros H; apply norm_0; nra].
  set (p := if Rlt_dec (v * v) (norm z * norm z) then _ else _).
  assert (G : exists p0, Some p = Some p0 /\ shrunk z p0 /\ (norm z <= v -> p0 = (0, 0)) /\ (v <= norm z -> norm p0 * norm z = norm z ^ 2 - v ^ 2) /\ Rmax (norm z - v) 0 <= norm p0 <= norm z).
  { exists p. split; auto. subst p. destruct (Rlt_dec (v * v) (norm z * norm z)) as [L|L].
    - assert (L' : v < norm z) by nra. cbv zeta. assert (Ht : v * v / (norm z * norm z) * (norm z * norm z) = v * v) by (field; lra).
      assert (0 < v * v / (norm z * norm z)) by (apply Rdiv_lt_0_compat; nra). set (t := v * v / (norm z * norm z)) in *. set (m := norm z) in *.
      assert (0 <= 1 - t <= 1) by nra. assert (Em : norm ((1 - t) * fst z, (1 - t) * snd z) = (1 - t) * m) by (apply norm_scale; lra).
      split; [exists (1 - t); auto|]. split; [lra|]. rewrite Em. split; [nra|]. split; [|nra]. rewrite Rmax_left by lra.
      assert (t * m * m = v * v) by lra. assert (t * m <= v) by nra. lra.
    - assert (L' : norm z <= v) by nra. rewrite norm_zero. split; [exists 0; split; [lra|f_equal; ring]|]. split; auto. split; [nra|]. rewrite Rmax_right by lra. lra. }
  destruct (is0_spec s) as [(E & ->)|(E & ->)]; [right; auto|]. unfold cless. rewrite <- norm_cabs.
  destruct (rltb_spec (norm z) v) as [(L & ->)|(L & ->)]; [left; auto|right; auto].
Qed.
Theorem threshold_c_errors data v s mode : ~ In mode ["soft"; "hard"; "garrote"; "garotte"]%string -> threshold_c data v mode s = Err ValueError.
Proof.
  intros H. unfold threshold_c. cbn [find].
  repeat match goal with |- context [String.eqb ?a mode] => destruct (String.eqb_spec a mode); [subst; first [reflexivity | exfalso; apply H; cbn; tauto]|] end.
  reflexivity.
Qed.
Theorem threshold_c_zero : forall mode, In mode ["soft"; "garrote"; "garotte"]%string -> threshold_c [(0, 0)] 0 mode (0, 0) = Ok [None].
Proof.
  intros mode Hm. assert (R0 : is0 (0, 0) = true) by (destruct (is0_spec (0, 0)) as [(_ & E)|(N & _)]; [exact E|congruence]).
  assert (A : cabs (0, 0) = 0) by (rewrite <- norm_cabs; apply norm_zero).
  assert (F : forall d n, d = 0 -> n = 0 -> cfactor n d = None).
  { intros d n -> ->. unfold cfactor. destruct (reqb_spec 0 0) as [(_ & ->)|(N & _)]; [|lra]. destruct (rltb_spec 0 0) as [(L & _)|(L & ->)]; [lra|reflexivity]. }
  destruct Hm as [<-|[<-|[<-|[]]]]; unfold threshold_c; cbn [find String.eqb Ascii.eqb Bool.eqb map]; unfold csoft1, cgarrote1; rewrite R0, A, F; auto; ring.
Qed.
(** Real data are complex data without imaginary part. *)
Definition embed (x : xq) : option cnum := match x with Fin q => Some (Q2R q, 0) | _ => None end.
Lemma Q2R_ltb a b : rltb (Q2R a) (Q2R b) = Qltb a b.
Proof.
  destruct (rltb_spec (Q2R a) (Q2R b)) as [(L & ->)|(L & ->)]; symmetry; [apply Qltb_lt; apply Rlt_Qlt; auto|apply Qltb_ge; apply Rle_Qle; auto].
Qed.
Lemma Q2R_eqb a b : reqb (Q2R a) (Q2R b) = Qeq_bool a b.
Proof.
  destruct (reqb_spec (Q2R a) (Q2R b)) as [(L & ->)|(L & ->)]; symmetry; [apply Qeqb_true; apply eqR_Qeq; auto|apply Qeqb_false; intros E; apply L; apply Qeq_eqR; auto].
Qed.
Lemma Q2R_0 : Q2R 0 = 0. Proof. unfold Q2R. cbn. lra. Qed.
Lemma Q2R_1 : Q2R 1 = 1. Proof. unfold Q2R. cbn. lra. Qed.
Lemma Q2R_eqb0 a : reqb (Q2R a) 0 = Qeq_bool a 0. Proof. rewrite <- Q2R_eqb, Q2R_0. reflexivity. Qed.
Lemma Q2R_0ltb a : rltb 0 (Q2R a) = Qltb 0 a. Proof. rewrite <- Q2R_ltb, Q2R_0. reflexivity. Qed.
Lemma Q2R_ltb0 a : rltb (Q2R a) 0 = Qltb a 0. Proof. rewrite <- Q2R_ltb, Q2R_0. reflexivity. Qed.
Lemma cabs_real x : cabs (Q2R x, 0) = Q2R (Qabs x).
Proof.
  unfold cabs. cbn [fst snd]. replace (Q2R x * Q2R x + 0 * 0) with (Q2R (Qabs x) * Q2R (Qabs x)).
  - apply sqrt_square. rewrite <- Q2R_0. apply Qle_Rle. apply Qabs_nonneg.
  - destruct (Qabs_cases x) as [(L & E)|(L & E)]; apply Qeq_eqR in E; rewrite E, ?Q2R_opp; ring.
Qed.
Lemma factor_real num den x : (den == 0 -> x == 0)%Q -> embed (xmul (Fin x) (xclip0 (xsub (Fin 1) (xdiv (Fin num) (Fin den))))) = cscale (Q2R x, 0) (cfactor (Q2R num) (Q2R den)).
Proof.
  intros H0. unfold cfactor. rewrite Q2R_eqb0, Q2R_0ltb. unfold xdiv.
  destruct (Qeq_bool den 0) eqn:E.
  - apply Qeq_bool_iff in E. specialize (H0 E). pose proof (Qeq_eqR _ _ H0) as Hx. rewrite Q2R_0 in Hx. rewrite Hx. destruct (Qeq_bool num 0) eqn:En.
    + cbn [xsub xopp xadd xclip0 xmul embed]. apply Qeq_bool_iff in En. destruct (Qltb_spec 0 num) as [(L & ->)|(L & ->)]; [rewrite En in L; exfalso; exact (Qlt_irrefl 0 L)|reflexivity].
    + destruct (Qltb_spec 0 num) as [(L & ->)|(L & ->)]; cbn [xsub xopp xadd xclip0 xmul embed cscale fst snd].
      * rewrite Q2R_mult, Q2R_0, Hx. apply f_equal. apply f_equal2; ring.
      * unfold xsgn. rewrite (proj1 (Qeq_alt x 0) H0). reflexivity.
  - assert (Nd : ~ (den == 0)%Q) by (intros K; apply Qeqb_true in K; congruence).
    assert (ET : 1 - Q2R num / Q2R den = Q2R (1 + - (num / den))) by (rewrite Q2R_plus, Q2R_opp, Q2R_div, Q2R_1; auto; ring).
    rewrite ET. cbn [xsub xopp xadd xclip0]. cbv zeta. rewrite Q2R_ltb0.
    destruct (Qltb (1 + - (num / den)) 0); cbn [xmul embed cscale fst snd]; rewrite Q2R_mult, ?Q2R_0; apply f_equal; apply f_equal2; ring.
Qed.
Theorem threshold_c_real data v mode s r : In mode ["soft"; "hard"; "garrote"; "garotte"]%string -> threshold data v mode s = Ok r ->
  threshold_c (map (fun x => (Q2R x, 0)) data) (Q2R v) mode (Q2R s, 0) = Ok (map embed r).
Proof.
  intros Hm. assert (I0 : is0 (Q2R s, 0) = Qeq_bool s 0).
  { unfold is0. cbn [fst snd]. rewrite Q2R_eqb0. destruct (reqb_spec 0 0) as [(_ & ->)|(N & _)]; [apply Bool.andb_true_r|lra]. }
  assert (L : forall x, cless (Q2R x, 0) (Q2R v) = Qltb (Qabs x) v) by (intros x; unfold cless; rewrite cabs_real; apply Q2R_ltb).
  assert (H0 : forall x, (Qabs x == 0 -> x == 0)%Q) by (intros x H; destruct (Qabs_cases x) as [(_ & E)|(_ & E)]; rewrite E in H; auto; rewrite <- (Qopp_opp x), H; reflexivity).
  assert (G : forall (f : Q -> xq) g, (forall x, g (Q2R x, 0) = embed (f x)) -> Ok (map f data) = Ok r -> Ok (map g (map (fun x => (Q2R x, 0)) data)) = Ok (map embed r)).
  { intros f g Hf E. injection E as <-. f_equal. rewrite !map_map. apply map_ext. auto. }
  destruct Hm as [<-|[<-|[<-|[<-|[]]]]]; unfold threshold_c, threshold; cbn [find String.eqb Ascii.eqb Bool.eqb]; apply G; intros x;
    unfold csoft1, chard1, cgarrote1, soft1, hard1, garrote1; rewrite ?I0, L; cbv zeta.
  - rewrite cabs_real, <- factor_real by auto. destruct (Qeq_bool s 0); auto. destruct (Qltb (Qabs x) v); auto.
  - destruct (Qltb (Qabs x) v); auto.
  - rewrite cabs_real, <- !Q2R_mult, <- factor_real; [destruct (Qeq_bool s 0); auto; destruct (Qltb (Qabs x) v); auto|].
    intros E. apply H0. apply Qmult_integral in E. tauto.
  - rewrite cabs_real, <- !Q2R_mult, <- factor_real; [destruct (Qeq_bool s 0); auto; destruct (Qltb (Qabs x) v); auto|].
    intros E. apply H0. apply Qmult_integral in E. tauto.
Qed.

(** Firm thresholding *)
Lemma cfirm0_spec low high z : 0 < low -> low < high -> exists p, cfirm0 low high z = Some p /\ (norm z <= low -> p = (0, 0)) /\
  (low <= norm z -> norm p = high * (norm z - low) / (high - low)) /\ (norm z <= high -> shrunk z p).
Proof.
  intros Hl Hh. unfold cfirm0. rewrite <- !norm_cabs. pose proof (norm_ge0 z) as Hn. destruct (reqb_spec (norm z) 0) as [(E & ->)|(E & ->)].
  - destruct (rltb_spec 0 low) as [(_ & ->)|(L & _)]; [|lra]. cbn [cscale]. eexists. split; [reflexivity|]. split; [intros _; f_equal; ring|]. split; [lra|].
    intros _. exists 0. split; [lra|f_equal; ring].
  - cbv zeta. assert (Hp : 0 < norm z) by lra. set (t := high * (1 - low / norm z) / (high - low)).
    assert (Ht : t * (high - low) * norm z = high * (norm z - low)) by (subst t; field; lra). set (m := norm z) in *.
    destruct (rltb_spec t 0) as [(L & ->)|(L & ->)]; cbn [cscale]; eexists; (split; [reflexivity|]).
    + split; [intros _; f_equal; ring|]. assert (t * (high - low) * m < 0) by (assert (0 < (high - low) * m) by (apply Rmult_lt_0_compat; lra); nra).
      assert (m < low) by nra. split; [lra|]. intros _. exists 0. split; [lra|f_equal; ring].
    + assert (En : norm (fst z * t, snd z * t) = t * m) by (rewrite (Rmult_comm (fst z)), (Rmult_comm (snd z)); apply norm_scale; auto).
      assert (K : 0 <= t * (high - low) * m) by (apply Rmult_le_pos; [apply Rmult_le_pos|]; lra). assert (low <= m) by nra.
      split; [|split].
      * intros H1. assert (m = low) by lra. assert (T : t * (high - low) * m = 0) by nra. assert (t = 0); [|subst t; f_equal; rewrite H2; ring].
        apply Rmult_integral in T. destruct T as [T|T]; [|lra]. apply Rmult_integral in T. destruct T; [auto|lra].
      * intros _. rewrite En. rewrite <- Ht. field. lra.
      * intros Hm. exists t. split; [|f_equal; ring]. split; auto. destruct (Rle_or_lt t 1) as [|Hb]; auto. exfalso.
        assert ((high - low) * m < t * ((high - low) * m)) by (assert (0 < (high - low) * m) by (apply Rmult_lt_0_compat; lra); nra). nra.
Qed.
Theorem threshold_firm_c_spec data low high : 0 < low -> low < high -> exists r, threshold_firm_c data low high = Ok r /\
  Forall2 (Forall2 (fun z y => exists p, y = Some p /\ (norm z <= low -> p = (0, 0)) /\ (norm z <= high -> shrunk z p) /\
     (low <= norm z <= high -> norm p = high * (norm z - low) / (high - low)) /\
     ((exists row z', In row (tl data) /\ In z' row /\ high < norm z') -> high < norm z -> p = z))) data r.
Proof.
  intros Hl Hh. unfold threshold_firm_c. destruct (rltb_spec low 0) as [(L & _)|(_ & ->)]; [lra|]. destruct (rltb_spec high low) as [(L & _)|(_ & ->)]; [lra|].
  eexists. split; [reflexivity|]. apply Forall2_mapR. intros row. apply Forall2_mapR. intros z.
  destruct (cfirm0_spec low high z Hl Hh) as (p & Ep & P1 & P2 & P3).
  destruct (existsb (existsb (clarge high)) (tl data)) eqn:EB.
  - unfold clarge at 1. rewrite <- norm_cabs. destruct (rltb_spec high (norm z)) as [(L & ->)|(L & ->)]; cbn [andb].
    + exists z. split; auto. split; [lra|]. split; [lra|]. split; [lra|]. auto.
    + exists p. split; auto. split; auto. split; auto. split; [intros (H & _); auto|]. lra.
  - cbn [andb]. exists p. split; auto. split; auto. split; auto. split; [intros (H & _); auto|].
    intros (row' & z' & I1 & I2 & I3) _. exfalso.
    assert (existsb (existsb (clarge high)) (tl data) = true); [|congruence]. apply existsb_exists. exists row'. split; auto. apply existsb_exists. exists z'. split; auto.
    unfold clarge. rewrite <- norm_cabs. destruct (rltb_spec high (norm z')) as [(_ & ->)|(L & _)]; [reflexivity|lra].
Qed.
(** The data of the examples. *)
Lemma norm_34 : norm (3, 4) = 5.
Proof. unfold norm. cbn [fst snd]. replace (3 ^ 2 + 4 ^ 2) with (5 * 5) by ring. apply sqrt_square. lra. Qed.
Ltac rcase := repeat match goal with
  | |- context [rltb ?a ?b] => destruct (rltb_spec a b) as [(? & ->)|(? & ->)]; try lra
  | |- context [reqb ?a ?b] => destruct (reqb_spec a b) as [(? & ->)|(? & ->)]; try lra end.
Ltac same := repeat match goal with
  | |- Ok _ = Ok _ => apply f_equal | |- Some _ = Some _ => apply f_equal | |- _ :: _ = _ :: _ => apply f_equal2
  | |- (_, _) = (_, _) => apply f_equal2 | |- _ => reflexivity | |- _ => field end.
Lemma ex_34 : threshold_c [(3, 4)] 2 "soft" (0, 0) = Ok [Some (9 / 5, 12 / 5)] /\ threshold_c [(3, 4)] 2 "garrote" (0, 0) = Ok [Some (63 / 25, 84 / 25)] /\
  threshold_c [(3, 4)] 2 "hard" (0, 0) = Ok [Some (3, 4)] /\ threshold_c [(3, 4)] 6 "soft" (7, 0) = Ok [Some (7, 0)] /\ threshold_c [(3, 4)] 6 "hard" (7, 0) = Ok [Some (7, 0)].
Proof.
  unfold threshold_c. cbn [find String.eqb Ascii.eqb Bool.eqb map]. unfold csoft1, cgarrote1, chard1, cless, is0, cfactor. rewrite <- !norm_cabs, !norm_34. cbn [fst snd]. cbv zeta.
  repeat split; rcase; cbn [andb cscale fst snd]; same.
Qed.
Lemma ex_firm_34 : threshold_firm_c [[(0, 1)]; [(3, 4)]] 2 6 = Ok [[Some (0, 0)]; [Some (27 / 10, 36 / 10)]].
Proof.
  unfold threshold_firm_c, cfirm0, clarge. cbn [tl existsb map]. rewrite <- !norm_cabs, !norm_34.
  assert (E : norm (0, 1) = 1) by (unfold norm; cbn [fst snd]; replace (0 ^ 2 + 1 ^ 2) with (1 * 1) by ring; apply sqrt_square; lra). rewrite E.
  rcase; cbn [orb andb]; rcase; cbn [cscale fst snd]; same.
Qed.
