(** threshold_firm with an infinite upper threshold, and the documented formula
    of firm thresholding. *)
From Coq Require Import Lqa String.
From Verif Require Import Base Dwt Threshold ThresholdProofs.
Open Scope Q_scope.

(** _thresholding.py lines 238-243: one element, as [firm0] of Threshold.v, with
    thresholds that may be infinite. *)
Definition firm0x (low high : xq) (x : Q) : xq :=
  let magnitude := Qabs x in
  let vdiff := xsub high low in
  let thresholded := xdiv (xmul high (xsub (Fin 1) (xdiv low (Fin magnitude)))) vdiff in
  xmul (Fin x) (xclip0 thresholded).
(** _thresholding.py lines 227-249 for value_high = inf: no magnitude exceeds it. *)
Definition threshold_firm_inf (data : list (list Q)) (low : Q) : res (list (list xq)) :=
  if Qltb low 0 then Err ValueError else Ok (map (map (firm0x (Fin low) PInf)) data).

Lemma firm0x_finite low high x : firm0x (Fin low) (Fin high) x = firm0 low high x.
Proof. reflexivity. Qed.
Lemma firm0x_inf low x : firm0x (Fin low) PInf x = NaN.
Proof.
  unfold firm0x. cbv zeta. change (xsub PInf (Fin low)) with PInf. generalize (xsub (Fin 1) (xdiv (Fin low) (Fin (Qabs x)))). intros a.
  assert (E : xdiv (xmul PInf a) PInf = NaN); [|rewrite E; reflexivity].
  destruct a as [q| | |]; cbn [xmul xsgn]; try reflexivity. destruct (q ?= 0); reflexivity.
Qed.
Theorem firm_inf_nan data low : 0 <= low -> threshold_firm_inf data low = Ok (map (map (fun _ => NaN)) data).
Proof.
  intros H. unfold threshold_firm_inf. destruct (Qltb_spec low 0) as [(L & _)|(_ & ->)]; [lra|]. f_equal. apply map_ext. intros row. apply map_ext. intros x. apply firm0x_inf.
Qed.
Theorem firm_inf_not_soft : exists data low r s, 0 < low /\ threshold_firm_inf [data] low = Ok [r] /\ threshold data low "soft" 0 = Ok s /\
  Forall2 (fun x y => y = NaN) data r /\ Forall2 (fun x y => finite y (soft_spec low x)) data s /\ ~ In NaN s.
Proof.
  exists [3; -(1#2)], 1. eexists. eexists. split; [reflexivity|]. split; [reflexivity|]. split; [reflexivity|]. split; [repeat constructor|]. split.
  - repeat constructor; eexists; (split; [reflexivity|reflexivity]).
  - cbn. intros [H|[H|[]]]; discriminate.
Qed.
(** The limit is what the documentation says. *)
Theorem firm_limit low high x : 0 < low -> low < high ->
  Qabs (firm_spec low high x - soft_spec low x) == Qmax (Qabs x - low) 0 * low / (high - low).
Proof.
  intros Hl Hh. unfold firm_spec, soft_spec.
  assert (S : (if Qle_bool 0 x then Qmax (x - low) 0 else - Qmax (- x - low) 0) == (if Qle_bool 0 x then 1 else -(1)) * Qmax (Qabs x - low) 0).
  { destruct (Qle_bool 0 x) eqn:E; [apply Qle_bool_iff in E; rewrite (Qabs_pos x) by auto; ring|].
    assert (x < 0) by (apply Qnot_le_lt; intros K; apply Qle_bool_iff in K; congruence). rewrite (Qabs_neg x) by lra. ring. }
  rewrite S. clear S. destruct (Qle_bool (Qabs x) low) eqn:E.
  - apply Qle_bool_iff in E. rewrite (Q.max_r (Qabs x - low) 0) by lra.
    assert (G : 0 * low / (high - low) == 0) by (field; lra). rewrite G. destruct (Qle_bool 0 x); reflexivity.
  - assert (L : low < Qabs x) by (apply Qnot_le_lt; intros K; apply Qle_bool_iff in K; congruence). rewrite (Q.max_l (Qabs x - low) 0) by lra.
    set (m := Qabs x) in *. assert (P : 0 <= (m - low) * low / (high - low)).
    { apply Qle_shift_div_l; [lra|]. nra. }
    destruct (Qle_bool 0 x).
    + assert (G : 1 * (high * (m - low) / (high - low)) - 1 * (m - low) == (m - low) * low / (high - low)) by (field; lra). rewrite G. apply Qabs_pos. auto.
    + assert (G : -(1) * (high * (m - low) / (high - low)) - -(1) * (m - low) == - ((m - low) * low / (high - low))) by (field; lra). rewrite G, Qabs_opp. apply Qabs_pos. auto.
Qed.
(** The formula of the docstring, lines 197-202. *)
Definition doc_firm (low high x : Q) : Q := if Qle_bool (Qabs x) low then 0 else if Qltb high (Qabs x) then x else x * high * (1 - low / x) / (high - low).
Theorem doc_firm_pos low high x : 0 < low -> low < high -> 0 <= x <= high -> firm_spec low high x == doc_firm low high x.
Proof.
  intros Hl Hh (Hx & Hb). unfold firm_spec, doc_firm. pose proof (Qabs_pos x Hx) as A. destruct (Qle_bool (Qabs x) low) eqn:E; [reflexivity|].
  assert (L : low < Qabs x) by (apply Qnot_le_lt; intros K; apply Qle_bool_iff in K; congruence). destruct (Qltb_spec high (Qabs x)) as [(M & _)|(_ & ->)]; [lra|].
  rewrite (proj2 (Qle_bool_iff 0 x) Hx). rewrite A. field. split; lra.
Qed.
Theorem doc_firm_neg low high x : 0 < low -> low < high -> low < - x -> - x <= high -> ~ firm_spec low high x == doc_firm low high x.
Proof.
  intros Hl Hh H1 H2 E. unfold firm_spec, doc_firm in E. assert (A : Qabs x == - x) by (apply Qabs_neg; lra). destruct (Qle_bool (Qabs x) low) eqn:F; [apply Qle_bool_iff in F; lra|].
  destruct (Qltb_spec high (Qabs x)) as [(M & _)|(_ & G)]; [lra|]. rewrite G in E. rewrite A in E. destruct (Qle_bool 0 x) eqn:P; [apply Qle_bool_iff in P; lra|].
  assert (E1 : -(1) * (high * (- x - low) / (high - low)) * (high - low) == high * (x + low)) by (field; lra).
  assert (E2 : x * high * (1 - low / x) / (high - low) * (high - low) == high * (x - low)) by (field; split; lra).
  rewrite E in E1. rewrite E2 in E1. nra.
Qed.
Theorem doc_firm_refuted : exists data low high r, 0 < low /\ low < high /\ threshold_firm [data] low high = Ok [r] /\ ~ Forall2 (fun x y => finite y (doc_firm low high x)) data r.
Proof.
  exists [-(3#2)], 1, 2. eexists. split; [reflexivity|]. split; [reflexivity|]. split; [reflexivity|]. intros H. inversion H as [|? ? ? ? (q & E1 & E2)]. subst.
  injection E1 as <-. discriminate E2.
Qed.
