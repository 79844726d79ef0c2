(** Property theorems for thresholding of complex data and infinite thresholds. *)
From Verif Require Import Base Dwt Threshold ThresholdProofs ThreshC ThreshCSpec ThreshCProofs ThreshInf.
From Coq Require Import Reals Lra List String Qreals.
Import ListNotations.
Open Scope R_scope.

(** C109. Below the threshold a substitute other than 0 is taken; otherwise the
    result is the point that minimises the distance with the length as penalty,
    and every other point costs more. *)
Theorem C109_soft : forall data v s, 0 < v -> exists r, threshold_c data v "soft" s = Ok r /\
  Forall2 (fun z y => (norm z < v /\ s <> (0, 0) /\ y = Some s) \/
    ((v <= norm z \/ s = (0, 0)) /\ exists p, y = Some p /\ shrunk z p /\ norm p = Rmax (norm z - v) 0 /\
      forall u, l1_cost v z p + distc u p ^ 2 / 2 <= l1_cost v z u)) data r.
Proof. exact threshold_c_soft. Qed.
Print Assumptions C109_soft.
Example C109_soft_ex : 0 < 2 /\ norm (3, 4) = 5 /\ threshold_c [(3, 4)] 2 "soft" (0, 0) = Ok [Some (9 / 5, 12 / 5)] /\ threshold_c [(3, 4)] 6 "soft" (7, 0) = Ok [Some (7, 0)].
Proof. split; [lra|]. split; [exact norm_34|]. split; apply ex_34. Qed.

Theorem C109_soft_contraction : forall v z w, 0 < v -> exists p q, threshold_c [z; w] v "soft" (0, 0) = Ok [Some p; Some q] /\ distc p q <= distc z w.
Proof. exact threshold_c_contract. Qed.
Print Assumptions C109_soft_contraction.
Example C109_soft_contraction_ex : 0 < 2 /\ distc (3, 4) (0, 0) = 5 /\ norm (9 / 5, 12 / 5) = 3.
Proof.
  split; [lra|]. split; [rewrite <- norm_34; unfold distc; f_equal; cbn [fst snd]; f_equal; ring|].
  replace (9 / 5, 12 / 5) with (3 / 5 * fst (3, 4), 3 / 5 * snd (3, 4)) by (cbn [fst snd]; f_equal; field). rewrite norm_scale, norm_34; lra.
Qed.

Theorem C109_hard : forall data v s, exists r, threshold_c data v "hard" s = Ok r /\
  Forall2 (fun z y => (norm z < v /\ y = Some s) \/ (v <= norm z /\ y = Some z)) data r.
Proof. exact threshold_c_hard. Qed.
Print Assumptions C109_hard.
Example C109_hard_ex : threshold_c [(3, 4)] 2 "hard" (0, 0) = Ok [Some (3, 4)] /\ threshold_c [(3, 4)] 6 "hard" (7, 0) = Ok [Some (7, 0)].
Proof. split; apply ex_34. Qed.

Theorem C109_hard_cost : forall data v, 0 <= v -> exists r, threshold_c data v "hard" (0, 0) = Ok r /\
  Forall2 (fun z y => exists p, y = Some p /\ forall u, l0_cost v z p <= l0_cost v z u) data r.
Proof. exact threshold_c_hard_cost. Qed.
Print Assumptions C109_hard_cost.
Example C109_hard_cost_ex : 0 <= 2 /\ threshold_c [(3, 4)] 2 "hard" (0, 0) = Ok [Some (3, 4)] /\ l0_cost 2 (3, 4) (3, 4) = 2 /\ l0_cost 2 (3, 4) (0, 0) = 25 / 2.
Proof.
  split; [lra|]. split; [apply ex_34|]. unfold l0_cost. rewrite distc_self, distc_sq, norm_34, norm_zero. unfold dot. cbn [fst snd].
  destruct (Req_EM_T 5 0); [lra|]. destruct (Req_EM_T 0 0); [|lra]. split; lra.
Qed.

Theorem C109_garrote : forall data v s mode, 0 < v -> In mode ["garrote"; "garotte"]%string -> exists r, threshold_c data v mode s = Ok r /\
  Forall2 (fun z y => (norm z < v /\ s <> (0, 0) /\ y = Some s) \/
    ((v <= norm z \/ s = (0, 0)) /\ exists p, y = Some p /\ shrunk z p /\ (norm z <= v -> p = (0, 0)) /\ (v <= norm z -> norm p * norm z = norm z ^ 2 - v ^ 2) /\
      Rmax (norm z - v) 0 <= norm p <= norm z)) data r.
Proof. exact threshold_c_garrote. Qed.
Print Assumptions C109_garrote.
Example C109_garrote_ex : 0 < 2 /\ threshold_c [(3, 4)] 2 "garrote" (0, 0) = Ok [Some (63 / 25, 84 / 25)].
Proof. split; [lra|]. apply ex_34. Qed.

(** Turning the data by an angle turns the result. *)
Theorem C109_phase : forall data v a mode r, 0 < v -> In mode ["soft"; "hard"; "garrote"; "garotte"]%string ->
  threshold_c data v mode (0, 0) = Ok r -> threshold_c (map (turn a) data) v mode (0, 0) = Ok (map (turned a) r).
Proof. exact threshold_c_turn. Qed.
Print Assumptions C109_phase.
Example C109_phase_ex : 0 < 2 /\ threshold_c [(3, 4)] 2 "soft" (0, 0) = Ok [Some (9 / 5, 12 / 5)] /\ turn PI (3, 4) = (-3, -4).
Proof. split; [lra|]. split; [apply ex_34|]. unfold turn. rewrite cos_PI, sin_PI. cbn [fst snd]. f_equal; ring. Qed.

(** Real data give the same result as complex numbers. *)
Theorem C109_real : forall data v mode s r, In mode ["soft"; "hard"; "garrote"; "garotte"]%string -> threshold data v mode s = Ok r ->
  threshold_c (map (fun x => (Q2R x, 0)) data) (Q2R v) mode (Q2R s, 0) = Ok (map embed r).
Proof. exact threshold_c_real. Qed.
Print Assumptions C109_real.
Example C109_real_ex : shown (threshold [-(7#2); -(1#2); 2; 3]%Q 2 "soft" 5) = [Fin (-(3#2)); Fin 5; Fin 0; Fin 1].
Proof. reflexivity. Qed.

Theorem C109_errors : forall data v s mode, ~ In mode ["soft"; "hard"; "garrote"; "garotte"]%string -> threshold_c data v mode s = Err ValueError.
Proof. exact threshold_c_errors. Qed.
Print Assumptions C109_errors.
Example C109_errors_ex : ~ In "greater"%string ["soft"; "hard"; "garrote"; "garotte"]%string /\ threshold_c [(3, 4)] 2 "less" (0, 0) = Err ValueError.
Proof. split; [|reflexivity]. cbn. intros [H|[H|[H|[H|[]]]]]; discriminate. Qed.

(** As for real data (C58), a zero datum with threshold 0 becomes nan. *)
Theorem C109_zero_is_nan : forall mode, In mode ["soft"; "garrote"; "garotte"]%string -> threshold_c [(0, 0)] 0 mode (0, 0) = Ok [None].
Proof. exact threshold_c_zero. Qed.
Print Assumptions C109_zero_is_nan.
Example C109_zero_is_nan_ex : In "garotte"%string ["soft"; "garrote"; "garotte"]%string.
Proof. cbn. tauto. Qed.

(** Firm thresholding of complex data, for an array given by its rows. *)
Theorem C109_firm : forall data low high, 0 < low -> low < high -> exists r, threshold_firm_c data low high = Ok r /\
  Forall2 (Forall2 (fun z y => exists p, y = Some p /\ (norm z <= low -> p = (0, 0)) /\ (norm z <= high -> shrunk z p) /\
     (low <= norm z <= high -> norm p = high * (norm z - low) / (high - low)) /\
     ((exists row z', In row (tl data) /\ In z' row /\ high < norm z') -> high < norm z -> p = z))) data r.
Proof. exact threshold_firm_c_spec. Qed.
Print Assumptions C109_firm.
Example C109_firm_ex : 0 < 2 < 6 /\ threshold_firm_c [[(0, 1)]; [(3, 4)]] 2 6 = Ok [[Some (0, 0)]; [Some (27 / 10, 36 / 10)]].
Proof. split; [lra|exact ex_firm_34]. Qed.

(** C110 *)
Open Scope Q_scope.
Theorem C110_infinite_refuted : exists data low r s, 0 < low /\ threshold_firm_inf [data] low = Ok [r] /\ threshold data low "soft" 0 = Ok s /\
  Forall2 (fun x y => y = NaN) data r /\ Forall2 (fun x y => finite y (soft_spec low x)) data s /\ ~ In NaN s.
Proof. exact firm_inf_not_soft. Qed.
Print Assumptions C110_infinite_refuted.

Theorem C110_infinite_nan : forall data low, 0 <= low -> threshold_firm_inf data low = Ok (map (map (fun _ => NaN)) data).
Proof. exact firm_inf_nan. Qed.
Print Assumptions C110_infinite_nan.
Example C110_infinite_nan_ex : 0 <= 1 /\ threshold_firm_inf [[0; 5]; [1; -(3)]] 1 = Ok [[NaN; NaN]; [NaN; NaN]].
Proof. split; [discriminate|reflexivity]. Qed.

Theorem C110_limit : forall low high x, 0 < low -> low < high ->
  Qabs (firm_spec low high x - soft_spec low x) == Qmax (Qabs x - low) 0 * low / (high - low).
Proof. exact firm_limit. Qed.
Print Assumptions C110_limit.
Example C110_limit_ex : 0 < 1 /\ 1 < 101 /\ soft_spec 1 (-(3)) == -(2) /\ firm_spec 1 101 (-(3)) == -(202#100).
Proof. repeat split; reflexivity. Qed.

Theorem C110_documented_refuted : exists data low high r, 0 < low /\ low < high /\ threshold_firm [data] low high = Ok [r] /\
  ~ Forall2 (fun x y => finite y (doc_firm low high x)) data r.
Proof. exact doc_firm_refuted. Qed.
Print Assumptions C110_documented_refuted.

Theorem C110_documented_negative : forall low high x, 0 < low -> low < high -> low < - x -> - x <= high -> ~ firm_spec low high x == doc_firm low high x.
Proof. exact doc_firm_neg. Qed.
Print Assumptions C110_documented_negative.
Example C110_documented_negative_ex : 0 < 1 /\ 1 < 2 /\ firm_spec 1 2 (-(3#2)) == -(1) /\ doc_firm 1 2 (-(3#2)) == -(5).
Proof. repeat split; reflexivity. Qed.

Theorem C110_documented_partial : forall low high x, 0 < low -> low < high -> 0 <= x <= high -> firm_spec low high x == doc_firm low high x.
Proof. exact doc_firm_pos. Qed.
Print Assumptions C110_documented_partial.
Example C110_documented_partial_ex : 0 < 1 /\ 1 < 2 /\ firm_spec 1 2 (3#2) == 1 /\ doc_firm 1 2 (3#2) == 1.
Proof. repeat split; reflexivity. Qed.
