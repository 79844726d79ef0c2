(** Property theorems for thresholding. *)
From Coq Require Import String.
From Verif Require Import Base Dwt Threshold ThresholdProofs.
Open Scope Q_scope.

(** C29 *)
Theorem C29_soft : forall data v s r, 0 < v -> threshold data v "soft" s = Ok r ->
  Forall2 (fun x y => finite y (if negb (Qeq_bool s 0) && Qltb (Qabs x) v then s else soft_spec v x)) data r.
Proof. exact threshold_soft. Qed.
Print Assumptions C29_soft.
Example C29_soft_ex : 0 < 2 /\ shown (threshold [-(7#2); -(1#2); 2; 3] 2 "soft" 5) = [Fin (-(3#2)); Fin 5; Fin 0; Fin 1].
Proof. split; reflexivity. Qed.

Theorem C29_soft_magnitude : forall v x, 0 < v -> Qabs (soft_spec v x) == Qmax (Qabs x - v) 0.
Proof. exact soft_abs. Qed.
Print Assumptions C29_soft_magnitude.
Example C29_soft_magnitude_ex : 0 < 2 /\ soft_spec 2 (-(7#2)) == -(3#2).
Proof. split; reflexivity. Qed.

Theorem C29_soft_odd : forall v x, 0 < v -> soft_spec v (- x) == - soft_spec v x.
Proof. exact soft_odd. Qed.
Print Assumptions C29_soft_odd.
Example C29_soft_odd_ex : 0 < 2 /\ soft_spec 2 5 == 3 /\ soft_spec 2 (-(5)) == -(3).
Proof. repeat split; reflexivity. Qed.

Theorem C29_soft_monotone : forall v x y, 0 < v -> x <= y -> soft_spec v x <= soft_spec v y.
Proof. exact soft_mono. Qed.
Print Assumptions C29_soft_monotone.
Example C29_soft_monotone_ex : 0 < 2 /\ -(3) <= 5 /\ soft_spec 2 (-(3)) == -(1) /\ soft_spec 2 5 == 3.
Proof. repeat split; try reflexivity; discriminate. Qed.

Theorem C29_soft_contraction : forall v x y, 0 < v -> Qabs (soft_spec v x - soft_spec v y) <= Qabs (x - y).
Proof. exact soft_contraction. Qed.
Print Assumptions C29_soft_contraction.
Example C29_soft_contraction_ex : 0 < 2 /\ Qabs (soft_spec 2 (-(3)) - soft_spec 2 5) == 4 /\ Qabs (-(3) - 5) == 8.
Proof. repeat split; reflexivity. Qed.

Theorem C29_garrote : forall data v s r mode, 0 < v -> mode = "garrote"%string \/ mode = "garotte"%string ->
  threshold data v mode s = Ok r ->
  Forall2 (fun x y => finite y (if negb (Qeq_bool s 0) && Qltb (Qabs x) v then s else garrote_spec v x)) data r.
Proof. exact threshold_garrote. Qed.
Print Assumptions C29_garrote.
Example C29_garrote_ex : 0 < 2 /\ shown (threshold [-(4); 1; 2] 2 "garotte" 0) = [Fin (-(3)); Fin 0; Fin 0].
Proof. split; reflexivity. Qed.

Theorem C29_garrote_between : forall v x, 0 < v ->
  Qabs (soft_spec v x) <= Qabs (garrote_spec v x) <= Qabs (if Qltb (Qabs x) v then 0 else x).
Proof. exact garrote_between. Qed.
Print Assumptions C29_garrote_between.
Example C29_garrote_between_ex : 0 < 2 /\ soft_spec 2 4 == 2 /\ garrote_spec 2 4 == 3.
Proof. repeat split; reflexivity. Qed.

Theorem C29_garrote_odd : forall v x, 0 < v -> garrote_spec v (- x) == - garrote_spec v x.
Proof. exact garrote_odd. Qed.
Print Assumptions C29_garrote_odd.
Example C29_garrote_odd_ex : 0 < 2 /\ garrote_spec 2 (-(4)) == -(3).
Proof. repeat split; reflexivity. Qed.

Theorem C29_garrote_monotone : forall v x y, 0 < v -> x <= y -> garrote_spec v x <= garrote_spec v y.
Proof. exact garrote_mono. Qed.
Print Assumptions C29_garrote_monotone.
Example C29_garrote_monotone_ex : 0 < 2 /\ -(4) <= 4 /\ garrote_spec 2 (-(4)) == -(3) /\ garrote_spec 2 4 == 3.
Proof. repeat split; try reflexivity; discriminate. Qed.

Theorem C29_hard_greater_less : forall data v s,
  threshold data v "hard" s = Ok (map (fun x => Fin (if Qltb (Qabs x) v then s else x)) data) /\
  threshold data v "greater" s = Ok (map (fun x => Fin (if Qltb x v then s else x)) data) /\
  threshold data v "less" s = Ok (map (fun x => Fin (if Qltb v x then s else x)) data).
Proof. exact threshold_others. Qed.
Print Assumptions C29_hard_greater_less.
Example C29_hard_greater_less_ex :
  threshold [-(3); 1; 2] 2 "hard" 9 = Ok [Fin (-(3)); Fin 9; Fin 2] /\
  threshold [-(3); 1; 2] 2 "greater" 9 = Ok [Fin 9; Fin 9; Fin 2] /\
  threshold [-(3); 1; 3] 2 "less" 9 = Ok [Fin (-(3)); Fin 1; Fin 9].
Proof. repeat split; reflexivity. Qed.

Theorem C29_hard_odd : forall v x, (if Qltb (Qabs (- x)) v then 0 else - x) == - (if Qltb (Qabs x) v then 0 else x).
Proof. exact hard_odd. Qed.
Print Assumptions C29_hard_odd.
Example C29_hard_odd_ex : (if Qltb (Qabs (- (5))) 2 then 0 else - (5)) == -(5).
Proof. reflexivity. Qed.

Theorem C29_hard_monotone : forall v x y, 0 < v -> x <= y ->
  (if Qltb (Qabs x) v then 0 else x) <= (if Qltb (Qabs y) v then 0 else y).
Proof. exact hard_mono. Qed.
Print Assumptions C29_hard_monotone.
Example C29_hard_monotone_ex : 0 < 2 /\ 1 <= 5 /\ Qltb (Qabs 1) 2 = true /\ Qltb (Qabs 5) 2 = false.
Proof. repeat split; try reflexivity; discriminate. Qed.

Theorem C29_unknown_mode : forall data v s mode,
  ~ In mode ["soft"; "hard"; "greater"; "less"; "garrote"; "garotte"]%string -> threshold data v mode s = Err ValueError.
Proof. exact threshold_bad_mode. Qed.
Print Assumptions C29_unknown_mode.
Example C29_unknown_mode_ex : ~ In "firm"%string ["soft"; "hard"; "greater"; "less"; "garrote"; "garotte"]%string /\
  threshold [1] 1 "firm" 0 = Err ValueError.
Proof. split; [|reflexivity]. cbn. intros H. repeat (destruct H as [H|H]; [discriminate|]). exact H. Qed.

(** C30 *)
Theorem C30_keeps_large_refuted : exists data low high r, 0 < low /\ low < high /\ threshold_firm data low high = Ok r /\
  exists i j, high <= Qabs (nth j (nth i data []) 0) /\ (j < List.length (nth i data []))%nat /\
    ~ finite (nth j (nth i r []) NaN) (nth j (nth i data []) 0).
Proof. exact firm_loses_large. Qed.
Print Assumptions C30_keeps_large_refuted.

Theorem C30_firm_partial : forall data low high r, 0 < low -> low < high -> threshold_firm data low high = Ok r ->
  Forall2 (Forall2 (fun x y =>
    (Qabs x <= high -> finite y (firm_spec low high x)) /\
    (high < Qabs x -> existsb (existsb (is_large high)) (tl data) = true -> y = Fin x))) data r.
Proof. exact threshold_firm_spec. Qed.
Print Assumptions C30_firm_partial.
Example C30_firm_partial_ex : 0 < 1 /\ 1 < 3 /\
  shown2 (threshold_firm [[-(2)]; [1]; [5]] 1 3) = [[Fin (-(3#2))]; [Fin 0]; [Fin 5]] /\
  existsb (existsb (is_large 3)) (tl [[-(2)]; [1]; [5]]) = true.
Proof. repeat split; reflexivity. Qed.

Theorem C30_continuous_low : forall low high, 0 < low -> low < high -> firm_spec low high low == 0.
Proof. exact firm_spec_low. Qed.
Print Assumptions C30_continuous_low.
Example C30_continuous_low_ex : 0 < 1 /\ 1 < 3 /\ firm_spec 1 3 2 == 3 # 2.
Proof. repeat split; reflexivity. Qed.

Theorem C30_continuous_high : forall low high x, 0 < low -> low < high -> Qabs x == high -> firm_spec low high x == x.
Proof. exact firm_spec_high. Qed.
Print Assumptions C30_continuous_high.
Example C30_continuous_high_ex : 0 < 1 /\ 1 < 3 /\ Qabs (-(3)) == 3 /\ firm_spec 1 3 (-(3)) == -(3).
Proof. repeat split; reflexivity. Qed.

Theorem C30_only_first_row_extrapolated : forall data low high r, 0 < low -> low < high ->
  existsb (existsb (is_large high)) (tl data) = false -> threshold_firm data low high = Ok r ->
  Forall2 (Forall2 (fun x y => finite y (firm_spec low high x))) data r.
Proof. exact firm_first_row. Qed.
Print Assumptions C30_only_first_row_extrapolated.
Example C30_only_first_row_extrapolated_ex : 0 < 1 /\ 1 < 2 /\ existsb (existsb (is_large 2)) (tl [[10]; [0]]) = false /\
  shown2 (threshold_firm [[10]; [0]] 1 2) = [[Fin 18]; [Fin 0]] /\ firm_spec 1 2 10 == 18.
Proof. repeat split; reflexivity. Qed.

Theorem C30_extrapolated_never_kept : forall low high x, 0 < low -> low < high -> high < Qabs x -> ~ firm_spec low high x == x.
Proof. exact firm_spec_large. Qed.
Print Assumptions C30_extrapolated_never_kept.
Example C30_extrapolated_never_kept_ex : 0 < 1 /\ 1 < 2 /\ 2 < Qabs (-(10)) /\ firm_spec 1 2 (-(10)) == -(18).
Proof. repeat split; reflexivity. Qed.

Theorem C30_bad_thresholds : forall data low high, low < 0 \/ high < low -> threshold_firm data low high = Err ValueError.
Proof. exact threshold_firm_err. Qed.
Print Assumptions C30_bad_thresholds.
Example C30_bad_thresholds_ex : (2 < 0 \/ 1 < 2) /\ threshold_firm [[1]] 2 1 = Err ValueError.
Proof. split; [right|]; reflexivity. Qed.

Theorem C30_total : forall data low high, 0 <= low -> low <= high -> exists r, threshold_firm data low high = Ok r.
Proof. exact threshold_firm_ok. Qed.
Print Assumptions C30_total.
Example C30_total_ex : 0 <= 0 /\ 0 <= 2 /\ shown2 (threshold_firm [[1]] 0 2) = [[Fin 1]].
Proof. split; [discriminate|split; [discriminate|reflexivity]]. Qed.

(** C58 *)
Theorem C58_zero_threshold_refuted : exists data r, threshold data 0 "soft" 0 = Ok r /\ r <> map Fin data /\ In NaN r.
Proof. exact zero_threshold_nan. Qed.
Print Assumptions C58_zero_threshold_refuted.
Theorem C58_zero_threshold_partial : forall data v s r mode, v == 0 -> In mode ["soft"; "garrote"; "garotte"]%string ->
  threshold data v mode s = Ok r ->
  Forall2 (fun x y => (~ x == 0 -> finite y x) /\ (x == 0 -> y = NaN)) data r.
Proof. exact threshold_zero. Qed.
Print Assumptions C58_zero_threshold_partial.
Example C58_zero_threshold_partial_ex : shown (threshold [3; 0] 0 "garrote" 0) = [Fin 3; NaN].
Proof. reflexivity. Qed.

(** C59 *)
Theorem C59_equal_thresholds_refuted : exists data t r h, 0 < t /\ threshold_firm [data] t t = Ok [r] /\
  threshold data t "hard" 0 = Ok h /\ In NaN r /\ ~ In NaN h.
Proof. exact equal_thresholds_nan. Qed.
Print Assumptions C59_equal_thresholds_refuted.
Theorem C59_equal_thresholds_partial : forall data t r, 0 < t -> threshold_firm data t t = Ok r ->
  Forall2 (Forall2 (fun x y =>
    (Qabs x < t -> finite y 0) /\ (Qabs x == t -> y = NaN) /\
    (t < Qabs x -> existsb (existsb (is_large t)) (tl data) = true -> y = Fin x) /\
    (t < Qabs x -> existsb (existsb (is_large t)) (tl data) = false -> y = if Qltb 0 x then PInf else NInf))) data r.
Proof. exact firm_equal. Qed.
Print Assumptions C59_equal_thresholds_partial.
Example C59_equal_thresholds_partial_ex : 0 < 2 /\ shown2 (threshold_firm [[-(3)]; [1]; [2]] 2 2) = [[NInf]; [Fin 0]; [NaN]].
Proof. repeat split; reflexivity. Qed.
