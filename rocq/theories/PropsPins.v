(** Property theorems stated without the helpers of the model: names of an axis
    (C22, C23, C70), comparisons of threshold (C29), numbers in names (C61). *)
From Coq Require Import String Ascii QArith Qabs List.
From Verif Require Import Base BaseLemmas CConv Spec Instances Lengths Dwt Nd NdSpec Axis Multidim Multilevel MultilevelNd Swt SwtNd Filters NamesSpec Names NamesProofs2 Threshold SpecPins ExBanks ExNd ExMra.
Import ListNotations.
Open Scope list_scope. Open Scope Z_scope.

Theorem C22_axis_names : forall (C : CRing) fuel junk (data : sarr C) w m l l', Forall2 (same_axis (ndim data)) l l' ->
  dwtn fuel junk data w m (Some l) = dwtn fuel junk data w m (Some l').
Proof. exact dwtn_axis_names. Qed.
Print Assumptions C22_axis_names.
Example C22_axis_names_ex : Forall2 (same_axis (ndim (s2_ 2 2 [1; 2; 3; 4]))) [-1; 0] [1; -2] /\
  exists r, dwtn (C := Zring) 99 jk (s2_ 2 2 [1; 2; 3; 4]) (One zbank) (One SYMMETRIC) (Some [-1; 0]) = Ok r.
Proof. split; [repeat constructor; vm_compute; congruence|]. eexists. vm_compute. reflexivity. Qed.

Theorem C23_axis_names : forall (C : CRing) fuel junk n (d : dict (option (sarr C))) w m l l', (forall k a, In (k, Some a) d -> ndim a = n) -> Forall2 (same_axis n) l l' ->
  idwtn fuel junk d w m (Some l) = idwtn fuel junk d w m (Some l').
Proof. exact idwtn_axis_names. Qed.
Print Assumptions C23_axis_names.
Example C23_axis_names_ex : ndim (s2_ 1 1 [5]) = 2 /\ Forall2 (same_axis 2) [-2; 1] [0; -1] /\
  exists r, idwtn (C := Zring) 99 jk [("aa"%string, Some (s2_ 1 1 [5])); ("da"%string, None)] (One zbank2) (One SYMMETRIC) (Some [-2; 1]) = Ok (Some r).
Proof. split; [reflexivity|]. split; [repeat constructor; vm_compute; congruence|]. eexists. vm_compute. reflexivity. Qed.

Theorem C70_axis_names : forall (C : CRing) fuel junk (data : sarr C) w level start l l' trim norm, Forall2 (same_axis (ndim data)) l l' ->
  swtn fuel junk data w level start (Some l) trim norm = swtn fuel junk data w level start (Some l') trim norm.
Proof. exact swtn_axis_names. Qed.
Print Assumptions C70_axis_names.
Example C70_axis_names_ex : Forall2 (same_axis (ndim (s2_ 2 2 [1; 2; 3; 4]))) [-1] [1] /\
  exists r, swtn (C := Zring) 99 jk (s2_ 2 2 [1; 2; 3; 4]) (One zbank2) 1 0 (Some [-1]) true None = Ok r.
Proof. split; [repeat constructor; vm_compute; congruence|]. eexists. vm_compute. reflexivity. Qed.

Theorem C29_cases : forall data v s,
  (exists r, threshold data v "hard" s = Ok r /\ Forall2 (fun x y => (Qabs x < v -> y = Fin s) /\ (v <= Qabs x -> y = Fin x))%Q data r) /\
  (exists r, threshold data v "greater" s = Ok r /\ Forall2 (fun x y => (x < v -> y = Fin s) /\ (v <= x -> y = Fin x))%Q data r) /\
  (exists r, threshold data v "less" s = Ok r /\ Forall2 (fun x y => (v < x -> y = Fin s) /\ (x <= v -> y = Fin x))%Q data r).
Proof. exact threshold_cases. Qed.
Print Assumptions C29_cases.
(** |x| = v is kept by hard, x = v by greater and less. *)
Example C29_cases_ex : threshold [-2; 1; 2]%Q 2 "hard" 9 = Ok [Fin (-2); Fin 9; Fin 2] /\ threshold [-2; 1; 2]%Q 2 "greater" 9 = Ok [Fin 9; Fin 9; Fin 2] /\
  threshold [2; 3]%Q 2 "less" 9 = Ok [Fin 2; Fin 9].
Proof. split; [|split]; reflexivity. Qed.

(** [written]: the characters of the digits; [number]: the sum of digits times powers of ten. *)
Theorem C61_numbers : forall ds es, ds <> [] -> Forall (fun d => (d <= 9)%nat) ds -> Forall (fun d => (d <= 9)%nat) es ->
  decimal (written ds, 1%nat, written es) /\ render (written ds, 1%nat, written es) = String.append (written ds) (String.append "." (written es)) /\
  (decimal_value (written ds, 1%nat, written es) * inject_Z (10 ^ Z.of_nat (List.length es)) == inject_Z (number (ds ++ es)))%Q.
Proof. exact decimal_number. Qed.
Print Assumptions C61_numbers.
Example C61_numbers_ex : written [1; 2]%nat = "12"%string /\ number ([1; 2] ++ [5; 0])%nat = 1250 /\ Forall (fun d => (d <= 9)%nat) [1; 2; 5; 0]%nat /\
  continuous_new "cmor12.50-1" = Ok (mkCwave CMOR 0 (Some (1250 # 100)) (Some (1 # 1)) None).
Proof. split; [reflexivity|]. split; [reflexivity|]. split; [repeat constructor; lia|reflexivity]. Qed.
