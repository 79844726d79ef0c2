(** C112: transforms of a signal read backwards. C113: the samples a
    coefficient depends on. C114: the attribute symmetry. *)
From Verif Require Import Base BaseLemmas CConv Spec Instances Lengths Dwt DwtProofs Multilevel MultilevelProofs Facts1 ExBanks Pad PadProofs PolySpec FilterSpec Filters FiltersProofs FiltersFacts Tables TablesProofs ReversalSpec Reversal Reversal2 SymmetrySpec DiscreteSymmetry Reversal3.
From Coq Require Import QArith Qcanon String.
Open Scope list_scope.
Open Scope Z_scope.

Ltac ex := repeat split; try (vm_compute; congruence); try (intros; vm_compute; congruence).

(** C112 *)
Theorem C112_extension : forall (C : CRing) m (x : list C) n, min_len m <= zlen x -> (m = PERIODIZATION -> zlen x mod 2 = 0) ->
  ext m (rev x) n = ext m x (zlen x - 1 - n).
Proof. exact ext_rev. Qed.
Print Assumptions C112_extension.
Example C112_extension_ex : min_len ANTIREFLECT <= zlen [3; 5; 4] /\
  map (ext (C := Zring) ANTIREFLECT (rev [3; 5; 4])) [-2; 4; 5] = map (ext (C := Zring) ANTIREFLECT [3; 5; 4]) [4; -2; -3].
Proof. ex. Qed.

Theorem C112_pad : forall (C : CRing) fuel (x : list C) l r m p, min_len m <= zlen x -> (m = PERIODIZATION -> zlen x mod 2 = 0) -> (m = SMOOTH -> 2 <= zlen x) ->
  1 <= l -> 1 <= r -> l + zlen x + r + 4 < Z.of_nat fuel ->
  pad fuel x l r (mode_name m) = Ok p -> pad fuel (rev x) r l (mode_name m) = Ok (rev p).
Proof. exact pad_rev. Qed.
Print Assumptions C112_pad.
Example C112_pad_ex : 1 + zlen [1; 2; 4] + 2 + 4 < Z.of_nat 99 /\
  pad (C := Zring) 99 [1; 2; 4] 2 1 "smooth" = Ok [-1; 0; 1; 2; 4; 6] /\ pad (C := Zring) 99 [4; 2; 1] 1 2 "smooth" = Ok [6; 4; 2; 1; 0; -1].
Proof. ex. Qed.

(** Reading signal and filters backwards reverses the coefficients, for every mode and every even length. *)
Theorem C112_dwt_partial : forall (C : CRing) fuel (x : list C) w m, wf_bank w -> min_len m <= zlen x -> zlen x mod 2 = 0 -> resources fuel (zlen x) (dec_len w) ->
  exists cA cD, dwt fuel x w m = Ok (cA, cD) /\ dwt fuel (rev x) (rev_bank w) m = Ok (rev cA, rev cD).
Proof. exact dwt_rev. Qed.
Print Assumptions C112_dwt_partial.
Example C112_dwt_partial_ex : wf_bank zbank /\ min_len REFLECT <= zlen [3; 1; 4; 1] /\ 4 mod 2 = 0 /\ resources 99 4 (dec_len zbank) /\
  exists cA cD, dwt (C := Zring) 99 [3; 1; 4; 1] zbank REFLECT = Ok (cA, cD) /\ rev cA <> cA /\ dwt (C := Zring) 99 [1; 4; 1; 3] (rev_bank zbank) REFLECT = Ok (rev cA, rev cD).
Proof. do 3 (split; [ex|]). split; [ex|]. eexists _, _. split; [vm_compute; reflexivity|]. split; [discriminate|vm_compute; reflexivity]. Qed.

(** For odd lengths it is false: the other half of the filtered samples is kept. *)
Theorem C112_odd_refuted : exists x m cA cD cA' cD', zlen x mod 2 = 1 /\ dwt (C := Zring) 99 x zbank m = Ok (cA, cD) /\
  dwt (C := Zring) 99 (rev x) (rev_bank zbank) m = Ok (cA', cD') /\ cA' <> rev cA.
Proof. exists [3; 1; 4], SYMMETRIC. eexists _, _, _, _. split; [reflexivity|]. split; [vm_compute; reflexivity|]. split; [vm_compute; reflexivity|discriminate]. Qed.
Print Assumptions C112_odd_refuted.

Theorem C112_idwt : forall (C : CRing) fuel (cA cD : list C) w m, wf_bank w -> zlen cA = zlen cD -> 1 <= zlen cA ->
  1 <= rec_len m (zlen cA) (dec_len w) -> resources fuel (zlen cA) (dec_len w) ->
  exists x, idwt fuel (Some cA) (Some cD) w m = Ok x /\ idwt fuel (Some (rev cA)) (Some (rev cD)) (rev_bank w) m = Ok (rev x).
Proof. exact idwt_rev. Qed.
Print Assumptions C112_idwt.
Example C112_idwt_ex : wf_bank zbank /\ resources 99 3 (dec_len zbank) /\
  exists x, idwt (C := Zring) 99 (Some [1; 2; 4]) (Some [0; 3; 1]) zbank SYMMETRIC = Ok x /\ zlen x = 4 /\ rev x <> x /\
    idwt (C := Zring) 99 (Some [4; 2; 1]) (Some [1; 3; 0]) (rev_bank zbank) SYMMETRIC = Ok (rev x).
Proof. split; [ex|]. split; [ex|]. eexists. split; [vm_compute; reflexivity|]. split; [reflexivity|]. split; [discriminate|vm_compute; reflexivity]. Qed.

Theorem C112_wavedec_partial : forall (C : CRing) fuel (x : list C) w m level, wf_bank w -> 1 <= zlen x -> 0 <= level ->
  levels_ok m (dec_len w) (Z.to_nat level) (zlen x) ->
  (forall j, (j < Z.to_nat level)%nat -> approx_len m (dec_len w) j (zlen x) mod 2 = 0) -> resources fuel (zlen x) (dec_len w) ->
  exists cs, wavedec fuel x w m (Some level) = Ok cs /\ wavedec fuel (rev x) (rev_bank w) m (Some level) = Ok (map (@rev C) cs).
Proof. exact wavedec_rev. Qed.
Print Assumptions C112_wavedec_partial.
Example C112_wavedec_partial_ex : wf_bank zbank /\ levels_ok PERIODIZATION (dec_len zbank) 2 8 /\
  (forall j, (j < 2)%nat -> approx_len PERIODIZATION (dec_len zbank) j 8 mod 2 = 0) /\ resources 99 8 (dec_len zbank) /\
  exists cs, wavedec (C := Zring) 99 [3; 1; 4; 1; 5; 9; 2; 6] zbank PERIODIZATION (Some 2) = Ok cs /\
    wavedec (C := Zring) 99 [6; 2; 9; 5; 1; 4; 1; 3] (rev_bank zbank) PERIODIZATION (Some 2) = Ok (map (@rev Z) cs).
Proof.
  split; [ex|]. split; [apply levels_ok_intro; vm_compute; auto; discriminate|]. split; [intros [|[|j]] Hj; [reflexivity|reflexivity|lia]|]. split; [ex|].
  eexists. split; vm_compute; reflexivity.
Qed.

(** Filters of linear phase: the same filters, with the sign of the details changed. *)
Theorem C112_linear_phase : forall (C : CRing) fuel (x : list C) w m level, wf_bank w -> linear_phase w -> 1 <= zlen x -> 0 <= level ->
  levels_ok m (dec_len w) (Z.to_nat level) (zlen x) ->
  (forall j, (j < Z.to_nat level)%nat -> approx_len m (dec_len w) j (zlen x) mod 2 = 0) -> resources fuel (zlen x) (dec_len w) ->
  exists cA ds, wavedec fuel x w m (Some level) = Ok (cA :: ds) /\
    wavedec fuel (rev x) w m (Some level) = Ok (rev cA :: map (fun d => map ropp (rev d)) ds).
Proof. exact wavedec_linear_phase. Qed.
Print Assumptions C112_linear_phase.
Example C112_linear_phase_ex : wf_bank lp_bank /\ linear_phase lp_bank /\
  wavedec (C := Zring) 99 [3; 1; 4; 1] lp_bank SYMMETRIC (Some 1) = Ok [[20; 19; 14]; [0; -7; 0]] /\
  wavedec (C := Zring) 99 [1; 4; 1; 3] lp_bank SYMMETRIC (Some 1) = Ok [[14; 19; 20]; [0; 7; 0]].
Proof. ex. Qed.

(** The built-in wavelets haar, db1, bior1.x, bior3.x, rbio1.x and rbio3.x have linear phase. *)
Theorem C112_builtin : forall fuel name n w, uint_range n -> 22 < Z.of_nat fuel ->
  (name = BIOR \/ name = RBIO) /\ (n / 10 = 1 \/ n / 10 = 3) \/ name = HAAR \/ name = DB /\ n = 1 ->
  discrete_wavelet fuel builtin name n = Ok (Some w) -> linear_phase (w_bank w).
Proof. exact (fun fuel name n w Hn Hf H E => match H with
  | or_introl (conj A B) => bior_linear_phase fuel name n w A Hn Hf B E
  | or_intror A => haar_linear_phase fuel name n w A E end). Qed.
Print Assumptions C112_builtin.
Example C112_builtin_ex : uint_range 33 /\ 22 < Z.of_nat 40 /\ 33 / 10 = 3 /\ lookup 33 <> None.
Proof. split; [unfold uint_range; lia|]. ex. Qed.

(** C113 *)
(** A coefficient of level j+1 whose window lies inside the signal is a function of that window alone: two signals
    of any lengths, two modes and any positions with equal windows give equal coefficients. *)
Theorem C113_local : forall (C : CRing) fuel (x y : list C) w m m' level level' cA ds cA' ds',
  wf_bank w -> m <> PERIODIZATION -> m' <> PERIODIZATION -> 1 <= zlen x -> 1 <= zlen y -> 0 <= level -> 0 <= level' ->
  levels_ok m (dec_len w) (Z.to_nat level) (zlen x) -> levels_ok m' (dec_len w) (Z.to_nat level') (zlen y) ->
  resources fuel (zlen x) (dec_len w) -> resources fuel (zlen y) (dec_len w) ->
  wavedec fuel x w m (Some level) = Ok (cA :: rev ds) -> wavedec fuel y w m' (Some level') = Ok (cA' :: rev ds') ->
  (level = level' -> forall k s, inside (dec_len w) (zlen x) (Z.to_nat level) k -> inside (dec_len w) (zlen y) (Z.to_nat level) (k + s) ->
     (forall i, first_sample (dec_len w) (Z.to_nat level) k <= i <= last_sample (Z.to_nat level) k -> gz y (i + 2 ^ level * s) = gz x i) ->
     gz cA' (k + s) = gz cA k) /\
  (forall j, (j < Z.to_nat level)%nat -> (j < Z.to_nat level')%nat -> forall k s, inside (dec_len w) (zlen x) (S j) k -> inside (dec_len w) (zlen y) (S j) (k + s) ->
     (forall i, first_sample (dec_len w) (S j) k <= i <= last_sample (S j) k -> gz y (i + 2 ^ Z.of_nat (S j) * s) = gz x i) ->
     gz (nth j ds' []) (k + s) = gz (nth j ds []) k).
Proof. exact wavedec_local. Qed.
Print Assumptions C113_local.
(** The window 2..5 of x is the window 4..7 of y. *)
Example C113_local_ex : inside 4 7 1 2 /\ inside 4 8 1 3 /\ first_sample 4 1 2 = 2 /\ last_sample 1 2 = 5 /\
  exists a b d e, wavedec (C := Zring) 99 [9; 9; 3; 1; 4; 1; 7] zbank SYMMETRIC (Some 1) = Ok [a; d] /\
    wavedec (C := Zring) 99 [5; 2; 2; 8; 3; 1; 4; 1] zbank SMOOTH (Some 1) = Ok [b; e] /\ gz a 2 = -15 /\ gz b 3 = -15 /\ gz d 2 = gz e 3.
Proof. do 4 (split; [ex|]). eexists _, _, _, _. split; [vm_compute; reflexivity|]. split; [vm_compute; reflexivity|]. ex. Qed.

Theorem C113_inside : forall F N j k, inside F N j k <-> 0 <= first_sample F j k /\ last_sample j k < N.
Proof. exact inside_window. Qed.
Print Assumptions C113_inside.
Example C113_inside_ex : first_sample 6 3 5 = 12 /\ last_sample 3 5 = 47.
Proof. split; reflexivity. Qed.

(** In zero mode a change outside the window of a coefficient never changes it, at the borders too. *)
Theorem C113_zero : forall (C : CRing) fuel (x y : list C) w level, wf_bank w -> 1 <= zlen x -> zlen y = zlen x -> 0 <= level -> resources fuel (zlen x) (dec_len w) ->
  exists cA ds cA' ds', wavedec fuel x w ZEROPAD (Some level) = Ok (cA :: rev ds) /\ wavedec fuel y w ZEROPAD (Some level) = Ok (cA' :: rev ds') /\
    (forall k, (forall i, first_sample (dec_len w) (Z.to_nat level) k <= i <= last_sample (Z.to_nat level) k -> gz y i = gz x i) -> gz cA' k = gz cA k) /\
    forall j k, (j < Z.to_nat level)%nat -> (forall i, first_sample (dec_len w) (S j) k <= i <= last_sample (S j) k -> gz y i = gz x i) ->
      gz (nth j ds' []) k = gz (nth j ds []) k.
Proof. exact wavedec_local_zero. Qed.
Print Assumptions C113_zero.
(** The window is not too wide: a change of its last sample or of its first sample is seen. *)
Example C113_zero_ex : wf_bank zbank /\ resources 99 10 (dec_len zbank) /\ last_sample 2 1 = 7 /\ first_sample 4 2 2 = 2 /\
  wavedec (C := Zring) 99 [0; 0; 0; 0; 0; 0; 0; 1; 0; 0] zbank ZEROPAD (Some 2) = Ok [[0; 4; 8; 2]; [0; 2; 6; 2]; [0; 0; 0; -1; -2; 0]] /\
  wavedec (C := Zring) 99 [0; 0; 1; 0; 0; 0; 0; 0; 0; 0] zbank ZEROPAD (Some 2) = Ok [[4; 6; 1; 0]; [2; 5; 1; 0]; [0; -1; -1; 0; 0; 0]] /\
  wavedec (C := Zring) 99 [0; 1; 0; 0; 0; 0; 0; 0; 0; 0] zbank ZEROPAD (Some 2) = Ok [[8; 6; 0; 0]; [4; 6; 0; 0]; [-1; -2; 0; 0; 0; 0]].
Proof. ex. Qed.

(** C114 *)
Theorem C114_symmetry_partial : forall fuel name n w, uint_range n -> 22 < Z.of_nat fuel -> name <> HAAR -> (name = DB -> n <> 1) ->
  discrete_wavelet fuel builtin name n = Ok (Some w) -> let b := w_bank w in
  (discrete_symmetry name = "symmetric"%string -> mirrored (dec_lo b) /\ mirrored (dec_hi b) /\ mirrored (rec_lo b) /\ mirrored (rec_hi b)) /\
  (discrete_symmetry name <> "symmetric"%string -> ~ mirrored (dec_lo b) /\ ~ mirrored (dec_hi b) /\ ~ mirrored (rec_lo b) /\ ~ mirrored (rec_hi b)).
Proof. exact symmetry_true. Qed.
Print Assumptions C114_symmetry_partial.
Example C114_symmetry_partial_ex : uint_range 24 /\ 22 < Z.of_nat 40 /\ discrete_symmetry RBIO = "symmetric"%string /\ lookup 24 <> None /\
  mirrored (C := Zring) [1; -2; 1; 0] /\ ~ mirrored (C := Zring) [1; 2].
Proof.
  split; [unfold uint_range; lia|]. do 3 (split; [ex|]). split.
  - exists 2, 1. split; [left; reflexivity|]. intros i. 
    destruct (Z.eq_dec i 0) as [->|]; [reflexivity|]. destruct (Z.eq_dec i 1) as [->|]; [reflexivity|]. destruct (Z.eq_dec i 2) as [->|]; [reflexivity|].
    destruct (Z.eq_dec i 3) as [->|]; [reflexivity|]. destruct (Z.eq_dec i (-1)) as [->|]; [reflexivity|].
    rewrite !gz_out by (vm_compute zlen; lia). reflexivity.
  - intros (c & s & Hs & H). pose proof (H 0) as H0. pose proof (H 1) as H1. change (@gz Zring [1; 2] 0) with 1 in H0. change (@gz Zring [1; 2] 1) with 2 in H1. rewrite Z.sub_0_r in H0.
    assert (c = 0 \/ c = 1 \/ c < 0 \/ 2 <= c) as [->|[->|O]] by lia; [| |rewrite gz_out in H0 by exact O]; destruct Hs as [-> | ->]; vm_compute in H0, H1; discriminate.
Qed.

(** haar and db1 are symmetric, and their attribute says asymmetric. *)
Theorem C114_haar : forall fuel name n w, (name = HAAR \/ name = DB /\ n = 1) -> discrete_wavelet fuel builtin name n = Ok (Some w) -> let b := w_bank w in
  discrete_symmetry name = "asymmetric"%string /\ mirrored (dec_lo b) /\ mirrored (dec_hi b) /\ mirrored (rec_lo b) /\ mirrored (rec_hi b).
Proof. exact haar_symmetric. Qed.
Print Assumptions C114_haar.
Example C114_haar_ex : exists w, discrete_wavelet 40 builtin DB 1 = Ok (Some w).
Proof. eexists. exact (db_structure Qcring 40 builtin 1 builtin_ok ltac:(unfold uint_range; lia)). Qed.
Theorem C114_haar_refuted : exists name n w, discrete_wavelet 40 builtin name n = Ok (Some w) /\ discrete_symmetry name <> "symmetric"%string /\ mirrored (dec_lo (w_bank w)).
Proof. exact haar_refutes. Qed.
Print Assumptions C114_haar_refuted.
