(** Properties stated without the helpers of the model: two names of an axis,
    the comparisons of threshold, and the numbers in the names of wavelets. *)
From Coq Require Import String Ascii QArith Qabs List.
From Verif Require Import Base BaseLemmas CConv Spec Lengths Dwt Nd NdSpec Axis Multidim Multilevel MultilevelNd Swt SwtNd NamesSpec Names NamesProofs NamesProofs2 Threshold ThresholdProofs.
Import ListNotations.
Open Scope list_scope. Open Scope Z_scope.

(** Two names of one axis of an array of dimension [n]. *)
Definition same_axis (n a b : Z) : Prop := - n <= a < n /\ - n <= b < n /\ a mod n = b mod n.

Lemma norm_mod n a : - n <= a < n -> (if a <? 0 then a + n else a) = a mod n.
Proof.
  intros H. destruct (Z.ltb_spec a 0).
  - apply (Z.mod_unique_pos a n (-1)); lia.
  - symmetry. apply Z.mod_small. lia.
Qed.
Lemma norm_same n l l' : Forall2 (same_axis n) l l' -> norm_axes n l = norm_axes n l' /\ List.length l = List.length l'.
Proof.
  induction 1 as [|a b l l' (Ha & Hb & E) _ (I1 & I2)]; [split; reflexivity|]. unfold norm_axes in *. cbn [map List.length].
  rewrite (norm_mod n a Ha), (norm_mod n b Hb), E, I1, I2. split; reflexivity.
Qed.

Section A.
Variable C : CRing.
Variable fuel : nat.
Variable junk : Z -> C.
Theorem dwtn_axis_names (data : sarr C) w m l l' : Forall2 (same_axis (ndim data)) l l' -> dwtn fuel junk data w m (Some l) = dwtn fuel junk data w m (Some l').
Proof. intros H. unfold dwtn. cbv zeta. rewrite (proj1 (norm_same _ _ _ H)). reflexivity. Qed.
Theorem swtn_axis_names (data : sarr C) w level start l l' trim norm : Forall2 (same_axis (ndim data)) l l' ->
  swtn fuel junk data w level start (Some l) trim norm = swtn fuel junk data w level start (Some l') trim norm.
Proof. intros H. unfold swtn. cbv zeta. rewrite (proj1 (norm_same _ _ _ H)). reflexivity. Qed.
Theorem idwtn_axis_names n (d : dict (option (sarr C))) w m l l' : (forall k a, In (k, Some a) d -> ndim a = n) -> Forall2 (same_axis n) l l' ->
  idwtn fuel junk d w m (Some l) = idwtn fuel junk d w m (Some l').
Proof.
  intros Hd H. unfold idwtn. cbv zeta. destruct (fix_coeffs _) as [r| | |e] eqn:E; cbn [bind]; try reflexivity. destruct r as [|[k0 v0] rest]; [reflexivity|].
  assert (N : zlen (sshape v0) = n).
  { change (ndim v0 = n). unfold fix_coeffs in E. destruct (existsb _ _); [discriminate|]. destruct (existsb _ _); [discriminate|]. cbv zeta in E. destruct (negb _); [discriminate|].
    injection E as E. assert (I : In (k0, v0) ((k0, v0) :: rest)) by now left. rewrite <- E in I. apply in_flat_map in I as ([k v] & I & J).
    destruct v as [a|]; [|contradiction]. destruct J as [J|[]]. injection J as -> ->. apply filter_In in I as [I _]. exact (Hd _ _ I). }
  rewrite N, (proj1 (norm_same _ _ _ H)). reflexivity.
Qed.
End A.

Theorem threshold_cases data v s :
  (exists r, threshold data v "hard" s = Ok r /\ Forall2 (fun x y => (Qabs x < v -> y = Fin s) /\ (v <= Qabs x -> y = Fin x))%Q data r) /\
  (exists r, threshold data v "greater" s = Ok r /\ Forall2 (fun x y => (x < v -> y = Fin s) /\ (v <= x -> y = Fin x))%Q data r) /\
  (exists r, threshold data v "less" s = Ok r /\ Forall2 (fun x y => (v < x -> y = Fin s) /\ (x <= v -> y = Fin x))%Q data r).
Proof.
  destruct (threshold_others data v s) as (H1 & H2 & H3).
  assert (G : forall (p q : Q -> Q), Forall2 (fun x y => (p x < q x -> y = Fin s) /\ (q x <= p x -> y = Fin x))%Q data (map (fun x => Fin (if Qltb (p x) (q x) then s else x)) data)).
  { intros p q. clear. induction data as [|x l IH]; cbn [map]; constructor; [|exact IH]. destruct (Qltb_spec (p x) (q x)) as [(L & ->)|(L & ->)]; split; intros H; try reflexivity; exfalso.
    - exact (Qlt_not_le _ _ L H). - exact (Qlt_not_le _ _ H L). }
  split; [|split]; eexists.
  - split; [exact H1|]. exact (G (fun x => Qabs x) (fun _ => v)).
  - split; [exact H2|]. exact (G (fun x => x) (fun _ => v)).
  - split; [exact H3|]. exact (G (fun _ => v) (fun x => x)).
Qed.

(** The digits 0-9 as characters, and the number they write. *)
Fixpoint written (l : list nat) : string := match l with [] => EmptyString | d :: t => String (ascii_of_nat (48 + d)) (written t) end.
Fixpoint number (l : list nat) : Z := match l with [] => 0 | d :: t => Z.of_nat d * 10 ^ Z.of_nat (List.length t) + number t end.

Lemma digit_of d : (d <= 9)%nat -> is_digit (ascii_of_nat (48 + d)) = true /\ digit_val (ascii_of_nat (48 + d)) = Z.of_nat d.
Proof. intros H. do 10 (destruct d as [|d]; [split; reflexivity|]). lia. Qed.
Lemma written_app l l' : String.append (written l) (written l') = written (l ++ l').
Proof. induction l as [|d l IH]; cbn [written String.append app]; [reflexivity|now rewrite IH]. Qed.
Lemma written_length l : String.length (written l) = List.length l.
Proof. induction l as [|d l IH]; cbn [written String.length List.length]; [reflexivity|now rewrite IH]. Qed.
Lemma digits_number l : Forall (fun d => (d <= 9)%nat) l -> forall acc, digits_val acc (written l) = acc * 10 ^ Z.of_nat (List.length l) + number l.
Proof.
  induction 1 as [|d l Hd _ IH]; intros acc; cbn [written digits_val number List.length]; [change (10 ^ Z.of_nat 0) with 1; ring|].
  rewrite (proj2 (digit_of d Hd)), IH, Nat2Z.inj_succ, Z.pow_succ_r by lia. ring.
Qed.

Theorem decimal_number ds es : ds <> [] -> Forall (fun d => (d <= 9)%nat) ds -> Forall (fun d => (d <= 9)%nat) es ->
  decimal (written ds, 1%nat, written es) /\ render (written ds, 1%nat, written es) = String.append (written ds) (String.append "." (written es)) /\
  (decimal_value (written ds, 1%nat, written es) * inject_Z (10 ^ Z.of_nat (List.length es)) == inject_Z (number (ds ++ es)))%Q.
Proof.
  intros Hne H1 H2. assert (A : forall l, Forall (fun d => (d <= 9)%nat) l -> all_chars is_digit (written l) = true).
  { induction 1 as [|d l Hd _ IH]; cbn [written all_chars]; [reflexivity|]. now rewrite (proj1 (digit_of d Hd)), IH. }
  split; [|split].
  - split; [auto|]. split; [destruct ds; [contradiction|discriminate]|]. split; [auto|now left].
  - reflexivity.
  - unfold decimal_value. rewrite written_app, written_length, digits_number by (apply Forall_app; auto). cbn [Z.mul]. rewrite Z.add_0_l.
    set (p := 10 ^ Z.of_nat (List.length es)). assert (P : 0 < p) by (apply Z.pow_pos_nonneg; lia).
    unfold Qeq, Qmult, inject_Z. cbn [Qnum Qden]. rewrite Pos.mul_1_r, Z2Pos.id by exact P. ring.
Qed.
