(** Concrete data for the properties of element types. *)
From Coq Require Import Ascii String QArith Qcanon.
From Verif Require Import Base CConv Lengths Dwt Swt Nd NdSpec Axis Multidim MultilevelNd SwtNd Packing Instances ExCwt Dtype DtypeSpec DtypeProofs DtypeValues.
Open Scope Z_scope.

(** Truncation towards 0 and the truth value, for rational values. *)
Definition qtrunc (q : Qcring) : Qcring := Q2Qc (inject_Z (Z.quot (Qnum (this q)) (Zpos (Qden (this q))))).
Definition qtruth (v : GQ) : Qcring := if gq_eqb v (gq 0 0) then Q2Qc 0 else Q2Qc 1.
Definition gjunk (i : Z) : GQ := gq 77 0.
Definition gjunkl (i : list Z) : GQ := gq 77 0.
(** A Haar bank with rational filters. *)
Definition ghaar : wavelet GQ :=
  mkWavelet (C := GQ) [gq (1 # 2) 0; gq (1 # 2) 0] [gq (-1 # 2) 0; gq (1 # 2) 0] [gq 1 0; gq 1 0] [gq 1 0; gq (-1) 0].
Definition ghalf : GQ := gq (1 # 2) 0.
Definition gvec (l : list (Q * Q)) : sarr GQ := of_nd (mkNd (C := GQ) [Z.of_nat (List.length l)] (map (fun '(a, b) => gq a b) l)).
Definition gnd (l : list (Q * Q)) : nd GQ := mkNd (C := GQ) [Z.of_nat (List.length l)] (map (fun '(a, b) => gq a b) l).
Definition gmat (l : list (Q * Q)) : sarr GQ := of_nd (mkNd (C := GQ) [4; 4] (map (fun '(a, b) => gq a b) l)).

Definition z4 : sarr GQ := gvec [(0, 0); (0, 0); (0, 0); (0, 0)]%Q.
Definition i4 : sarr GQ := gvec [(0, 4); (0, 0); (0, 0); (0, 0)]%Q.
Definition r4 : sarr GQ := gvec [(1, 0); (2, 0); (0, 0); (0, 0)]%Q.
(** Real approximation, complex coarse details, real fine details; and the order reversed. *)
Definition lossy : list (titem Qcring) := [TArr Qcring (Double, r4); TDict Qcring [("d", (CDouble, i4))]%string; TDict Qcring [("d", (Double, z4))]%string].
Definition lossless : list (titem Qcring) := [TArr Qcring (Double, r4); TDict Qcring [("d", (Double, z4))]%string; TDict Qcring [("d", (CDouble, i4))]%string].
Definition show_t (r : res (dtype * nd GQ)) := (x <- r ;; Ok (fst x, gshow (snd x))).

Definition z44 : sarr GQ := gmat (repeat (0, 0)%Q 16).
Definition i44 : sarr GQ := gmat ((0, 16)%Q :: repeat (0, 0)%Q 15).
Definition lossy2 : list (titem2 Qcring) := [TA2 Qcring (Double, z44); TD2 Qcring (CDouble, i44) (Double, z44) (Double, z44); TD2 Qcring (Double, z44) (Double, z44) (Double, z44)].
Definition lossless2 : list (titem2 Qcring) := [TA2 Qcring (Double, z44); TD2 Qcring (Double, z44) (Double, z44) (Double, z44); TD2 Qcring (CDouble, i44) (Double, z44) (Double, z44)].


Definition ints : list (pitem Qcring) := [PArr Qcring (Int, gnd [(1, 0); (2, 0)]%Q); PArr Qcring (Double, gnd [(1 # 2, 0); (7 # 2, 0)]%Q)].
Definition floats : list (pitem Qcring) := [PArr Qcring (Double, gnd [(1, 0); (2, 0)]%Q); PArr Qcring (Single, gnd [(1 # 2, 0); (7 # 2, 0)]%Q)].

Lemma res_split {A B} (r : res A) (f : A -> B) b : (x <- r ;; Ok (f x)) = Ok b -> exists a, r = Ok a /\ f a = b.
Proof. destruct r as [a | | |]; cbn; try discriminate. intros [= <-]. exists a. auto. Qed.
Definition head_im (l : list GQ) (q : Q) : bool := match l with v :: _ => Qc_eq_bool (snd v) (Q2Qc q) | [] => false end.
Definition head_re (l : list GQ) (q : Q) : bool := match l with v :: _ => Qc_eq_bool (fst v) (Q2Qc q) | [] => false end.
Definition all_real (l : list GQ) : bool := forallb (fun v : GQ => Qc_eq_bool (snd v) (Q2Qc 0)) l.
Lemma all_real_ok l : all_real l = true -> real_values (C := Qcring) l.
Proof. intros H v I. unfold all_real in H. rewrite forallb_forall in H. apply Qc_eq_bool_correct, H, I. Qed.

Lemma iswtn_real_lost : exists (cs : list (titem Qcring)) w half y z,
  half [+] half = (r1 : Cplx Qcring) /\ (forall it, In it cs -> dict_ok it) /\
  iswtn_t Qcring qtrunc qtruth 99 gjunk half cs w None None = Ok (Double, y) /\
  snd (iswtn 99 gjunk half (map (untype Qcring) cs) w None None) = Ok z /\ of_nd y <> z /\
  real_values (ndata y) /\ exists v, In v (smem z) /\ snd v = Q2Qc 1.
Proof.
  exists lossy, (One ghaar), ghalf.
  destruct (res_split (iswtn_t Qcring qtrunc qtruth 99 gjunk ghalf lossy (One ghaar) None None) (fun x => (fst x, all_real (ndata (snd x)))) (Double, true))
    as ((t, y) & E1 & F1); [vm_compute; reflexivity|].
  destruct (res_split (snd (iswtn 99 gjunk ghalf (map (untype Qcring) lossy) (One ghaar) None None)) (fun x => head_im (smem x) 1) true)
    as (z & E2 & F2); [vm_compute; reflexivity|].
  cbn [fst snd] in F1. injection F1 as -> F1. apply all_real_ok in F1. unfold head_im in F2. destruct (smem z) as [| v r] eqn:Z; [discriminate|]. apply Qc_eq_bool_correct in F2.
  exists y, z. split; [apply gq_eqb_ok; vm_compute; reflexivity|].
  split. { intros it [<- | [<- | [<- | []]]]; cbn; repeat constructor; cbn; tauto. }
  split; [exact E1|]. split; [exact E2|]. split.
  - intros Q. apply (f_equal smem) in Q. cbn [of_nd smem] in Q. pose proof (eq_trans Q Z) as Q'. specialize (F1 v). unfold GQ in *. rewrite Q' in F1. specialize (F1 (or_introl eq_refl)).
    rewrite F2 in F1. discriminate F1.
  - split; [exact F1|]. exists v. unfold GQ in *. rewrite Z. split; [left; reflexivity|exact F2].
Qed.

Lemma iswt2_real_lost : exists (cs : list (titem2 Qcring)) w half y z,
  half [+] half = (r1 : Cplx Qcring) /\
  iswt2_t Qcring qtrunc qtruth 99 gjunk half cs w None [-2; -1] = Ok (Double, y) /\
  iswt2 99 gjunk half (map (untype2 Qcring) cs) w None [-2; -1] = Ok z /\ of_nd y <> z /\
  real_values (ndata y) /\ exists v, In v (smem z) /\ snd v = Q2Qc 1.
Proof.
  exists lossy2, (One ghaar), ghalf.
  destruct (res_split (iswt2_t Qcring qtrunc qtruth 99 gjunk ghalf lossy2 (One ghaar) None [-2; -1]) (fun x => (fst x, all_real (ndata (snd x)))) (Double, true))
    as ((t, y) & E1 & F1); [vm_compute; reflexivity|].
  destruct (res_split (iswt2 99 gjunk ghalf (map (untype2 Qcring) lossy2) (One ghaar) None [-2; -1]) (fun x => head_im (smem x) 1) true)
    as (z & E2 & F2); [vm_compute; reflexivity|].
  cbn [fst snd] in F1. injection F1 as -> F1. apply all_real_ok in F1. unfold head_im in F2. destruct (smem z) as [| v r] eqn:Z; [discriminate|]. apply Qc_eq_bool_correct in F2.
  exists y, z. split; [apply gq_eqb_ok; vm_compute; reflexivity|]. split; [exact E1|]. split; [exact E2|]. split.
  - intros Q. apply (f_equal smem) in Q. cbn [of_nd smem] in Q. pose proof (eq_trans Q Z) as Q'. specialize (F1 v). unfold GQ in *. rewrite Q' in F1. specialize (F1 (or_introl eq_refl)).
    rewrite F2 in F1. discriminate F1.
  - split; [exact F1|]. exists v. unfold GQ in *. rewrite Z. split; [left; reflexivity|exact F2].
Qed.

(** The first value of the detail array of a list as wavedec returns it. *)
Definition detail_head (cs : list (item GQ)) (q : Q) : bool :=
  match cs with _ :: IArr d :: _ => head_re (ndata d) q | _ => false end.
Lemma ints_truncated : exists (cs : list (pitem Qcring)) arr sl out,
  coeffs_to_array_t Qcring qtrunc qtruth gjunkl cs None None = Ok (arr, sl) /\
  array_to_coeffs (Cplx Qcring) arr sl FWavedec = Ok out /\ out <> map (pconv Qcring snd) cs.
Proof.
  exists ints.
  destruct (res_split (x <- coeffs_to_array_t Qcring qtrunc qtruth gjunkl ints None None ;; o <- array_to_coeffs GQ (fst x) (snd x) FWavedec ;; Ok (x, o))
     (fun x => detail_head (snd x) 0) true) as ((x, out) & E & F); [vm_compute; reflexivity|].
  destruct (coeffs_to_array_t Qcring qtrunc qtruth gjunkl ints None None) as [(arr, sl) | | |] eqn:E1; try discriminate E.
  cbn [bind fst snd] in E. destruct (array_to_coeffs GQ arr sl FWavedec) as [o | | |] eqn:E2; try discriminate E. cbn [bind] in E. injection E as <- ->.
  exists arr, sl, out. split; [reflexivity|]. split; [exact E2|]. intros ->. cbn [snd] in F. revert F. clear. intros F.
  assert (detail_head (map (pconv Qcring snd) ints) 0 = false) as K by (vm_compute; reflexivity). congruence.
Qed.
Lemma ints_raveled : exists (cs : list (pitem Qcring)) arr sl sh out,
  ravel_coeffs_t Qcring qtrunc qtruth gjunk cs None = Ok (arr, sl, sh) /\
  unravel_coeffs (Cplx Qcring) arr sl sh FWavedec = Ok out /\ out <> map (pconv Qcring snd) cs.
Proof.
  exists ints.
  destruct (res_split (x <- ravel_coeffs_t Qcring qtrunc qtruth gjunk ints None ;; o <- unravel_coeffs GQ (fst (fst x)) (snd (fst x)) (snd x) FWavedec ;; Ok (x, o))
     (fun x => detail_head (snd x) 0) true) as ((x, out) & E & F); [vm_compute; reflexivity|].
  destruct (ravel_coeffs_t Qcring qtrunc qtruth gjunk ints None) as [((arr, sl), sh) | | |] eqn:E1; try discriminate E.
  cbn [bind fst snd] in E. destruct (unravel_coeffs GQ arr sl sh FWavedec) as [o | | |] eqn:E2; try discriminate E. cbn [bind] in E. injection E as <- ->.
  exists arr, sl, sh, out. split; [reflexivity|]. split; [exact E2|]. intros ->. cbn [snd] in F. revert F. clear. intros F.
  assert (detail_head (map (pconv Qcring snd) ints) 0 = false) as K by (vm_compute; reflexivity). congruence.
Qed.

(** Assigning a node with complex data. *)
Definition cnode : nd GQ := gnd [(1, 2); (3, -1)]%Q.
Lemma node_real_lost : exists v : nd (Cplx Qcring), forall s, s = SrcNode Qcring (CDouble, v) \/ s = SrcLst Qcring (CDouble, v) ->
  assigned Qcring qtrunc qtruth (SrcArr Qcring (CDouble, v)) = (CDouble, v) /\
  fst (assigned Qcring qtrunc qtruth s) = Double /\ snd (assigned Qcring qtrunc qtruth s) <> v.
Proof.
  exists cnode. intros s H. split; [reflexivity|].
  rewrite (assigned_complex (C := Qcring) qtrunc qtruth s CDouble cnode) by (first [tauto | unfold complex; cbn; tauto]).
  split; [reflexivity|]. cbn [snd]. intros Q. apply (f_equal (fun a => head_im (ndata a) 0)) in Q.
  assert (head_im (ndata cnode) 0 = false) as K by (vm_compute; reflexivity). rewrite K in Q. revert Q. vm_compute. discriminate.
Qed.
Lemma complex_list : exists x, dwt_dtype x = Err TypeError /\ idwt_dtype (Some x) None = Err TypeError /\ cwt_dtype false x = Err TypeError /\
  nearest (asarray x) (dwtn_dtype 1 x) /\ wavedec_dtypes 1 x = Ok [CDouble; CDouble].
Proof. exists (Lst CDouble). repeat (split; [reflexivity|]). split; [apply dwtn_dtype_nearest; lia|reflexivity]. Qed.
Lemma level0_unsupported : exists x t, wavedec_dtypes 0 x = Ok [t] /\ ~ supported t.
Proof. exists (Arr Int), Int. split; [reflexivity|]. unfold supported. cbn. intuition discriminate. Qed.
Lemma half_single : exists a d t u, idwt_dtype (Some (Arr a)) (Some (Arr d)) = Ok t /\
  idwtn_dtype 1 "" (fun k => if String.eqb k "a" then Some a else if String.eqb k "d" then Some d else None) = Some u /\ t <> u.
Proof. exists Half, Single, Single, Double. repeat split. discriminate. Qed.
