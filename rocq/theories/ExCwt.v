(** Concrete data for the continuous wavelet transform. The ring is the Gaussian
    rationals; a length of 4 has its roots of unity there. *)
From Coq Require Import QArith Qround Qcanon Lqa.
From Verif Require Import Base BaseLemmas Instances Dwt Nd NdSpec Swt Multidim SwtNd Linear Cwt CwtSpec CwtProofs CwtNd CwtMain.
Open Scope Z_scope.

Definition GQ : CRing := Cplx Qcring.
Definition gq (a b : Q) : GQ := (Q2Qc a, Q2Qc b).
Definition gq_eqb (a b : GQ) : bool := Qc_eq_bool (fst a) (fst b) && Qc_eq_bool (snd a) (snd b).
Lemma gq_eqb_ok a b : gq_eqb a b = true -> a = b.
Proof.
  destruct a as [a1 a2], b as [b1 b2]. unfold gq_eqb. cbn [fst snd]. intros H. apply andb_prop in H as (H1 & H2).
  apply Qc_eq_bool_correct in H1. apply Qc_eq_bool_correct in H2. congruence.
Qed.
Definition ginj (q : Q) : GQ := gq q 0.
Definition groot (q : Q) : GQ := gq q 0.          (* any function may stand for the square root *)
Definition gconj (a : GQ) : GQ := (fst a, Qcopp (snd a)).
Definition gre (a : GQ) : GQ := (fst a, Q2Qc 0).
Definition gw (n : Z) : GQ := gq 0 (-1).
Definition gv (n : Z) : GQ := gq 0 1.
Definition gninv (n : Z) : GQ := gq (1 # 4) 0.
Definition gshow (y : nd GQ) : list Z * list (Q * Q) := (nshape y, map (fun z : GQ => (this (fst z), this (snd z))) (ndata y)).
Notation GCWT := (cwt ginj groot gconj gre gw gv gninv).

Lemma unity4 : unity 4 (gw 4) (gv 4) (gninv 4).
Proof.
  split; [apply gq_eqb_ok; vm_compute; reflexivity|]. split; [apply gq_eqb_ok; vm_compute; reflexivity|].
  intros d Hd. assert (E : d = 1 \/ d = 2 \/ d = 3) by lia. destruct E as [-> |[-> | ->]]; split; apply gq_eqb_ok; vm_compute; reflexivity.
Qed.
Lemma roots4 N L : 3 <= N + L - 1 <= 4 -> has_roots gw gv gninv N L.
Proof.
  intros H m Hm B. assert (m = 2). { assert (m < 3) by (apply (Z.pow_lt_mono_r_iff 2); lia). assert (1 < m) by (apply (Z.pow_lt_mono_r_iff 2); lia). lia. }
  subst m. exact unity4.
Qed.

(** A wavelet sampled at 4 points, real and complex; data of two lines along axis 0. *)
Definition gx : list Q := [0; 1; 2; 3]%Q.
Definition gpsi : list GQ := [gq 1 0; gq 2 0; gq (-1) 0; gq (-2) 0].
Definition gpsic : list GQ := [gq 1 1; gq 2 0; gq (-1) 1; gq (-2) (-2)].
Definition gdata : nd GQ := mkNd (C := GQ) [2; 3] [gq 1 0; gq 2 0; gq 5 0; gq (-3) 0; gq 1 0; gq 0 0].
Definition gdata2 : nd GQ := mkNd (C := GQ) [2; 3] [gq 0 0; gq 1 0; gq 1 0; gq 2 0; gq 1 0; gq 4 0].
Definition gsc : list Q := [3 # 4; 1 # 2; 3 # 4]%Q.
Lemma gdata_wf : nd_wf gdata.
Proof. split; [repeat constructor; cbn; lia|reflexivity]. Qed.
Lemma gdata2_wf : nd_wf gdata2.
Proof. split; [repeat constructor; cbn; lia|reflexivity]. Qed.
Lemma gx_ok : grid_ok gx.
Proof. split; [vm_compute; congruence|split; vm_compute; reflexivity]. Qed.
Lemma gsc_ok s : In s gsc -> (0 < s)%Q /\ (1 < inject_Z 4 * (s * grid_step gx))%Q /\ has_roots gw gv gninv 2 (stretched_len 4 (grid_step gx) (grid_width gx) s).
Proof. intros [<-|[<-|[<-|[]]]]; (split; [vm_compute; reflexivity|split; [vm_compute; reflexivity|apply roots4; vm_compute; intuition congruence]]). Qed.
(** The real numbers of the ring. *)
Definition greal (a : GQ) : Prop := snd a = Q2Qc 0.
Lemma greal_ok : real_samples gre greal.
Proof.
  unfold real_samples, greal. split; [reflexivity|]. split; [|split; [|split]].
  - intros [a1 a2] [b1 b2]. cbn [snd]. intros -> ->. change (Qcplus (Q2Qc 0) (Q2Qc 0) = Q2Qc 0). ring.
  - intros [a1 a2] [b1 b2]. cbn [snd]. intros -> ->. change (Qcplus (Qcmult a1 (Q2Qc 0)) (Qcmult (Q2Qc 0) b1) = Q2Qc 0). ring.
  - intros [a1 a2] [b1 b2]. cbn [snd]. intros -> ->. change (Qcminus (Q2Qc 0) (Q2Qc 0) = Q2Qc 0). ring.
  - intros [a1 a2]. cbn [snd]. intros ->. reflexivity.
Qed.
Lemma gre_lin : forall a b p q : GQ, greal a -> greal b -> gre (a [*] p [+] b [*] q) = a [*] gre p [+] b [*] gre q.
Proof.
  intros [a1 a2] [b1 b2] [p1 p2] [q1 q2]. unfold greal. cbn [snd]. intros -> ->.
  change ((Qcplus (Qcminus (Qcmult a1 p1) (Qcmult (Q2Qc 0) p2)) (Qcminus (Qcmult b1 q1) (Qcmult (Q2Qc 0) q2)), Q2Qc 0) =
    (Qcplus (Qcminus (Qcmult a1 p1) (Qcmult (Q2Qc 0) (Q2Qc 0))) (Qcminus (Qcmult b1 q1) (Qcmult (Q2Qc 0) (Q2Qc 0))),
     Qcplus (Qcplus (Qcmult a1 (Q2Qc 0)) (Qcmult (Q2Qc 0) p1)) (Qcplus (Qcmult b1 (Q2Qc 0)) (Qcmult (Q2Qc 0) q1)))).
  f_equal; ring.
Qed.

Definition gout (r : res (nd GQ * list Q)) : option ((list Z * list (Q * Q)) * list Q) :=
  match r with Ok (o, f) => Some (gshow o, f) | _ => None end.
Definition g46 : (list Z * list (Q * Q)) * list Q :=
  (([3; 2; 3], [(15 # 4, 0); (-3, 0); (-15 # 4, 0); (15 # 4, 0); (9 # 4, 0); (15 # 2, 0);
                (7 # 2, 0); (0, 0); (5 # 2, 0); (-1, 0); (3 # 2, 0); (5 # 2, 0);
                (15 # 4, 0); (-3, 0); (-15 # 4, 0); (15 # 4, 0); (9 # 4, 0); (15 # 2, 0)]%Q), [4 # 3; 2; 4 # 3]%Q).
Definition g46c : (list Z * list (Q * Q)) * list Q :=
  (([3; 2; 3], [(15 # 4, -21 # 4); (-3, 0); (-15 # 4, -15 # 4); (15 # 4, 9 # 4); (9 # 4, -3 # 4); (15 # 2, 0);
                (7 # 2, -7 # 2); (0, 0); (5 # 2, -5 # 2); (-1, 1); (3 # 2, -3 # 2); (5 # 2, -5 # 2);
                (15 # 4, -21 # 4); (-3, 0); (-15 # 4, -15 # 4); (15 # 4, 9 # 4); (9 # 4, -3 # 4); (15 # 2, 0)]%Q), [4 # 3; 2; 4 # 3]%Q).
Lemma g46_ok : gout (GCWT false gdata gsc (WContinuous false gpsi gx) 1 1 MConv 0) = Some g46.
Proof. vm_compute. reflexivity. Qed.
Lemma g46c_ok : gout (GCWT false gdata gsc (WContinuous true gpsic gx) 1 1 MFft (-2)) = Some g46c.
Proof. vm_compute. reflexivity. Qed.
Lemma gshort_ok : GCWT false gdata [1 # 2; 1 # 4]%Q (WContinuous true gpsic gx) 1 1 MConv (-2) = Err ValueError.
Proof. vm_compute. reflexivity. Qed.
Lemma gpsi_real : Forall greal gpsi.
Proof. repeat constructor. Qed.
Lemma gdata_real : Forall greal (ndata gdata).
Proof. repeat constructor. Qed.
Definition gdata1 : nd GQ := mkNd (C := GQ) [3] [gq 1 0; gq 2 0; gq 5 0].
Lemma cwt_discrete_bad : exists (data : nd GQ) scales, nd_wf data /\ zlen (nshape data) = 1 /\ (forall s, In s scales -> (0 < s)%Q) /\ scales <> [] /\
  GCWT false data scales WDiscrete 1 1 MConv (-1) = Err AttributeError.
Proof.
  exists gdata1, [3 # 4]%Q. split; [split; [repeat constructor; cbn; lia|reflexivity]|]. split; [reflexivity|].
  split; [intros s [<-|[]]; vm_compute; reflexivity|]. split; [congruence|reflexivity].
Qed.
Lemma cwt_axis_bad : exists (data : nd GQ) scales psi x axis, nd_wf data /\ ~ (- zlen (nshape data) <= axis < zlen (nshape data)) /\
  gout (GCWT false data scales (WContinuous false psi x) 1 1 MConv axis) = Some (([1; 3], [(-15 # 4, 0); (-15 # 2, 0); (0, 0)]%Q), [4 # 3]%Q).
Proof.
  exists gdata1, [3 # 4]%Q, gpsi, gx, 7. split; [split; [repeat constructor; cbn; lia|reflexivity]|]. split; [cbn; lia|]. vm_compute. reflexivity.
Qed.
