(** Properties of the continuous wavelet transform (C46, C68, C69). *)
From Coq Require Import QArith.
From Verif Require Import Base Instances Dwt Nd NdSpec Swt Multidim SwtNd Cwt CwtSpec CwtProofs CwtMain ExCwt.
Open Scope Z_scope.

(** C46. One entry per scale and index of the data. *)
Theorem C46_value : forall (C : CRing) (w v ninv : Z -> C) inj conj root re dcplx (data : nd C) scales wc psi x fc period meth axis,
  let d := zlen (nshape data) in let k := Z.to_nat (axis mod d) in let N := nthz k (nshape data) in
  nd_wf data -> 1 <= d -> - d <= axis < d -> 1 <= N -> grid_ok x -> 1 <= zlen psi ->
  (forall s, In s scales -> (0 < s)%Q /\ (1 < inject_Z (zlen psi) * (s * grid_step x))%Q /\ meth_good w v ninv meth psi x N s) -> meth <> MOther ->
  exists out, cwt inj root conj re w v ninv dcplx data scales (WContinuous wc psi x) fc period meth axis = Ok (out, map (fun s => (fc / s / period)%Q) scales) /\
  nshape out = zlen scales :: nshape data /\ nd_wf out /\
  forall i idx, 0 <= i < zlen scales -> Nd.valid (nshape data) idx ->
    ndget out (i :: idx) = let s := nth (Z.to_nat i) scales 0%Q in
      let z := cwt_at (fun q => let z := integral psi (inj (grid_step x)) q in if wc then conj z else z) (zlen psi) (grid_step x) (grid_width x) s (root s) (line data k idx) (nthz k idx) in
      if wc || dcplx then z else re z.
Proof. exact @cwt_value. Qed.
Print Assumptions C46_value.
Example C46_value_ex : nd_wf gdata /\ grid_ok gx /\ (forall s, In s gsc -> (0 < s)%Q /\ (1 < inject_Z 4 * (s * grid_step gx))%Q /\ has_roots gw gv gninv 2 (stretched_len 4 (grid_step gx) (grid_width gx) s)) /\
  gout (GCWT false gdata gsc (WContinuous false gpsi gx) 1 1 MConv 0) = Some g46 /\ gout (GCWT false gdata gsc (WContinuous true gpsic gx) 1 1 MFft (-2)) = Some g46c.
Proof. exact (conj gdata_wf (conj gx_ok (conj gsc_ok (conj g46_ok g46c_ok)))). Qed.

(** Of real data and a real wavelet nothing is dropped by taking the real part. *)
Theorem C46_real : forall (C : CRing) inj root re (R : C -> Prop) psi x s xs t, real_samples re R -> Forall R psi -> Forall R xs -> R (inj (grid_step x)) -> R (root s) ->
  let z := cwt_at (integral psi (inj (grid_step x))) (zlen psi) (grid_step x) (grid_width x) s (root s) xs t in re z = z.
Proof. exact (fun C inj => @cwt_at_real C (fun _ => r0) (fun _ => r0) (fun _ => r0) inj (fun z => z)). Qed.
Print Assumptions C46_real.
Example C46_real_ex : real_samples gre greal /\ Forall greal gpsi /\ Forall greal (ndata gdata).
Proof. exact (conj greal_ok (conj gpsi_real gdata_real)). Qed.

Theorem C46_linear : forall (C : CRing) (w v ninv : Z -> C) inj conj root re dcplx (X Y : nd C) a b scales wc psi x fc period meth axis,
  let d := zlen (nshape X) in let k := Z.to_nat (axis mod d) in let N := nthz k (nshape X) in
  nd_wf X -> nd_wf Y -> nshape Y = nshape X -> 1 <= d -> - d <= axis < d -> 1 <= N -> grid_ok x -> 1 <= zlen psi ->
  (forall s, In s scales -> (0 < s)%Q /\ (1 < inject_Z (zlen psi) * (s * grid_step x))%Q /\ meth_good w v ninv meth psi x N s) -> meth <> MOther ->
  (wc || dcplx = false -> forall p q, re (a [*] p [+] b [*] q) = a [*] re p [+] b [*] re q) ->
  exists fx fy f fr, cwt inj root conj re w v ninv dcplx X scales (WContinuous wc psi x) fc period meth axis = Ok (fx, fr) /\
  cwt inj root conj re w v ninv dcplx Y scales (WContinuous wc psi x) fc period meth axis = Ok (fy, fr) /\
  cwt inj root conj re w v ninv dcplx (ndadd (ndscal a X) (ndscal b Y)) scales (WContinuous wc psi x) fc period meth axis = Ok (f, fr) /\
  f = ndadd (ndscal a fx) (ndscal b fy).
Proof. exact @cwt_linear. Qed.
Print Assumptions C46_linear.
Example C46_linear_ex : nd_wf gdata /\ nd_wf gdata2 /\ nshape gdata2 = nshape gdata /\ (forall s, In s gsc -> (0 < s)%Q /\ (1 < inject_Z 4 * (s * grid_step gx))%Q /\ meth_good gw gv gninv MFft gpsi gx 2 s) /\
  (forall a b p q : GQ, greal a -> greal b -> gre (a [*] p [+] b [*] q) = a [*] gre p [+] b [*] gre q).
Proof. exact (conj gdata_wf (conj gdata2_wf (conj eq_refl (conj gsc_ok gre_lin)))). Qed.

Theorem C46_methods : forall (C : CRing) (w v ninv : Z -> C) inj conj root re dcplx (data : nd C) scales wc psi x fc period axis,
  let d := zlen (nshape data) in let k := Z.to_nat (axis mod d) in let N := nthz k (nshape data) in
  nd_wf data -> 1 <= d -> - d <= axis < d -> 1 <= N -> grid_ok x -> 1 <= zlen psi ->
  (forall s, In s scales -> (0 < s)%Q -> has_roots w v ninv N (stretched_len (zlen psi) (grid_step x) (grid_width x) s)) ->
  cwt inj root conj re w v ninv dcplx data scales (WContinuous wc psi x) fc period MFft axis = cwt inj root conj re w v ninv dcplx data scales (WContinuous wc psi x) fc period MConv axis.
Proof. exact @cwt_methods. Qed.
Print Assumptions C46_methods.
Example C46_methods_ex : nd_wf gdata /\ grid_ok gx /\ (forall N L, 3 <= N + L - 1 <= 4 -> has_roots gw gv gninv N L) /\ 
  map (stretched_len 4 (grid_step gx) (grid_width gx)) gsc = [3; 2; 3] /\ gout (GCWT false gdata gsc (WContinuous true gpsic gx) 1 1 MFft (-2)) = Some g46c.
Proof. exact (conj gdata_wf (conj gx_ok (conj roots4 (conj eq_refl g46c_ok)))). Qed.

(** A scale too small, a scale that is not positive, another method. *)
Theorem C46_short : forall (C : CRing) (w v ninv : Z -> C) inj conj root re dcplx (data : nd C) scales wc psi x fc period meth axis,
  let d := zlen (nshape data) in let k := Z.to_nat (axis mod d) in let N := nthz k (nshape data) in
  nd_wf data -> 1 <= d -> - d <= axis < d -> 1 <= N -> grid_ok x -> 1 <= zlen psi ->
  (forall s, In s scales -> (0 < s)%Q /\ meth_good w v ninv meth psi x N s) -> meth <> MOther ->
  (exists s, In s scales /\ (inject_Z (zlen psi) * (s * grid_step x) <= 1)%Q) ->
  cwt inj root conj re w v ninv dcplx data scales (WContinuous wc psi x) fc period meth axis = Err ValueError.
Proof. exact @cwt_short. Qed.
Print Assumptions C46_short.
Example C46_short_ex : nd_wf gdata /\ grid_ok gx /\ (inject_Z 4 * ((1 # 4) * grid_step gx) == 1)%Q /\ GCWT false gdata [1 # 2; 1 # 4]%Q (WContinuous true gpsic gx) 1 1 MConv (-2) = Err ValueError.
Proof. exact (conj gdata_wf (conj gx_ok (conj eq_refl gshort_ok))). Qed.
Theorem C46_nonpositive : forall (C : CRing) (w v ninv : Z -> C) inj conj root re dcplx (data : nd C) scales wav fc period meth axis,
  (exists s, In s scales /\ (s <= 0)%Q) -> cwt inj root conj re w v ninv dcplx data scales wav fc period meth axis = Err ValueError.
Proof. exact @cwt_nonpositive. Qed.
Print Assumptions C46_nonpositive.
Example C46_nonpositive_ex : GCWT false gdata [1 # 2; 0]%Q (WContinuous true gpsic gx) 1 1 MConv (-2) = Err ValueError.
Proof. exact eq_refl. Qed.
Theorem C46_other_method : forall (C : CRing) (w v ninv : Z -> C) inj conj root re dcplx (data : nd C) scales wc psi x fc period axis,
  (forall s, In s scales -> (0 < s)%Q) -> 2 <= zlen x -> cwt inj root conj re w v ninv dcplx data scales (WContinuous wc psi x) fc period MOther axis = Err ValueError.
Proof. exact @cwt_method_rejected. Qed.
Print Assumptions C46_other_method.
Example C46_other_method_ex : GCWT false gdata gsc (WContinuous true gpsic gx) 1 1 MOther (-2) = Err ValueError.
Proof. exact eq_refl. Qed.

(** C68. *)
Theorem C68_discrete_partial : forall (C : CRing) (w v ninv : Z -> C) inj conj root re dcplx (data : nd C) scales fc period meth axis,
  (forall s, In s scales -> (0 < s)%Q) -> cwt inj root conj re w v ninv dcplx data scales WDiscrete fc period meth axis = Err AttributeError.
Proof. exact @cwt_discrete. Qed.
Print Assumptions C68_discrete_partial.
Example C68_discrete_ex : (forall s, In s gsc -> (0 < s)%Q) /\ GCWT false gdata gsc WDiscrete 1 1 MConv (-1) = Err AttributeError.
Proof. split; [|reflexivity]. intros s H. repeat (destruct H as [<-|H]; [reflexivity|]). destruct H. Qed.
Theorem C68_refuted : exists (data : nd GQ) scales, nd_wf data /\ zlen (nshape data) = 1 /\ (forall s, In s scales -> (0 < s)%Q) /\ scales <> [] /\
  GCWT false data scales WDiscrete 1 1 MConv (-1) = Err AttributeError.
Proof. exact cwt_discrete_bad. Qed.
Print Assumptions C68_refuted.

(** C69. *)
Theorem C69_rejected_partial : forall (C : CRing) (w v ninv : Z -> C) inj conj root re dcplx (data : nd C) scales wc psi x fc period meth axis,
  (forall s, In s scales -> (0 < s)%Q) -> 2 <= zlen x -> meth <> MOther -> 2 <= zlen (nshape data) -> ~ (- zlen (nshape data) <= axis < zlen (nshape data)) ->
  cwt inj root conj re w v ninv dcplx data scales (WContinuous wc psi x) fc period meth axis = Err AxisError.
Proof. exact @cwt_axis_rejected. Qed.
Print Assumptions C69_rejected_partial.
Example C69_rejected_ex : GCWT false gdata gsc (WContinuous true gpsic gx) 1 1 MConv 2 = Err AxisError.
Proof. exact eq_refl. Qed.
Theorem C69_refuted : exists (data : nd GQ) scales psi x axis, nd_wf data /\ ~ (- zlen (nshape data) <= axis < zlen (nshape data)) /\
  gout (GCWT false data scales (WContinuous false psi x) 1 1 MConv axis) = Some (([1; 3], [(-15 # 4, 0); (-15 # 2, 0); (0, 0)]%Q), [4 # 3]%Q).
Proof. exact cwt_axis_bad. Qed.
Print Assumptions C69_refuted.
