(** Property theorems for the central frequency and the continuous transform of
    a wavelet given by its name (C90, C91). *)
From Coq Require Import QArith Reals Qreals Lra Lia ZArith List String.
Import ListNotations.
From Verif Require Import Base Instances CConv Dwt Nd NdSpec Swt Multidim SwtNd Filters Names Cwt CwtSpec CwtProofs CwtMain Wavefun.
From Verif Require Import ContinuousSpec Continuous ContinuousDoc ContinuousMain ExContinuous CwtReal CwtRealSpec CwtRealProofs ExCwtReal.
Open Scope R_scope.

(** C90. *)
Theorem C90_central_frequency : forall name a level, continuous_attrs name = Ok a -> usable a -> (1 <= level)%Z -> (2 ^ level < max_alloc)%Z ->
  exists f k q, documented_psi a f /\ peak_at (spectrum (sampled f a (2 ^ level)) (2 ^ level)) (2 ^ level) k /\
    c_central_frequency a level = Ok q /\ (q == inject_Z (Z.min k (2 ^ level - k)) / (a_upper a - a_lower a))%Q /\
    (0 < q <= inject_Z (2 ^ level) / (2 * (a_upper a - a_lower a)))%Q.
Proof. exact central_named. Qed.
Print Assumptions C90_central_frequency.
Example C90_central_frequency_ex : continuous_attrs "mexh" = Ok mexh_a /\ usable mexh_a /\ exists q, c_central_frequency mexh_a 1 = Ok q /\ (q == 1 # 16)%Q.
Proof. exact (conj attrs_mexh (conj I mexh_central)). Qed.

Theorem C90_one_sample : forall name a, continuous_attrs name = Ok a -> usable a -> c_central_frequency a 0 = Err AssertionError.
Proof. exact central_named_0. Qed.
Print Assumptions C90_one_sample.
Example C90_one_sample_ex : c_central_frequency mexh_a 0 = Err AssertionError.
Proof. exact (central_named_0 _ _ attrs_mexh I). Qed.

(** C91. *)
Theorem C91_value : forall name a dcplx (data : nd CR) scales period meth axis, let d := zlen (nshape data) in let k := Z.to_nat (axis mod d) in
  let x := linspace (a_lower a) (a_upper a) 1024 in
  continuous_attrs name = Ok a -> usable a -> nd_wf data -> (1 <= d)%Z -> (- d <= axis < d)%Z -> (1 <= nthz k (nshape data))%Z -> meth <> MOther ->
  (forall s, In s scales -> (0 < s)%Q /\ (1 < inject_Z 1024 * (s * grid_step x))%Q) ->
  exists f fc out (psi : list CR), documented_psi a f /\ zlen psi = 1024%Z /\ (forall i, (0 <= i < 1024)%Z -> gz psi i = sampled f a 1024 i) /\ c_central_frequency a 10 = Ok fc /\
  cwt_named dcplx data scales name period meth axis = Ok (out, map (fun s => (fc / s / period)%Q) scales) /\
  nshape out = zlen scales :: nshape data /\ nd_wf out /\
  forall i idx, (0 <= i < zlen scales)%Z -> Nd.valid (nshape data) idx ->
    ndget out (i :: idx) = let s := nth (Z.to_nat i) scales 0%Q in
      let z := cwt_at (fun q => let z : CR := integral psi ((Q2R (grid_step x), 0) : CR) q in if a_complex a then ((fst z, - snd z) : CR) else z) 1024 (grid_step x) (grid_width x) s ((sqrt (Q2R s), 0) : CR) (line data k idx) (nthz k idx) in
      if a_complex a || dcplx then z else ((fst z, 0) : CR).
Proof. exact named_value. Qed.
Print Assumptions C91_value.
Example C91_value_ex : continuous_attrs "cmor1.5-1.0" = Ok cmor_a /\ usable cmor_a /\ nd_wf rdata /\
  forall s, In s [1; 5 # 2; 100]%Q -> (0 < s)%Q /\ (1 < inject_Z 1024 * (s * grid_step (linspace (-8) 8 1024)))%Q.
Proof. exact (conj attrs_cmor (conj cmor_usable (conj rdata_wf cmor_scales))). Qed.

Theorem C91_grid : forall name a, continuous_attrs name = Ok a -> let x := linspace (a_lower a) (a_upper a) 1024 in
  (grid_step x == (a_upper a - a_lower a) / 1023)%Q /\ (grid_width x == a_upper a - a_lower a)%Q.
Proof. exact grid_1024. Qed.
Print Assumptions C91_grid.
Example C91_grid_ex : (grid_step (linspace (-8) 8 1024) == 16 # 1023)%Q.
Proof. exact (proj1 (grid_1024 _ _ attrs_cmor)). Qed.

(** Both methods agree: the roots of unity of the complex numbers are those the
    Fourier transforms need. *)
Theorem C91_methods : forall name a dcplx (data : nd CR) scales period axis, let d := zlen (nshape data) in
  continuous_attrs name = Ok a -> usable a -> nd_wf data -> (1 <= d)%Z -> (- d <= axis < d)%Z -> (1 <= nthz (Z.to_nat (axis mod d)) (nshape data))%Z ->
  cwt_named dcplx data scales name period MFft axis = cwt_named dcplx data scales name period MConv axis.
Proof. exact named_methods. Qed.
Print Assumptions C91_methods.
Example C91_methods_ex : continuous_attrs "cmor1.5-1.0" = Ok cmor_a /\ usable cmor_a /\ nd_wf rdata.
Proof. exact (conj attrs_cmor (conj cmor_usable rdata_wf)). Qed.

Theorem C91_roots : forall N L, has_roots c_w c_v c_ninv N L.
Proof. exact roots_CR. Qed.
Print Assumptions C91_roots.
Example C91_roots_ex : unity 8 (c_w 8) (c_v 8) (c_ninv 8).
Proof. exact (roots_CR 3 4 3%Z ltac:(lia) ltac:(lia)). Qed.

(** Of real data and a real wavelet nothing is dropped by taking the real part. *)
Theorem C91_real : forall name a f psi s xs t, continuous_attrs name = Ok a -> a_complex a = false -> documented_psi a f ->
  zlen psi = 1024%Z -> (forall i, (0 <= i < 1024)%Z -> gz psi i = sampled f a 1024 i :> CR) -> Forall (fun z : CR => snd z = 0) xs ->
  let x := linspace (a_lower a) (a_upper a) 1024 in
  let z := cwt_at (integral psi (c_inj (grid_step x))) 1024 (grid_step x) (grid_width x) s (c_root s) xs t in c_re z = z.
Proof. exact named_real. Qed.
Print Assumptions C91_real.
Example C91_real_ex : continuous_attrs "mexh" = Ok mexh_a /\ a_complex mexh_a = false /\ Forall (fun z : CR => snd z = 0) (ndata rdata).
Proof. exact (conj attrs_mexh (conj eq_refl rdata_real)). Qed.

Theorem C91_short : forall name a dcplx (data : nd CR) scales period meth axis, let d := zlen (nshape data) in let k := Z.to_nat (axis mod d) in
  continuous_attrs name = Ok a -> usable a -> nd_wf data -> (1 <= d)%Z -> (- d <= axis < d)%Z -> (1 <= nthz k (nshape data))%Z -> meth <> MOther ->
  (exists s, In s scales /\ (inject_Z 1024 * (s * ((a_upper a - a_lower a) / 1023)) <= 1)%Q) ->
  cwt_named dcplx data scales name period meth axis = Err ValueError.
Proof. exact named_short. Qed.
Print Assumptions C91_short.
Example C91_short_ex : (inject_Z 1024 * ((1 # 17) * ((8 - - (8)) / 1023)) <= 1)%Q.
Proof. exact cmor_short. Qed.

Theorem C91_errors : forall name dcplx (data : nd CR) scales period meth axis,
  (forall e, continuous_attrs name = Err e -> cwt_named dcplx data scales name period meth axis = Err e) /\
  (forall a, continuous_attrs name = Ok a -> (exists s, In s scales /\ (s <= 0)%Q) -> cwt_named dcplx data scales name period meth axis = Err ValueError) /\
  (forall a, continuous_attrs name = Ok a -> usable a -> (forall s, In s scales -> (0 < s)%Q) -> cwt_named dcplx data scales name period MOther axis = Err ValueError).
Proof. exact named_errors. Qed.
Print Assumptions C91_errors.
Example C91_errors_ex : continuous_attrs "gaus9" = Err ValueError /\ continuous_attrs "mexh" = Ok mexh_a.
Proof. exact (conj eq_refl attrs_mexh). Qed.

Theorem C91_zero_frequency : forall name a level dcplx (data : nd CR) scales period meth axis, continuous_attrs name = Ok a -> ~ usable a ->
  ((0 <= level)%Z -> (2 ^ level < max_alloc)%Z -> c_central_frequency a level = Err TypeError) /\
  ((forall s, In s scales -> (0 < s)%Q) -> cwt_named dcplx data scales name period meth axis = Err TypeError).
Proof. exact named_zero. Qed.
Print Assumptions C91_zero_frequency.
Example C91_zero_frequency_ex : continuous_attrs "cmor1.0-0" = Ok cmor_0 /\ ~ usable cmor_0.
Proof. exact (conj attrs_cmor_0 cmor_0_unusable). Qed.
