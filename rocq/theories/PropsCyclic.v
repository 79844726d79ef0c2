(** Property theorems for periodization mode: the transforms as bijections
    (C103), inner products (C104) and shifts in n dimensions (C105). *)
From Coq Require Import QArith Qcanon String.
From Verif Require Import Base BaseLemmas CConv Spec Instances Lengths Dwt DwtProofs Linear Facts1 Multilevel MultilevelProofs Nd NdSpec Axis AxisProofs Multidim MultidimProofs MultidimFacts MultilevelNd MultilevelNdProofs
  MranSum ExBanks ExNd CyclicMain CyclicNd ParsevalNd RollNd ExCyclic.

(** C103 *)
Local Open Scope Z_scope.

Theorem C103_dwt_idwt : forall (C : CRing) fuel (cA cD : list C) w, pr_wavelet w -> zlen cA = zlen cD -> 1 <= zlen cA ->
  resources fuel (2 * zlen cA) (dec_len w) ->
  exists x, idwt fuel (Some cA) (Some cD) w PERIODIZATION = Ok x /\ zlen x = 2 * zlen cA /\
    dwt fuel x w PERIODIZATION = Ok (cA, cD).
Proof. exact dwt_idwt. Qed.
Print Assumptions C103_dwt_idwt.
Example C103_dwt_idwt_ex : pr_wavelet zbank /\ idwt (C := Zring) 99 (Some [1; 2; 3]) (Some [4; 5; 7]) zbank PERIODIZATION = Ok [-11; 14; -11; 17; -14; 15] /\
  dwt (C := Zring) 99 [-11; 14; -11; 17; -14; 15] zbank PERIODIZATION = Ok ([1; 2; 3], [4; 5; 7]).
Proof. split; [exact zbank_pr|]. split; vm_compute; reflexivity. Qed.
(** The restriction to periodization is needed. *)
Example C103_dwt_idwt_symmetric_ex : exists cA cD x, pr_wavelet zbank /\ zlen cA = zlen cD /\
  idwt (C := Zring) 99 (Some cA) (Some cD) zbank SYMMETRIC = Ok x /\ exists a d, dwt 99 x zbank SYMMETRIC = Ok (a, d) /\ zlen a = zlen cA /\ (a, d) <> (cA, cD).
Proof. exact symmetric_not_inverse. Qed.
(** Different data of even length have different coefficients. *)
Theorem C103_injective : forall (C : CRing) fuel (x y : list C) w cA cD, pr_wavelet w -> 2 <= zlen x -> zlen x mod 2 = 0 -> zlen y mod 2 = 0 -> 2 <= zlen y ->
  resources fuel (zlen x) (dec_len w) -> resources fuel (zlen y) (dec_len w) ->
  dwt fuel x w PERIODIZATION = Ok (cA, cD) -> dwt fuel y w PERIODIZATION = Ok (cA, cD) -> x = y.
Proof. exact dwt_injective. Qed.
Print Assumptions C103_injective.
(** Not for odd lengths: the last sample is repeated. *)
Example C103_injective_ex : pr_wavelet zbank2 /\ dwt (C := Zring) 99 [1; 2; 5; 5] zbank2 PERIODIZATION = dwt (C := Zring) 99 [1; 2; 5] zbank2 PERIODIZATION /\
  dwt (C := Zring) 99 [1; 2; 5; 4] zbank2 PERIODIZATION <> dwt (C := Zring) 99 [1; 2; 5; 5] zbank2 PERIODIZATION.
Proof. split; [exact zbank2_pr|]. split; vm_compute; [reflexivity|congruence]. Qed.
Theorem C103_wavedec_waverec : forall (C : CRing) fuel (a : list C) ds w, pr_wavelet w -> 1 <= zlen a -> doubling C (zlen a) ds ->
  resources fuel (2 ^ zlen ds * zlen a) (dec_len w) ->
  exists x, waverec fuel (map Some (a :: ds)) w PERIODIZATION = Ok (Some x) /\
    wavedec fuel x w PERIODIZATION (Some (zlen ds)) = Ok (a :: ds).
Proof. exact wavedec_waverec. Qed.
Print Assumptions C103_wavedec_waverec.
Example C103_wavedec_waverec_ex : doubling Zring (zlen [1]) [[2]; [3; 4]; [5; 6; 7; 9]] /\
  match waverec (C := Zring) 99 (map Some [[1]; [2]; [3; 4]; [5; 6; 7; 9]]) zbank PERIODIZATION with
  | Ok (Some x) => zlen x = 8 /\ wavedec 99 x zbank PERIODIZATION (Some 3) = Ok [[1]; [2]; [3; 4]; [5; 6; 7; 9]]
  | _ => False
  end.
Proof. split; [repeat split|]. vm_compute. split; reflexivity. Qed.
Theorem C103_dwtn_idwtn : forall (C : CRing) fuel junk (D : dict (sarr C)) (Y : string -> nd C) w m axes plan B sh,
  plan <> [] -> 1 <= zlen sh <= 64 -> resolves C (zlen sh) w m (default_axes (zlen sh) axes) plan ->
  (forall s, In s plan -> st_m C s = PERIODIZATION /\ pr_wavelet (st_w C s) /\ 1 <= nthz (st_ax C s) sh) ->
  shape_ok sh -> plan_good C fuel B (doubled (map (st_ax C) plan) sh) plan ->
  (forall k v, In (k, v) D -> In k (ad_keys (List.length plan)) /\ sarr_ok C v /\ sshape v = sh /\ val C v = Y k) ->
  (forall k, In k (ad_keys (List.length plan)) -> exists v, dget D k = Some v) ->
  exists r, idwtn fuel junk (map (fun '(k, v) => (k, Some v)) D) w m axes = Ok (Some r) /\
    sshape r = doubled (map (st_ax C) plan) sh /\
    dwtn fuel junk r w m axes = Ok (map (fun k => (k, of_nd (Y k))) (ad_keys (List.length plan))).
Proof. exact dwtn_idwtn. Qed.
Print Assumptions C103_dwtn_idwtn.
Example C103_dwtn_idwtn_ex : resolves Zring 2 pw pm [0; 1] pplan /\ doubled [0%nat; 1%nat] [1; 2] = [2; 4] /\ plan_good Zring 99 [16; 16] [2; 4] pplan /\
  (forall k v, In (k, v) pD -> In k (ad_keys (List.length pplan)) /\ sarr_ok Zring v /\ sshape v = [1; 2] /\ val Zring v = pY k) /\
  (forall k, In k (ad_keys (List.length pplan)) -> exists v, dget pD k = Some v) /\
  match idwtn 99 jk (map (fun '(k, v) => (k, Some v)) pD) pw pm (Some [0; 1]) with
  | Ok (Some r) => sshape r = [2; 4] /\ dwtn 99 jk r pw pm (Some [0; 1]) = Ok [("aa", bnd 1 2); ("ad", bnd 3 4); ("da", bnd 5 6); ("dd", bnd 7 8)]%string
  | _ => False
  end.
Proof.
  split; [apply pplan_resolves|]. split; [reflexivity|]. split; [apply pplan_good; auto|]. split; [exact pD_ok|]. split; [exact pD_full|].
  vm_compute. split; reflexivity.
Qed.
Theorem C103_wavedecn_waverecn : forall (C : CRing) fuel junk w m axes plan sh B N (V : nat -> string -> nd C) ds (a : sarr C), plan <> [] -> 1 <= zlen sh <= 64 ->
  resolves C (zlen sh) w m axes plan -> NoDup axes -> plan_good C fuel B sh plan -> periodized C plan sh N ->
  ds_hold C N (fun j => lev_shape C plan (N - j) sh) (tl (ad_keys (List.length plan))) ds V ->
  sarr_ok C a -> sshape a = lev_shape C plan N sh ->
  exists r a' ds', waverecn fuel junk (Some a) (map (map (fun '(k, v) => (k, Some v))) ds) w m (Some axes) = Ok (Some r) /\ sshape r = sh /\
    wavedecn fuel junk r w m (Some (Z.of_nat N)) (Some axes) = Ok (a', ds') /\ val C a' = val C a /\
    ds_hold C N (fun j => lev_shape C plan (N - j) sh) (tl (ad_keys (List.length plan))) ds' V.
Proof. exact wavedecn_waverecn. Qed.
Print Assumptions C103_wavedecn_waverecn.
Example C103_wavedecn_waverecn_ex : periodized Zring pplan [4; 4] 2 /\ plan_good Zring 99 [16; 16] [4; 4] pplan /\
  ds_hold Zring 2 (fun j => lev_shape Zring pplan (2 - j) [4; 4]) (tl (ad_keys (List.length pplan))) pds pV /\
  match waverecn 99 jk (Some (b1 1)) (map (map (fun '(k, v) => (k, Some v))) pds) pw pm (Some [0; 1]) with
  | Ok (Some r) => sshape r = [4; 4] /\ wavedecn 99 jk r pw pm (Some 2) (Some [0; 1]) = Ok (b1 1, pds)
  | _ => False
  end.
Proof.
  split; [apply pplan_periodized; exists 1; reflexivity|]. split; [apply pplan_good; auto|]. split; [exact pds_hold|]. vm_compute. split; reflexivity.
Qed.
Theorem C103_idwt_energy : forall (C : CRing) fuel (cA cD : list C) w, orthonormal w -> zlen cA = zlen cD -> 1 <= zlen cA ->
  resources fuel (2 * zlen cA) (dec_len w) ->
  exists x, idwt fuel (Some cA) (Some cD) w PERIODIZATION = Ok x /\
    sumZ 0 (zlen x) (fun i => gz x i [*] gz x i) =
    sumZ 0 (zlen cA) (fun i => gz cA i [*] gz cA i) [+] sumZ 0 (zlen cD) (fun i => gz cD i [*] gz cD i).
Proof. exact idwt_energy. Qed.
Print Assumptions C103_idwt_energy.
Example C103_idwt_energy_ex : orthonormal qbank /\
  exists x, idwt 99 (Some [qc 172 65; qc 187 65]) (Some [qc (-41) 65; qc (-246) 65]) qbank PERIODIZATION = Ok x /\ map this x = [1 # 1; 2 # 1; 0 # 1; 5 # 1]%Q.
Proof. split; [exact (conj qbank_pr (conj eq_refl eq_refl))|]. eexists. split; [vm_compute; reflexivity|]. vm_compute. reflexivity. Qed.

(** C104 *)
Theorem C104_wavedec : forall (C : CRing) fuel (x y : list C) w w' N, dual C w w' -> 1 <= zlen x -> (2 ^ Z.of_nat N | zlen x) -> zlen y = zlen x ->
  resources fuel (zlen x) (dec_len w) ->
  exists X Y, wavedec fuel x w PERIODIZATION (Some (Z.of_nat N)) = Ok X /\ wavedec fuel y w' PERIODIZATION (Some (Z.of_nat N)) = Ok Y /\
    List.length X = S N /\ List.length Y = S N /\ lsum C (map (fun '(u, v) => linner C u v) (combine X Y)) = linner C x y.
Proof. exact wavedec_inner. Qed.
Print Assumptions C104_wavedec.
Example C104_wavedec_ex : dual Zring zbank (dualw zbank) /\ linner Zring [1; 2; 3; 5] [7; 0; 4; 1] = 24 /\
  wavedec (C := Zring) 99 [1; 2; 3; 5] zbank PERIODIZATION (Some 2) = Ok [[128]; [91]; [-12; -14]] /\
  wavedec (C := Zring) 99 [7; 0; 4; 1] (dualw zbank) PERIODIZATION (Some 2) = Ok [[-7]; [6]; [-16; -13]] /\
  128 * -7 + 91 * 6 + (-12 * -16 + -14 * -13) = 24.
Proof. split; [exact zbank_dual|]. repeat split; vm_compute; reflexivity. Qed.
Theorem C104_orthonormal : forall (C : CRing) (w : wavelet C), orthonormal w -> dual C w w.
Proof. exact orthonormal_dual. Qed.
Print Assumptions C104_orthonormal.
Example C104_orthonormal_ex : orthonormal qbank.
Proof. exact (conj qbank_pr (conj eq_refl eq_refl)). Qed.
Theorem C104_dwtn : forall (C : CRing) fuel junk (x y : sarr C) w w' m m' axes plan plan', sarr_ok C x -> sarr_ok C y -> sshape y = sshape x -> 1 <= ndim x <= 64 -> plan <> [] ->
  resolves C (ndim x) w m (default_axes (ndim x) axes) plan -> plan_ok C fuel plan (sshape x) ->
  resolves C (ndim x) w' m' (default_axes (ndim x) axes) plan' -> plan_ok C fuel plan' (sshape x) -> dual_plan C plan plan' (sshape x) ->
  exists X Y, dwtn fuel junk x w m axes = Ok X /\ dwtn fuel junk y w' m' axes = Ok Y /\ map fst X = ad_keys (List.length plan) /\ map fst Y = map fst X /\
    dinner C X Y = ndinner C (val C x) (val C y).
Proof. exact dwtn_inner. Qed.
Print Assumptions C104_dwtn.
Example C104_dwtn_ex : dual_plan Zring pplan dplan (sshape x44) /\ ndinner Zring (val Zring x44) (val Zring y44) = 165 /\
  match dwtn 99 jk x44 pw pm (Some [0; 1]), dwtn 99 jk y44 dw pm (Some [0; 1]) with
  | Ok X, Ok Y => map (fun '((_, u), (_, v)) => ndinner Zring (val Zring u) (val Zring v)) (combine X Y) = [3668; -2438; -3283; 2218]
  | _, _ => False
  end.
Proof. split; [exact pdual_plan|]. split; vm_compute; reflexivity. Qed.
Theorem C104_wavedecn : forall (C : CRing) fuel junk (x y : sarr C) w w' m m' axes plan plan' B N, sarr_ok C x -> sarr_ok C y -> sshape y = sshape x -> 1 <= ndim x <= 64 -> plan <> [] ->
  resolves C (ndim x) w m (default_axes (ndim x) axes) plan -> plan_good C fuel B (sshape x) plan ->
  resolves C (ndim x) w' m' (default_axes (ndim x) axes) plan' -> plan_good C fuel B (sshape x) plan' -> dual_levels C plan plan' (sshape x) N ->
  exists a X b Y, wavedecn fuel junk x w m (Some (Z.of_nat N)) axes = Ok (a, X) /\ wavedecn fuel junk y w' m' (Some (Z.of_nat N)) axes = Ok (b, Y) /\
    List.length X = N /\ List.length Y = N /\ Forall (fun d => map fst d = tl (ad_keys (List.length plan))) (X ++ Y) /\
    ndinner C (val C a) (val C b) [+] lsum C (map (fun '(d, e) => dinner C d e) (combine X Y)) = ndinner C (val C x) (val C y).
Proof. exact wavedecn_inner. Qed.
Print Assumptions C104_wavedecn.
Example C104_wavedecn_ex : dual_levels Zring pplan dplan (sshape x44) 2 /\ plan_good Zring 99 [16; 16] [4; 4] dplan /\
  match wavedecn 99 jk x44 pw pm (Some 2) (Some [0; 1]), wavedecn 99 jk y44 dw pm (Some 2) (Some [0; 1]) with
  | Ok (a, X), Ok (b, Y) => ndinner Zring (val Zring a) (val Zring b) = 7956 /\ map (fun '(d, e) => dinner Zring d e) (combine X Y) = [-4288; -3503]
  | _, _ => False
  end.
Proof. split; [exact pdual_levels|]. split; [apply pplan_good; auto|]. vm_compute. split; reflexivity. Qed.

(** C105 *)
Theorem C105_dwtn : forall (C : CRing) fuel junk (x y : sarr C) w m axes plan bx s, sarr_ok C x -> sarr_ok C y -> val C y = ndroll C bx (2 * s) (val C x) -> 1 <= ndim x <= 64 -> plan <> [] ->
  resolves C (ndim x) w m (default_axes (ndim x) axes) plan -> plan_ok C fuel plan (sshape x) -> rolled_axis C plan bx (sshape x) ->
  exists X, dwtn fuel junk x w m axes = Ok X /\ dwtn fuel junk y w m axes = Ok (map (fun '(k, v) => (k, of_nd (ndroll C bx s (val C v)))) X).
Proof. exact dwtn_roll. Qed.
Print Assumptions C105_dwtn.
Example C105_dwtn_ex : sarr_ok Zring (roll44 2) /\ ndroll Zring 1 1 (mkNd (C := Zring) [2; 3] [1; 2; 3; 4; 5; 6]) = mkNd (C := Zring) [2; 3] [3; 1; 2; 6; 4; 5] /\
  match dwtn 99 jk x44 pw pm (Some [0; 1]), dwtn 99 jk (roll44 2) pw pm (Some [0; 1]) with
  | Ok [(_, a); _; _; _], Ok [(_, b); _; _; _] => ndata (val Zring a) = [-80; -104; -77; -101] /\ ndata (val Zring b) = [-104; -80; -101; -77]
  | _, _ => False
  end.
Proof. split; [apply roll44_ok|]. split; vm_compute; [reflexivity|]. split; reflexivity. Qed.
Theorem C105_dwtn_other : forall (C : CRing) fuel junk (x y : sarr C) w m axes plan bx s, sarr_ok C x -> sarr_ok C y -> val C y = ndroll C bx s (val C x) -> 1 <= ndim x <= 64 -> plan <> [] ->
  resolves C (ndim x) w m (default_axes (ndim x) axes) plan -> plan_ok C fuel plan (sshape x) -> ~ In bx (map (st_ax C) plan) ->
  (bx < List.length (sshape x))%nat -> 1 <= nthz bx (sshape x) ->
  exists X, dwtn fuel junk x w m axes = Ok X /\ dwtn fuel junk y w m axes = Ok (map (fun '(k, v) => (k, of_nd (ndroll C bx s (val C v)))) X).
Proof. exact dwtn_roll_other. Qed.
Print Assumptions C105_dwtn_other.
Example C105_dwtn_other_ex : ~ In 1%nat (map (st_ax Zring) [(0%nat, (zbank, SMOOTH))]) /\
  match dwtn 99 jk x44 (One zbank) (One SMOOTH) (Some [0]), dwtn 99 jk (roll44 1) (One zbank) (One SMOOTH) (Some [0]) with
  | Ok [(_, a); _], Ok [(_, b); _] => val Zring b = ndroll Zring 1 1 (val Zring a) /\ nshape (val Zring a) = [3; 4] /\ val Zring a <> val Zring b
  | _, _ => False
  end.
Proof. split; [cbn; intuition discriminate|]. vm_compute. split; [reflexivity|]. split; [reflexivity|discriminate]. Qed.
Theorem C105_wavedecn : forall (C : CRing) fuel junk (x y : sarr C) w m axes plan B N bx s, sarr_ok C x -> sarr_ok C y -> val C y = ndroll C bx (2 ^ Z.of_nat N * s) (val C x) ->
  1 <= ndim x <= 64 -> plan <> [] -> resolves C (ndim x) w m (default_axes (ndim x) axes) plan -> plan_good C fuel B (sshape x) plan ->
  (forall t, In t plan -> levels_ok (st_m C t) (dec_len (st_w C t)) N (nthz (st_ax C t) (sshape x))) -> rolled_levels C plan bx (sshape x) N ->
  exists a X b Y, wavedecn fuel junk x w m (Some (Z.of_nat N)) axes = Ok (a, X) /\ wavedecn fuel junk y w m (Some (Z.of_nat N)) axes = Ok (b, Y) /\
    val C b = ndroll C bx s (val C a) /\ List.length Y = N /\
    forall j d, nth_error X j = Some d -> nth_error Y j = Some (map (fun '(k, v) => (k, of_nd (ndroll C bx (2 ^ Z.of_nat j * s) (val C v)))) d).
Proof. exact wavedecn_roll. Qed.
Print Assumptions C105_wavedecn.
Example C105_wavedecn_ex : rolled_levels Zring pplan 1 (sshape x44) 1 /\
  match wavedecn 99 jk x44 pw pm (Some 1) (Some [0; 1]), wavedecn 99 jk (roll44 2) pw pm (Some 1) (Some [0; 1]) with
  | Ok (a, [d]), Ok (b, [e]) => val Zring b = ndroll Zring 1 1 (val Zring a) /\ e = map (fun '(k, v) => (k, of_nd (ndroll Zring 1 1 (val Zring v)))) d /\ d <> e
  | _, _ => False
  end.
Proof.
  split; [split; [vm_compute; tauto|]; split; [intros t [<-|[<-|[]]] E; reflexivity|exists 2; reflexivity]|].
  vm_compute. split; [reflexivity|]. split; [reflexivity|discriminate].
Qed.
