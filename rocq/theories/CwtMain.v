(** The continuous wavelet transform: the whole function. *)
From Coq Require Import QArith Qround Lqa.
From Verif Require Import Base BaseLemmas Dwt Nd NdSpec Swt Multidim SwtNd Linear Cwt CwtSpec CwtProofs CwtNd.
Open Scope Z_scope.

Section CM.
Context {C : CRing}.
Add Ring Cring_ring_cwtm : (rth C).
Section Psi.
Variable inj : Q -> C.
Variable conj : C -> C.

Definition wavelet_fn (wc : bool) (psi : list C) (x : list Q) (q : Z) : C :=
  let z := integral psi (inj (grid_step x)) q in if wc then conj z else z.
Definition int_psi (wc : bool) (psi : list C) (x : list Q) : list C :=
  let p0 := integrate psi (inj (grid_step x)) in if wc then map conj p0 else p0.
Lemma zlen_int_psi wc psi x : zlen (int_psi wc psi x) = zlen psi.
Proof. unfold int_psi. destruct wc; rewrite ?zlen_map; apply zlen_integrate. Qed.
Lemma gz_int_psi wc psi x q : 0 <= q < zlen psi -> gz (int_psi wc psi x) q = wavelet_fn wc psi x q.
Proof.
  intros Hq. unfold int_psi, wavelet_fn. cbv zeta. rewrite <- gz_integrate by auto. destruct wc; auto. unfold gz.
  replace (0 <=? q) with true by lia. rewrite nth_map_in with (d := r0); auto. pose proof (zlen_integrate psi (inj (grid_step x))). unfold zlen in *. lia.
Qed.
End Psi.
Lemma stretched_ext (P P' : Z -> C) n step width s i : (0 < s)%Q -> (0 < step)%Q -> (forall q, 0 <= q < n -> P q = P' q) -> stretched P n step width s i = stretched P' n step width s i.
Proof.
  intros Hs Hst H. unfold stretched. destruct ((0 <=? i) && (i <? stretched_len n step width s)) eqn:E; auto. apply H.
  assert (Hu : (0 < s * step)%Q) by (setoid_replace 0%Q with (0 * step)%Q by ring; apply Qmult_lt_compat_r; auto). split.
  - change 0 with (Qfloor 0). apply Qfloor_resp_le. apply div_nonneg; auto. lia.
  - apply div_lt; auto. unfold stretched_len in E. lia.
Qed.
Lemma cwt_at_ext (P P' : Z -> C) n step width s r xs t : (0 < s)%Q -> (0 < step)%Q -> (forall q, 0 <= q < n -> P q = P' q) -> cwt_at P n step width s r xs t = cwt_at P' n step width s r xs t.
Proof. intros Hs Hst H. unfold cwt_at. cbv zeta. f_equal. apply sumZ_ext. intros i _. rewrite !(stretched_ext P P') by auto. reflexivity. Qed.

Section Main.
Variables w v ninv : Z -> C.
Variable inj : Q -> C.
Variable conj : C -> C.
Notation int_psi := (int_psi inj conj).
Notation wavelet_fn := (wavelet_fn inj conj).
Definition meth_good (meth : cwt_method) (psi : list C) (x : list Q) (N : Z) (s : Q) : Prop :=
  match meth with MConv => True | MFft => has_roots w v ninv N (stretched_len (zlen psi) (grid_step x) (grid_width x) s) | MOther => False end.
Lemma meth_good_ok meth wc psi x N s : grid_ok x -> 1 <= zlen psi -> 1 <= N -> (0 < s)%Q -> meth_good meth psi x N s -> meth_ok w v ninv meth (int_psi wc psi x) x N s.
Proof.
  intros (_ & X1 & X2) Hp HN Hs H. destruct meth; auto. cbn [meth_good meth_ok] in *. cbv zeta. unfold L_of. rewrite zlen_int_psi. unfold next_fast_len.
  pose proof (stretched_len_pos (zlen psi) (grid_step x) (grid_width x) s Hs X1 X2 Hp). set (L := stretched_len (zlen psi) (grid_step x) (grid_width x) s) in *.
  apply H; [apply Z.log2_up_nonneg|]. destruct (Z.eq_dec (N + L - 1) 1) as [E|E]; [rewrite E; cbn; lia|].
  pose proof (Z.log2_up_spec (N + L - 1) ltac:(lia)) as S. split; [lia|].
  assert (Hp0 : 0 < Z.log2_up (N + L - 1)) by (apply Z.log2_up_pos; lia).
  replace (Z.log2_up (N + L - 1)) with (Z.succ (Z.pred (Z.log2_up (N + L - 1)))) by lia. rewrite Z.pow_succ_r by lia. lia.
Qed.

Variable root : Q -> C.
Variable re : C -> C.
(** All the scales, whether long enough or not. *)
Definition short (psi : list C) (x : list Q) (s : Q) : bool := stretched_len (zlen psi) (grid_step x) (grid_width x) s <? 2.
Lemma all_scales_total meth cplx wc psi x N lines scales : grid_ok x -> 1 <= zlen psi -> 1 <= N -> Forall (fun l => zlen l = N) lines ->
  (forall s, In s scales -> (0 < s)%Q /\ meth_good meth psi x N s) ->
  all_scales root re w v ninv meth cplx (int_psi wc psi x) x N lines scales (-1, []) =
  if existsb (short psi x) scales then Err ValueError else Ok (map (fun s => map (row root re cplx (int_psi wc psi x) x s) lines) scales).
Proof.
  intros Hx Hp HN Hl H. assert (Hp' : 1 <= zlen (int_psi wc psi x)) by (rewrite zlen_int_psi; auto).
  assert (HL : forall s, L_of (int_psi wc psi x) x s = stretched_len (zlen psi) (grid_step x) (grid_width x) s) by (intros s; unfold L_of; rewrite zlen_int_psi; auto).
  destruct (existsb (short psi x) scales) eqn:E.
  - apply all_scales_small; auto.
    + intros s Hs. destruct (H s Hs). split; auto. apply meth_good_ok; auto.
    + apply existsb_exists in E as (s & Hs & E). exists s. split; auto. rewrite HL. unfold short in E. lia.
    + left. reflexivity.
  - apply all_scales_spec; auto.
    + intros s Hs. destruct (H s Hs). repeat split; auto; [|apply meth_good_ok; auto]. rewrite HL.
      assert (Es : short psi x s = false). { destruct (short psi x s) eqn:F; auto. assert (existsb (short psi x) scales = true) by (apply existsb_exists; eauto). congruence. }
      unfold short in Es. lia.
    + left. reflexivity.
Qed.

(** ** The result *)
Definition cwt_k (d axis : Z) : nat := Z.to_nat (axis mod d).
Notation CWT := (cwt inj root conj re w v ninv).

Lemma positive_ok scales : (forall s, In s scales -> (0 < s)%Q) -> existsb (fun s => Qle_bool s 0) scales = false.
Proof.
  intros H. destruct (existsb (fun s => Qle_bool s 0) scales) eqn:E; auto. apply existsb_exists in E as (s & Hs & E). apply Qle_bool_iff in E. specialize (H s Hs). lra.
Qed.

Lemma axis_norm d axis : 1 <= d -> - d <= axis < d -> (if axis <? 0 then axis + d else axis) = axis mod d /\ 0 <= axis mod d < d.
Proof.
  intros Hd Ha. split; [|apply Z.mod_pos_bound; lia]. destruct (Z.ltb_spec axis 0).
  - apply Z.mod_unique_pos with (q := -1); lia.
  - rewrite Z.mod_small; lia.
Qed.

Definition cwt_out (cplx wc : bool) (psi : list C) (x : list Q) (data : nd C) (k : nat) (scales : list Q) : nd C :=
  mkNd (zlen scales :: nshape data) (List.concat (map (fun s => ndata (along k (nthz k (nshape data)) (row root re cplx (int_psi wc psi x) x s) data)) scales)).

Lemma row_len cplx p x s l : zlen (row root re cplx p x s l) = zlen l.
Proof. unfold row. rewrite zlen_tab; auto. apply zlen_nonneg. Qed.
Lemma zlen_0_nil {A} (l : list A) : zlen l = 0 -> l = [].
Proof. destruct l; auto. rewrite zlen_cons. pose proof (zlen_nonneg l). lia. Qed.

Lemma cwt_eq dcplx data scales wc psi x fc period meth axis : let d := zlen (nshape data) in let k := cwt_k d axis in let N := nthz k (nshape data) in
  nd_wf data -> 1 <= d -> - d <= axis < d -> 1 <= N -> grid_ok x -> 1 <= zlen psi -> (forall s, In s scales -> (0 < s)%Q /\ meth_good meth psi x N s) ->
  meth <> MOther ->
  CWT dcplx data scales (WContinuous wc psi x) fc period meth axis =
  if existsb (short psi x) scales then Err ValueError else Ok (cwt_out (wc || dcplx) wc psi x data k scales, map (fun s => (fc / s / period)%Q) scales).
Proof.
  intros d k N Hd H1 Ha HN Hx Hp H Hm. pose proof Hd as (S1 & S2). destruct (axis_norm d axis H1 Ha) as (En & Bn).
  unfold cwt. rewrite positive_ok by (intros s Hs; apply H; auto). destruct Hx as (X0 & X). replace (zlen x <? 2) with false by lia. assert (Hx : grid_ok x) by (split; auto).
  cbv zeta. fold (int_psi wc psi x). fold d. 
  assert (Hk : (k < List.length (nshape data))%nat) by (unfold k, cwt_k; unfold d, zlen in *; lia).
  set (last := (List.length (nshape data) - 1)%nat).
  assert (Hlast : (last < List.length (nshape data))%nat) by (unfold last; lia).
  assert (Body : (if 1 <? d then
            if (axis <? - d) || (d <=? axis) then Err AxisError else
            let k := Z.to_nat (if axis <? 0 then axis + d else axis) in
            let y := swapaxes last k data in
            let N := nthz last (nshape y) in
            if N =? 0 then Err ValueError else
            r <- all_scales root re w v ninv meth (wc || dcplx) (int_psi wc psi x) x N (rows N y) scales (-1, []) ;;
            Ok (mkNd (zlen scales :: nshape data) (List.concat (map (fun c => ndata (swapaxes k last (mkNd (nshape y) (List.concat c)))) r)), map (fun s => (fc / s / period)%Q) scales)
          else if d =? 0 then
            match scales with [] => Ok (mkNd [0] [], map (fun s => (fc / s / period)%Q) scales) | _ => Err IndexError end
          else
            r <- all_scales root re w v ninv meth (wc || dcplx) (int_psi wc psi x) x (nthz 0 (nshape data)) [ndata data] scales (-1, []) ;;
            Ok (mkNd (zlen scales :: nshape data) (List.concat (map (@List.concat C) r)), map (fun s => (fc / s / period)%Q) scales)) =
     if existsb (short psi x) scales then Err ValueError else Ok (cwt_out (wc || dcplx) wc psi x data k scales, map (fun s => (fc / s / period)%Q) scales)).
  2: { destruct meth; [exact Body|exact Body|congruence]. }
  destruct (Z.ltb_spec 1 d) as [Hd1|Hd1].
  - replace ((axis <? - d) || (d <=? axis)) with false by lia. cbv zeta. rewrite En. fold (cwt_k d axis). fold k.
    set (y := swapaxes last k data). assert (Sy : nshape y = swapl last k (nshape data)) by reflexivity.
    assert (Ny : nthz last (nshape y) = N). { rewrite Sy, nthz_swapl by auto. destruct (Nat.eq_dec last last) as [_|Hn]; [reflexivity|destruct (Hn eq_refl)]. }
    rewrite Ny. replace (N =? 0) with false by lia.
    rewrite all_scales_total; auto; [|apply rows_len; lia]. destruct (existsb (short psi x) scales); [reflexivity|]. cbn [bind]. unfold cwt_out. do 4 f_equal.
    rewrite map_map. apply map_ext. intros s. f_equal.
    assert (Ely : (List.length (nshape y) - 1)%nat = last) by (rewrite Sy, swapl_length; reflexivity).
    assert (Wy : nd_wf y) by (apply swapaxes_wf; auto).
    pose proof (rows_along (row root re (wc || dcplx) (int_psi wc psi x) x s) y) as R. cbv zeta in R. rewrite Ely, Ny in R.
    rewrite R; auto.
    + apply swap_along; auto.
    + rewrite Sy. intros E0. assert (List.length (swapl last k (nshape data)) = 0%nat) by (rewrite E0; auto). rewrite swapl_length in *. lia.
    + intros l Hl. rewrite row_len. auto.
  - assert (d = 1) by lia. replace (d =? 0) with false by lia. assert (Ek : k = O) by (unfold k, cwt_k; rewrite H0; rewrite Z.mod_1_r; reflexivity).
    destruct (nshape data) as [|n [|]] eqn:Es; unfold d, zlen in H0; cbn [List.length] in H0; try lia. unfold N in *. rewrite Ek in *. cbn [nthz nth] in *.
    assert (Ln : zlen (ndata data) = n) by (rewrite S2; cbn; lia).
    rewrite all_scales_total; auto. destruct (existsb (short psi x) scales); [reflexivity|]. cbn [bind]. unfold cwt_out. rewrite Es. do 4 f_equal.
    rewrite map_map. apply map_ext. intros s. cbn [map List.concat]. rewrite app_nil_r. change (nthz 0 [n]) with n.
    apply list_ext.
    + rewrite row_len, Ln. destruct (along_wf 0 n (row root re (wc || dcplx) (int_psi wc psi x) x s) data Hd ltac:(lia)) as (_ & ->). rewrite along_shape, Es. cbn. lia.
    + intros i Hi. rewrite row_len, Ln in Hi.
      assert (V : Nd.valid (setn 0 n (nshape data)) [i]) by (rewrite Es; cbn; auto).
      pose proof (ndget_along 0 n (row root re (wc || dcplx) (int_psi wc psi x) x s) data [i] V) as G. unfold ndget in G at 1. rewrite along_shape, Es in G. cbn [setn ravel prodZ nthz nth] in G.
      replace (i * 1 + 0) with i in G by lia. rewrite G. f_equal. f_equal. apply list_ext.
      * rewrite zlen_line by auto. rewrite Es, Ln. reflexivity.
      * intros j Hj. rewrite Ln in Hj. unfold line. rewrite Es. change (nthz 0 [n]) with n. rewrite gz_tab by auto. unfold ndget. rewrite Es. cbn [setn ravel prodZ]. f_equal. lia.
Qed.

Lemma cwt_out_spec cplx wc psi x data k scales : nd_wf data -> (k < List.length (nshape data))%nat -> 0 <= nthz k (nshape data) -> grid_ok x -> 
  (forall s, In s scales -> (0 < s)%Q) ->
  let out := cwt_out cplx wc psi x data k scales in
  nshape out = zlen scales :: nshape data /\ nd_wf out /\
  forall i idx, 0 <= i < zlen scales -> Nd.valid (nshape data) idx ->
    ndget out (i :: idx) = post re cplx (cwt_at (wavelet_fn wc psi x) (zlen psi) (grid_step x) (grid_width x) (nth (Z.to_nat i) scales 0%Q) (root (nth (Z.to_nat i) scales 0%Q)) (line data k idx) (nthz k idx)).
Proof.
  intros Hd Hk HN (_ & X1 & X2) Hs out. pose proof Hd as (S1 & S2).
  assert (F : Forall (fun l => zlen l = prodZ (nshape data)) (map (fun s => ndata (along k (nthz k (nshape data)) (row root re cplx (int_psi wc psi x) x s) data)) scales)).
  { apply Forall_forall. intros l Hl. apply in_map_iff in Hl as (s & <- & _). destruct (along_wf k (nthz k (nshape data)) (row root re cplx (int_psi wc psi x) x s) data Hd HN) as (_ & ->). rewrite along_shape, setn_nthz. auto. }
  split; [reflexivity|]. split.
  - split; cbn [nshape ndata out cwt_out].
    + constructor; auto. apply zlen_nonneg.
    + rewrite (zlen_concat (prodZ (nshape data))) by auto. rewrite zlen_map. reflexivity.
  - intros i idx Hi V. unfold ndget at 1. cbn [nshape ndata out cwt_out ravel]. pose proof (ravel_bound _ _ V).
    rewrite (gz_concat (prodZ (nshape data))) by (auto; lia). rewrite nth_map_in with (d := 0%Q) by (unfold zlen in Hi; lia).
    set (s := nth (Z.to_nat i) scales 0%Q). assert (Hin : In s scales) by (apply nth_In; unfold zlen in Hi; lia).
    assert (V' : Nd.valid (setn k (nthz k (nshape data)) (nshape data)) idx) by (rewrite setn_nthz; auto).
    pose proof (ndget_along k (nthz k (nshape data)) (row root re cplx (int_psi wc psi x) x s) data idx V') as G. unfold ndget in G at 1. rewrite along_shape, setn_nthz in G. rewrite G.
    unfold row. rewrite zlen_line by auto. rewrite gz_tab by (apply valid_nth; auto). f_equal. rewrite zlen_int_psi. apply cwt_at_ext; auto. intros q Hq. apply gz_int_psi. auto.
Qed.

Theorem cwt_value dcplx data scales wc psi x fc period meth axis : let d := zlen (nshape data) in let k := cwt_k d axis in let N := nthz k (nshape data) in
  nd_wf data -> 1 <= d -> - d <= axis < d -> 1 <= N -> grid_ok x -> 1 <= zlen psi ->
  (forall s, In s scales -> (0 < s)%Q /\ (1 < inject_Z (zlen psi) * (s * grid_step x))%Q /\ meth_good meth psi x N s) -> meth <> MOther ->
  exists out, CWT dcplx data scales (WContinuous wc psi x) fc period meth axis = Ok (out, map (fun s => (fc / s / period)%Q) scales) /\
  nshape out = zlen scales :: nshape data /\ nd_wf out /\
  forall i idx, 0 <= i < zlen scales -> Nd.valid (nshape data) idx ->
    ndget out (i :: idx) = post re (wc || dcplx) (cwt_at (wavelet_fn wc psi x) (zlen psi) (grid_step x) (grid_width x) (nth (Z.to_nat i) scales 0%Q) (root (nth (Z.to_nat i) scales 0%Q)) (line data k idx) (nthz k idx)).
Proof.
  intros d k N Hd H1 Ha HN Hx Hp H Hm. exists (cwt_out (wc || dcplx) wc psi x data k scales). split.
  - rewrite cwt_eq; auto; [|intros s Hs; destruct (H s Hs) as (A & _ & B); auto].
    replace (existsb (short psi x) scales) with false; auto. symmetry. destruct (existsb (short psi x) scales) eqn:E; auto. apply existsb_exists in E as (s & Hs & E).
    destruct (H s Hs) as (A & B & _). destruct Hx as (_ & X1 & X2). apply (stretched_len_2 _ _ (grid_width x) s A X2) in B. unfold short in E. lia.
  - apply cwt_out_spec; auto; try lia.
    + destruct (axis_norm d axis H1 Ha) as (_ & B). unfold k, cwt_k. unfold d, zlen in *. lia.
    + intros s Hs. apply H. auto.
Qed.

Theorem cwt_short dcplx data scales wc psi x fc period meth axis : let d := zlen (nshape data) in let k := cwt_k d axis in let N := nthz k (nshape data) in
  nd_wf data -> 1 <= d -> - d <= axis < d -> 1 <= N -> grid_ok x -> 1 <= zlen psi ->
  (forall s, In s scales -> (0 < s)%Q /\ meth_good meth psi x N s) -> meth <> MOther ->
  (exists s, In s scales /\ (inject_Z (zlen psi) * (s * grid_step x) <= 1)%Q) ->
  CWT dcplx data scales (WContinuous wc psi x) fc period meth axis = Err ValueError.
Proof.
  intros d k N Hd H1 Ha HN Hx Hp H Hm (s & Hs & E). rewrite cwt_eq; auto. replace (existsb (short psi x) scales) with true; auto. symmetry. apply existsb_exists.
  exists s. split; auto. unfold short. destruct (H s Hs) as (A & _). destruct Hx as (_ & X1 & X2). pose proof (stretched_len_2 (zlen psi) (grid_step x) (grid_width x) s A X2) as B.
  destruct (Z.ltb_spec (stretched_len (zlen psi) (grid_step x) (grid_width x) s) 2); auto. apply B in H0. lra.
Qed.

Theorem cwt_methods dcplx data scales wc psi x fc period axis : let d := zlen (nshape data) in let k := cwt_k d axis in let N := nthz k (nshape data) in
  nd_wf data -> 1 <= d -> - d <= axis < d -> 1 <= N -> grid_ok x -> 1 <= zlen psi ->
  (forall s, In s scales -> (0 < s)%Q -> has_roots w v ninv N (stretched_len (zlen psi) (grid_step x) (grid_width x) s)) ->
  CWT dcplx data scales (WContinuous wc psi x) fc period MFft axis = CWT dcplx data scales (WContinuous wc psi x) fc period MConv axis.
Proof.
  intros d k N Hd H1 Ha HN Hx Hp H. destruct (existsb (fun s => Qle_bool s 0) scales) eqn:E.
  - unfold cwt. rewrite E. reflexivity.
  - assert (Hpos : forall s, In s scales -> (0 < s)%Q).
    { intros s Hs. destruct (Qlt_le_dec 0 s); auto. exfalso. rewrite <- not_true_iff_false in E. apply E. apply existsb_exists. exists s. split; auto. apply Qle_bool_iff. auto. }
    rewrite !cwt_eq; auto; try congruence.
    + intros s Hs. cbn. auto.
    + intros s Hs. cbn. auto.
Qed.

Theorem cwt_nonpositive dcplx data scales wav fc period meth axis : (exists s, In s scales /\ (s <= 0)%Q) -> CWT dcplx data scales wav fc period meth axis = Err ValueError.
Proof. intros (s & Hs & E). unfold cwt. replace (existsb (fun s0 => Qle_bool s0 0) scales) with true; auto. symmetry. apply existsb_exists. exists s. split; auto. apply Qle_bool_iff. auto. Qed.
Theorem cwt_method_rejected dcplx data scales wc psi x fc period axis : (forall s, In s scales -> (0 < s)%Q) -> 2 <= zlen x -> CWT dcplx data scales (WContinuous wc psi x) fc period MOther axis = Err ValueError.
Proof. intros H Hx. unfold cwt. rewrite positive_ok by auto. replace (zlen x <? 2) with false by lia. reflexivity. Qed.
Theorem cwt_axis_rejected dcplx data scales wc psi x fc period meth axis : (forall s, In s scales -> (0 < s)%Q) -> 2 <= zlen x -> meth <> MOther -> 2 <= zlen (nshape data) -> ~ (- zlen (nshape data) <= axis < zlen (nshape data)) ->
  CWT dcplx data scales (WContinuous wc psi x) fc period meth axis = Err AxisError.
Proof.
  intros H Hx Hm Hd Ha. unfold cwt. rewrite positive_ok by auto. replace (zlen x <? 2) with false by lia. cbv zeta. replace (1 <? zlen (nshape data)) with true by lia.
  replace ((axis <? - zlen (nshape data)) || (zlen (nshape data) <=? axis)) with true by lia. destruct meth; auto; congruence.
Qed.
Theorem cwt_discrete dcplx data scales fc period meth axis : (forall s, In s scales -> (0 < s)%Q) -> CWT dcplx data scales WDiscrete fc period meth axis = Err AttributeError.
Proof. intros H. unfold cwt. rewrite positive_ok by auto. reflexivity. Qed.
Theorem cwt_axis_1d dcplx data scales wav fc period meth axis axis' : zlen (nshape data) = 1 -> CWT dcplx data scales wav fc period meth axis = CWT dcplx data scales wav fc period meth axis'.
Proof. intros H. unfold cwt. rewrite H. reflexivity. Qed.

(** ** Real data *)
Lemma sumZ_closed (R : C -> Prop) a b f : R r0 -> (forall p q, R p -> R q -> R (p [+] q)) -> (forall i, a <= i < b -> R (f i)) -> R (sumZ a b f).
Proof.
  intros R0 Ra H. destruct (Z.le_gt_cases b a); [rewrite sumZ_empty by lia; auto|]. revert H. replace b with (a + Z.of_nat (Z.to_nat (b - a))) by lia. generalize (Z.to_nat (b - a)). intros n. clear H0.
  induction n as [|n IH]; intros H; [rewrite sumZ_empty by lia; auto|]. replace (a + Z.of_nat (S n)) with (a + Z.of_nat n + 1) by lia. rewrite sumZ_last by lia. apply Ra.
  - apply IH. intros i Hi. apply H. lia.
  - apply H. lia.
Qed.
Lemma gz_closed (R : C -> Prop) l i : R r0 -> Forall R l -> R (gz l i).
Proof. intros R0 H. unfold gz. destruct (0 <=? i); auto. destruct (nth_in_or_default (Z.to_nat i) l r0) as [Hn| ->]; auto. rewrite Forall_forall in H. auto. Qed.
Theorem cwt_at_real (R : C -> Prop) psi x s xs t : real_samples re R -> Forall R psi -> Forall R xs -> R (inj (grid_step x)) -> R (root s) ->
  let z := cwt_at (wavelet_fn false psi x) (zlen psi) (grid_step x) (grid_width x) s (root s) xs t in post re false z = z.
Proof.
  intros (R0 & Ra & Rm & Rs & Rr) Hp Hx Hi Hr z. unfold post. apply Rr. unfold z, cwt_at. cbv zeta.
  assert (Hst : forall i, R (stretched (wavelet_fn false psi x) (zlen psi) (grid_step x) (grid_width x) s i)).
  { intros i. unfold stretched. destruct (_ && _); auto. unfold wavelet_fn. cbv zeta. unfold integral. apply Rm; auto. apply sumZ_closed; auto. intros j _. apply gz_closed; auto. }
  apply Rm; auto. apply sumZ_closed; auto. intros i _. apply Rm; [apply gz_closed; auto|]. apply Rs; auto.
Qed.

(** ** Linearity *)
Lemma cwt_at_lin (P : Z -> C) n step width s r a b xs ys t : zlen xs = zlen ys -> forall zs, zlen zs = zlen xs -> (forall i, gz zs i = a [*] gz xs i [+] b [*] gz ys i) ->
  cwt_at P n step width s r zs t = a [*] cwt_at P n step width s r xs t [+] b [*] cwt_at P n step width s r ys t.
Proof.
  intros Hl zs Hz H. unfold cwt_at. cbv zeta. rewrite Hz, <- Hl. set (c := (stretched_len n step width s + 1) / 2).
  rewrite (sumZ_ext C 0 (zlen xs) _ (fun i => a [*] (gz xs i [*] (stretched P n step width s (i - t + c) [-] stretched P n step width s (i - t + c - 1))) [+] b [*] (gz ys i [*] (stretched P n step width s (i - t + c) [-] stretched P n step width s (i - t + c - 1))))).
  - rewrite sumZ_add, !sumZ_scal. ring.
  - intros i _. rewrite H. ring.
Qed.
Theorem cwt_linear dcplx X Y a b scales wc psi x fc period meth axis : let d := zlen (nshape X) in let k := cwt_k d axis in let N := nthz k (nshape X) in
  nd_wf X -> nd_wf Y -> nshape Y = nshape X -> 1 <= d -> - d <= axis < d -> 1 <= N -> grid_ok x -> 1 <= zlen psi ->
  (forall s, In s scales -> (0 < s)%Q /\ (1 < inject_Z (zlen psi) * (s * grid_step x))%Q /\ meth_good meth psi x N s) -> meth <> MOther ->
  (wc || dcplx = false -> forall p q, re (a [*] p [+] b [*] q) = a [*] re p [+] b [*] re q) ->
  exists fx fy f fr, CWT dcplx X scales (WContinuous wc psi x) fc period meth axis = Ok (fx, fr) /\
  CWT dcplx Y scales (WContinuous wc psi x) fc period meth axis = Ok (fy, fr) /\
  CWT dcplx (ndadd (ndscal a X) (ndscal b Y)) scales (WContinuous wc psi x) fc period meth axis = Ok (f, fr) /\
  f = ndadd (ndscal a fx) (ndscal b fy).
Proof.
  intros d k N HX HY HS H1 Ha HN Hx Hp H Hm Hre. set (Z0 := ndadd (ndscal a X) (ndscal b Y)). assert (SZ : nshape Z0 = nshape X) by reflexivity.
  assert (HZ : nd_wf Z0) by (apply ndtab_wf; apply HX).
  destruct (cwt_value dcplx X scales wc psi x fc period meth axis) as (fx & Ex & Sx & Wx & Gx); auto.
  destruct (cwt_value dcplx Y scales wc psi x fc period meth axis) as (fy & Ey & Sy & Wy & Gy); auto; rewrite ?HS; auto.
  destruct (cwt_value dcplx Z0 scales wc psi x fc period meth axis) as (f & Ez & Sz & Wz & Gz); auto.
  rewrite SZ in *. rewrite HS in *. fold d in Gx, Gy, Gz. fold k in Gx, Gy, Gz.
  exists fx, fy, f. eexists. repeat split; eauto.
  assert (Hk : (k < List.length (nshape X))%nat). { destruct (axis_norm d axis H1 Ha) as (_ & B). unfold k, cwt_k. unfold d, zlen in *. lia. }
  apply nd_ext; auto.
  - apply ndtab_wf. apply ndtab_wf. apply Wx.
  - cbn [ndadd ndscal ndtab nshape]. congruence.
  - rewrite Sz. intros [|i idx] V; [destruct V|]. cbn [Nd.valid] in V. destruct V as (Vi & V).
    assert (Vf : Nd.valid (nshape fx) (i :: idx)) by (rewrite Sx; cbn; auto). assert (Vy : Nd.valid (nshape fy) (i :: idx)) by (rewrite Sy; cbn; auto).
    unfold ndadd. rewrite ndget_ndtab by exact Vf. unfold ndscal. rewrite !ndget_ndtab by auto. rewrite Gx, Gy, Gz by auto.
    set (s := nth (Z.to_nat i) scales 0%Q).
    rewrite (cwt_at_lin _ _ _ _ _ _ a b (line X k idx) (line Y k idx)).
    + unfold post. destruct (wc || dcplx) eqn:E; auto.
    + rewrite !zlen_line by auto. rewrite HS. reflexivity.
    + rewrite !zlen_line by auto. reflexivity.
    + intros j. destruct (Z.lt_ge_cases j 0); [rewrite !gz_neg by auto; ring|]. destruct (Z.le_gt_cases N j).
      * rewrite !gz_big by (rewrite zlen_line by auto; rewrite ?SZ, ?HS; unfold N in *; lia). ring.
      * unfold line. rewrite SZ, HS. fold N. rewrite !gz_tab by lia. assert (Vj : Nd.valid (nshape X) (setn k j idx)) by (apply valid_setn'; auto; unfold N in *; lia).
        unfold Z0, ndadd, ndscal. rewrite ndget_ndtab by exact Vj. rewrite !ndget_ndtab by (rewrite ?HS; auto). reflexivity.
Qed.
End Main.
End CM.
