(** What waverec2, wavedecn_shapes and dwtn_max_level refuse. *)
From Coq Require Import List Ascii String.
From Verif Require Import Base BaseLemmas CConv Spec Instances Lengths Dwt Nd NdSpec Axis Multidim Multilevel MultilevelNd MultilevelNdProofs Swt SwtNd SwtNdRefuse DwtRefuse.
Import ListNotations.
Open Scope list_scope. Open Scope Z_scope.

Section R.
Variable C : CRing.
Variable fuel : nat.
Variable junk : Z -> C.

Lemma shapes_differ (d1 d2 d3 : option (sarr C)) x y : In (Some x) [d1; d2; d3] -> In (Some y) [d1; d2; d3] -> sshape x <> sshape y ->
  exists s rest, flat_map (fun d => match d with Some d' => [sshape d'] | None => [] end) [d1; d2; d3] = s :: rest /\ existsb (fun t => negb (shape_eqb t s)) rest = true.
Proof.
  intros Hx Hy Hne. set (f := fun d : option (sarr C) => match d with Some d' => [sshape d'] | None => [] end).
  assert (Ix : In (sshape x) (flat_map f [d1; d2; d3])) by (apply in_flat_map; exists (Some x); split; [exact Hx|now left]).
  assert (Iy : In (sshape y) (flat_map f [d1; d2; d3])) by (apply in_flat_map; exists (Some y); split; [exact Hy|now left]).
  destruct (flat_map f [d1; d2; d3]) as [|s rest]; [contradiction|]. exists s, rest. split; [reflexivity|].
  destruct (existsb (fun t => negb (shape_eqb t s)) rest) eqn:E; [reflexivity|]. exfalso. apply Hne.
  assert (G : forall t, In t (s :: rest) -> t = s).
  { intros t [<-|Ht]; [reflexivity|]. destruct (shape_eqb t s) eqn:Es; [|exfalso].
    - revert Es. unfold shape_eqb. now destruct (list_eq_dec Z.eq_dec t s).
    - assert (existsb (fun t => negb (shape_eqb t s)) rest = true); [|congruence]. apply existsb_exists. exists t. now rewrite Es. }
  now rewrite (G _ Ix), (G _ Iy).
Qed.

Theorem waverec2_refuses (a : option (sarr C)) (ds : list (option (sarr C) * option (sarr C) * option (sarr C))) w m axes :
  (~ NoDup axes -> waverec2 fuel junk a ds w m axes = Err ValueError) /\
  (forall d1 d2 d3 rest x y, ds = (d1, d2, d3) :: rest -> NoDup axes -> In (Some x) [d1; d2; d3] -> In (Some y) [d1; d2; d3] -> sshape x <> sshape y ->
     waverec2 fuel junk a ds w m axes = Err ValueError) /\
  (forall rest, ds = (None, None, None) :: rest -> NoDup axes -> match a with None => True | Some a0 => ndim a0 < 2 end -> waverec2 fuel junk a ds w m axes = Err IndexError) /\
  (forall a0, a = Some a0 -> 2 <= ndim a0 -> ds <> [] -> List.length axes <> 2%nat -> waverec2 fuel junk a ds w m axes = Err ValueError).
Proof.
  unfold waverec2. split; [|split; [|split]].
  - intros H. rewrite nodup_ltb by exact H. reflexivity.
  - intros d1 d2 d3 rest x y -> Hn Hx Hy Hne. rewrite (distinct_NoDup _ Hn), Nat.eqb_refl. cbn [negb waverec2_loop].
    destruct (shapes_differ d1 d2 d3 x y Hx Hy Hne) as (s & r & -> & ->). reflexivity.
  - intros rest -> Hn Ha. rewrite (distinct_NoDup _ Hn), Nat.eqb_refl. cbn [negb waverec2_loop flat_map app].
    destruct a as [a0|]; [|reflexivity]. destruct (Z.ltb_spec (ndim a0) 2); [reflexivity|lia].
  - intros a0 -> H2 Hds Hl. destruct (negb (Nat.eqb _ (distinct axes))); [reflexivity|]. destruct ds as [|[[d1 d2] d3] rest]; [contradiction|]. cbn [waverec2_loop].
    assert (I : forall x t, idwt2 (C := C) fuel junk (x, t) w m axes = Err ValueError).
    { intros x [[t1 t2] t3]. unfold idwt2. destruct (Nat.eqb_spec (List.length axes) 2); [contradiction|reflexivity]. }
    destruct (flat_map _ _) as [|s r]; [destruct (Z.ltb_spec (ndim a0) 2); [lia|]|destruct (existsb _ r); [reflexivity|]]; cbn [bind]; rewrite I; reflexivity.
Qed.

(** Arrays of different shapes at any level: no result, whatever the levels before do. *)
Theorem waverec2_uneven (a : option (sarr C)) (ds : list (option (sarr C) * option (sarr C) * option (sarr C))) w m axes d1 d2 d3 x y :
  In (d1, d2, d3) ds -> In (Some x) [d1; d2; d3] -> In (Some y) [d1; d2; d3] -> sshape x <> sshape y -> forall r, waverec2 fuel junk a ds w m axes <> Ok r.
Proof.
  intros Hin Hx Hy Hne r. destruct (shapes_differ d1 d2 d3 x y Hx Hy Hne) as (s & q & E1 & E2).
  unfold waverec2. destruct (negb _); [discriminate|].
  assert (G : forall ds, In (d1, d2, d3) ds -> forall a, waverec2_loop fuel junk a ds w m axes <> Ok r).
  { clear -E1 E2. induction ds as [|[[e1 e2] e3] ds IH]; intros Hin a; [contradiction|]. cbn [waverec2_loop]. destruct Hin as [E|Hin].
    - injection E as -> -> ->. rewrite E1, E2. discriminate.
    - assert (B : forall A B (z : res A) (k : A -> res B) v, (forall b, k b <> Ok v) -> bind z k <> Ok v) by (intros ? ? [b| | |e] k v Hk; cbn; auto; discriminate).
      apply B. intros a'. apply B. exact (IH Hin). }
  destruct ds; [contradiction|]. now apply G.
Qed.

(** One level: idwt2, for the arrays that are there. *)
Theorem waverec2_one_level (a : sarr C) d1 d2 d3 w m axes : NoDup axes -> 2 <= ndim a -> (forall x, In (Some x) [d1; d2; d3] -> sshape x = sshape a) ->
  waverec2 fuel junk (Some a) [(d1, d2, d3)] w m axes = idwt2 fuel junk (Some a, (d1, d2, d3)) w m axes.
Proof.
  intros Hn H2 Hs. unfold waverec2. rewrite (distinct_NoDup _ Hn), Nat.eqb_refl. cbn [negb waverec2_loop].
  set (f := fun d : option (sarr C) => match d with Some d' => [sshape d'] | None => [] end).
  assert (G : forall t, In t (flat_map f [d1; d2; d3]) -> t = sshape a).
  { intros t Ht. apply in_flat_map in Ht as ([x|] & Hx & Ht); [|contradiction]. destruct Ht as [<-|[]]. now apply Hs. }
  assert (R : forall z : res (option (sarr C)), (r <- z ;; Ok r) = z) by (intros [?| | |?]; reflexivity).
  destruct (flat_map f [d1; d2; d3]) as [|s rest].
  - destruct (Z.ltb_spec (ndim a) 2); [lia|]. cbn [bind]. apply R.
  - assert (s = sshape a) by (apply G; now left). subst s.
    assert (E : existsb (fun t => negb (shape_eqb t (sshape a))) rest = false).
    { destruct (existsb _ rest) eqn:E; [|reflexivity]. apply existsb_exists in E as (t & Ht & E). rewrite (G t) in E by now right.
      unfold shape_eqb in E. destruct (list_eq_dec _ _ _); [discriminate|contradiction]. }
    rewrite E. cbn [bind].
    assert (Q : forall l : list Z, map (fun '(x, y) => if x =? y + 1 then x - 1 else x) (combine l l) = l).
    { induction l as [|x l IH]; [reflexivity|]. cbn [combine map]. rewrite IH. destruct (Z.eqb_spec x (x + 1)); [lia|reflexivity]. }
    rewrite Q, skipn_all, app_nil_r. unfold view. destruct a as [mem b sh st]. apply R.
Qed.
End R.

Theorem wavedecn_shapes_refuses shape lens m level axes :
  (shape = [] -> wavedecn_shapes shape lens m level axes = Err ValueError) /\
  (forall l, axes = Some l -> shape <> [] -> ~ NoDup l -> wavedecn_shapes shape lens m level axes = Err ValueError) /\
  (forall l, axes = Some l -> shape <> [] -> NoDup l -> Exists (outside (zlen shape)) l -> wavedecn_shapes shape lens m level axes = Err AxisError) /\
  (let l := match axes with Some l => l | None => tab (zlen shape) (fun i => i) end in shape <> [] -> NoDup l -> Forall (fun x => ~ outside (zlen shape) x) l ->
     wrong_count lens (List.length l) \/ wrong_count m (List.length l) \/ (exists v, level = Some v /\ v < 0) \/ l = [] -> wavedecn_shapes shape lens m level axes = Err ValueError).
Proof.
  assert (Z1 : shape <> [] -> (zlen shape <? 1) = false) by (destruct shape; [contradiction|]; intros _; apply Z.ltb_ge; unfold zlen; cbn [List.length]; lia).
  split; [|split; [|split]].
  - intros ->. reflexivity.
  - intros l -> H Hn. unfold wavedecn_shapes, prep_axes. rewrite Z1 by exact H. cbv zeta. rewrite nodup_ltb by exact Hn. reflexivity.
  - intros l -> H Hn Ho. unfold wavedecn_shapes, prep_axes. rewrite Z1 by exact H. cbv zeta. rewrite (distinct_NoDup l Hn), Nat.eqb_refl. cbn [negb]. rewrite (sizes_outside Zring (fun _ => 0)) by exact Ho. reflexivity.
  - intros l H Hn Hi Hbad. unfold wavedecn_shapes, prep_axes. rewrite Z1 by exact H. cbv zeta. change (match axes with Some l => l | None => tab (zlen shape) (fun i => i) end) with l.
    rewrite (distinct_NoDup l Hn), Nat.eqb_refl. cbn [negb]. destruct (sizes_inside Zring (fun _ => 0) shape l Hi) as [s Es]. rewrite Es. cbn [bind].
    destruct (objs_cases lens (List.length l)) as [[ws Ew]|Ew]; rewrite Ew; cbn [bind]; [|reflexivity].
    destruct (objs_cases m (List.length l)) as [[ms Em]|Em]; rewrite Em; cbn [bind]; [|reflexivity].
    destruct Hbad as [Hb|[Hb|[(v & -> & Hv)|Hb]]].
    + rewrite objs_wrong in Ew by exact Hb. discriminate.
    + rewrite objs_wrong in Em by exact Hb. discriminate.
    + destruct (list_min s); [|reflexivity]. destruct (list_max ws); [|reflexivity]. rewrite (level_negative Zring (fun _ => 0)) by exact Hv. reflexivity.
    + rewrite Hb in Es. cbn in Es. injection Es as <-. reflexivity.
Qed.

Theorem dwtn_max_level_refuses shape lens axes :
  (shape = [] -> dwtn_max_level shape lens axes = Err ValueError) /\
  (forall l, axes = Some l -> shape <> [] -> ~ NoDup l -> dwtn_max_level shape lens axes = Err ValueError) /\
  (forall l, axes = Some l -> shape <> [] -> NoDup l -> Exists (outside (zlen shape)) l -> dwtn_max_level shape lens axes = Err AxisError) /\
  (let l := match axes with Some l => l | None => tab (zlen shape) (fun i => i) end in shape <> [] -> NoDup l -> Forall (fun x => ~ outside (zlen shape) x) l ->
     wrong_count lens (List.length l) \/ l = [] -> dwtn_max_level shape lens axes = Err ValueError).
Proof.
  assert (Z1 : shape <> [] -> (zlen shape <? 1) = false) by (destruct shape; [contradiction|]; intros _; apply Z.ltb_ge; unfold zlen; cbn [List.length]; lia).
  split; [|split; [|split]].
  - intros ->. reflexivity.
  - intros l -> H Hn. unfold dwtn_max_level, prep_axes. rewrite Z1 by exact H. cbv zeta. rewrite nodup_ltb by exact Hn. reflexivity.
  - intros l -> H Hn Ho. unfold dwtn_max_level, prep_axes. rewrite Z1 by exact H. cbv zeta. rewrite (distinct_NoDup l Hn), Nat.eqb_refl. cbn [negb]. rewrite (sizes_outside Zring (fun _ => 0)) by exact Ho. reflexivity.
  - intros l H Hn Hi Hbad. unfold dwtn_max_level, prep_axes. rewrite Z1 by exact H. cbv zeta. change (match axes with Some l => l | None => tab (zlen shape) (fun i => i) end) with l.
    rewrite (distinct_NoDup l Hn), Nat.eqb_refl. cbn [negb]. destruct (sizes_inside Zring (fun _ => 0) shape l Hi) as [s Es]. rewrite Es. cbn [bind].
    destruct (objs_cases lens (List.length l)) as [[ws Ew]|Ew]; rewrite Ew; cbn [bind]; [|reflexivity].
    destruct Hbad as [Hb|Hb]; [rewrite objs_wrong in Ew by exact Hb; discriminate|]. rewrite Hb in Es. cbn in Es. injection Es as <-. reflexivity.
Qed.
