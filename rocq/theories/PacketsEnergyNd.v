(** Inner products of wavelet packets of n-dimensional data. *)
From Coq Require Import Permutation String Ascii.
From Verif Require Import Base BaseLemmas CConv Spec ExtLemmas Lengths LengthsProofs Dwt DwtProofs PR Multilevel MultilevelProofs Swt Nd NdSpec NdLinear Axis AxisProofs AxisProofs2 Multidim MultidimProofs MultidimFacts MultilevelNd MultilevelNdProofs MultilevelNdFacts SwtNd SwtNdArgs Facts1 CyclicMain CyclicNd ParsevalNd.
From Verif Require Import Packets PacketsInv PacketsPath PacketsRead PacketsSpec PacketsLevel PacketsClasses PacketsFacts PacketsFacts2 PacketsRebuild PacketsRebuild2 PacketsEnergy.
Open Scope list_scope. Open Scope Z_scope.

Section E.
Variable C : CRing.
Add Ring Cring_ring_pen : (rth C).
Notation ndinner := (ndinner C).
Notation lsum := (lsum C).
Notation step := (step C).

(** Cutting a path into parts of [q] letters; [left] further letters complete
    the part that begins with [acc]. *)
Fixpoint cut_at {D} (f : string -> D -> D) (q : nat) (acc : string) (left : nat) (s : string) (d : D) : D :=
  match s with
  | EmptyString => d
  | String c t => match left with O => cut_at f q EmptyString (pred q) t (f (append acc (String c EmptyString)) d)
                  | S l => cut_at f q (append acc (String c EmptyString)) l t d end
  end.
Lemma append_one a c p : append (append a (String c EmptyString)) p = append a (String c p).
Proof. induction a as [|b a IH]; cbn [append]; [reflexivity|]. rewrite IH. reflexivity. Qed.
Lemma cut_part {D} (f : string -> D -> D) q p : forall acc s d, p <> EmptyString -> cut_at f q acc (pred (String.length p)) (append p s) d = cut_at f q EmptyString (pred q) s (f (append acc p) d).
Proof.
  induction p as [|c p IH]; intros acc s d Hp; [tauto|]. cbn [String.length pred append]. destruct p as [|c' p]; [reflexivity|].
  cbn [cut_at String.length]. change (String.length p) with (pred (String.length (String c' p))). rewrite IH by discriminate. rewrite append_one. reflexivity.
Qed.
Lemma cut_step {D} (f : string -> D -> D) q p s d : (1 <= q)%nat -> String.length p = q -> cut_at f q EmptyString (pred q) (append p s) d = cut_at f q EmptyString (pred q) s (f p d).
Proof. intros Hq Hp. subst q. apply (cut_part f (String.length p) p EmptyString). intros ->. cbn in Hq. lia. Qed.
Lemma cut_parts {D} (f : string -> D -> D) q ps : (1 <= q)%nat -> forall d, (forall p, In p ps -> String.length p = q) ->
  cut_at f q EmptyString (pred q) (List.fold_right append EmptyString ps) d = List.fold_left (fun d p => f p d) ps d.
Proof.
  intros Hq. induction ps as [|p ps IH]; intros d H; [reflexivity|]. cbn [List.fold_right List.fold_left]. rewrite cut_step by (auto; apply H; left; auto). apply IH. intros. apply H. right. auto.
Qed.

(** The shape of a band. *)
Definition per_plan (plan : list step) : Prop := NoDup (map (st_ax C) plan) /\ forall s, In s plan -> st_m C s = PERIODIZATION.
Lemma band_halves plan : forall key (x : nd C), per_plan plan -> nd_wf x -> String.length key = List.length plan ->
  (forall a, In a (map (st_ax C) plan) -> (a < List.length (nshape x))%nat /\ 1 <= nthz a (nshape x)) ->
  nd_wf (band C key plan x) /\ List.length (nshape (band C key plan x)) = List.length (nshape x) /\
  (forall a, nthz a (nshape (band C key plan x)) = if in_dec Nat.eq_dec a (map (st_ax C) plan) then (nthz a (nshape x) + 1) / 2 else nthz a (nshape x)).
Proof.
  induction plan as [|s p IH]; intros key x (Hn & Hm) Hw HL Ha; destruct key as [|c key]; try discriminate.
  - cbn [band map]. auto.
  - cbn [band]. rewrite (Hm s) by (left; auto). cbn [map] in *. inversion Hn as [|? ? Hni Hn']; subst.
    destruct (Ha (st_ax C s) (or_introl eq_refl)) as (A1 & A2). set (y := dax (st_ax C s) PERIODIZATION (pick C c (st_w C s)) x).
    assert (Sy : nshape y = setn (st_ax C s) ((nthz (st_ax C s) (nshape x) + 1) / 2) (nshape x)) by apply dax_len.
    destruct (IH key y) as (B1 & B2 & B3).
    + split; auto. intros; apply Hm; right; auto.
    + apply dax_wf_per; auto.
    + cbn in HL. lia.
    + intros a Hi. rewrite Sy, setn_length, nthz_setn_ne by (intros E; apply Hni; congruence). apply Ha. right; auto.
    + split; auto. split; [rewrite B2, Sy, setn_length; reflexivity|]. intros a. rewrite B3, Sy.
      destruct (Nat.eq_dec a (st_ax C s)) as [->|Hne].
      * destruct (in_dec Nat.eq_dec (st_ax C s) (map (st_ax C) p)) as [Hi|_]; [tauto|]. rewrite nthz_setn by auto. destruct (in_dec _ _ _) as [_|N]; auto. exfalso. apply N. left; auto.
      * rewrite !nthz_setn_ne by auto. destruct (in_dec Nat.eq_dec a (map (st_ax C) p)) as [Hi|Hi]; destruct (in_dec Nat.eq_dec a (st_ax C s :: map (st_ax C) p)) as [Hj|Hj]; auto.
        -- exfalso. apply Hj. right; auto.
        -- destruct Hj; [congruence|tauto].
Qed.
Lemma nthz_eq (a b : list Z) : List.length a = List.length b -> (forall k, nthz k a = nthz k b) -> a = b.
Proof. intros HL H. apply (nth_ext a b 0 0 HL). intros k _. apply H. Qed.

Variable fuel : nat.
Lemma halves_bands plan k (x y : nd C) key : per_plan plan -> halves C (map (st_ax C) plan) (S k) x y -> String.length key = List.length plan ->
  halves C (map (st_ax C) plan) k (band C key plan x) (band C key plan y).
Proof.
  intros Hp (W1 & W2 & HS & H) HL.
  destruct (band_halves plan key x Hp W1 HL) as (A1 & A2 & A3); [intros a Ha; destruct (H a Ha); tauto|].
  destruct (band_halves plan key y Hp W2 HL) as (B1 & B2 & B3); [intros a Ha; rewrite HS; destruct (H a Ha); tauto|].
  split; auto. split; auto. split; [apply nthz_eq; [congruence|intros j; rewrite A3, B3, HS; reflexivity]|].
  intros a Ha. rewrite A2, A3. destruct (in_dec _ _ _) as [_|N]; [|tauto]. destruct (H a Ha) as (H1 & H2 & (q & Hq)). rewrite Nat2Z.inj_succ, Z.pow_succ_r in Hq by lia.
  assert (0 < 2 ^ Z.of_nat k) by (apply Z.pow_pos_nonneg; lia). assert (E : (nthz a (nshape x) + 1) / 2 = q * 2 ^ Z.of_nat k) by lia. rewrite E. split; auto. split; [nia|exists q; reflexivity].
Qed.
Lemma halves_plan plan k (x y : nd C) : per_plan plan -> (forall s, In s plan -> orthonormal (st_w C s)) -> halves C (map (st_ax C) plan) (S k) x y -> dual_plan C plan plan (nshape x).
Proof.
  intros (Hn & Hm) Ho HG. split; auto.
  assert (G : forall l, (forall s, In s l -> In s plan) -> Forall2 (dual_step C (nshape x)) l l).
  { induction l as [|s l IH]; intros Hl; constructor; [|apply IH; intros; apply Hl; right; auto]. assert (Hs : In s plan) by (apply Hl; left; auto).
    pose proof (halves_step C _ k x y (st_w C s) (st_w C s) (st_ax C s) HG (in_map _ _ _ Hs) (orthonormal_dual C _ (Ho s Hs))) as K. destruct s as [a [w m]]. pose proof (Hm _ Hs) as E. cbn [st_m st_ax st_w fst snd] in *. subst m. exact K. }
  apply G. auto.
Qed.
Theorem packetn_tree_inner plan T k (x y : nd C) : plan <> [] -> per_plan plan -> (forall s, In s plan -> orthonormal (st_w C s)) -> halves C (map (st_ax C) plan) k x y ->
  let q := List.length plan in let at_ s d := cut_at (fun p d => band C p plan d) q EmptyString (pred q) s d in
  depth_le (ad_keys q) T k -> lsum (map (fun s => ndinner (at_ s x) (at_ s y)) (leaf_paths (ad_keys q) T)) = ndinner x y.
Proof.
  intros Hne Hp Ho HG q at_ HT. assert (Hq : (1 <= q)%nat) by (unfold q; destruct plan; [tauto|cbn; lia]).
  apply (tree_inner C (ad_keys q) at_ at_ (fun p d => band C p plan d) (fun p d => band C p plan d) (halves C (map (st_ax C) plan))) with (k := k); auto;
    try (intros p s d Hi; exact (cut_step (fun p d => band C p plan d) q p s d Hq (ad_keys_length q p Hi))).
  clear k x y HG HT. intros k x y HG. split.
  - pose proof HG as (W1 & W2 & HS & _). apply (band_inner C fuel plan plan x y); auto. eapply halves_plan; eauto.
  - intros p Hi. apply halves_bands; auto. apply ad_keys_length; auto.
Qed.

(** The objects. *)
Variable junk : Z -> C.
Lemma leaf_path_words {D} (K : wpclass D) T : forall k s, depth_le (parts K) T k -> In s (leaf_paths (parts K) T) -> exists j, In s (words K j) /\ (j <= k)%nat.
Proof.
  induction T as [|sub IH]; intros k s Hd Hs; cbn [leaf_paths depth_le] in *; [exists 0%nat; split; [exact Hs|lia]|]. destruct k as [|k]; [destruct Hd|].
  apply in_flat_map in Hs. destruct Hs as (p & Hp & Hs). apply in_map_iff in Hs. destruct Hs as (t & <- & Ht). destruct (IH p k t (Hd p Hp) Ht) as (j & Hj & Hl).
  exists (S j). split; [|lia]. cbn [words]. apply in_flat_map. exists p. split; auto. apply in_map. auto.
Qed.
Lemma divisible_even F N M j : (2 ^ Z.of_nat M | N) -> (j < M)%nat -> approx_len PERIODIZATION F j N mod 2 = 0.
Proof.
  intros (q & Hq) Hj. assert (D : forall i, (i <= M)%nat -> (2 ^ Z.of_nat i | N)).
  { intros i Hi. exists (q * 2 ^ Z.of_nat (M - i)). rewrite Hq, <- Z.mul_assoc, <- Z.pow_add_r by lia. do 2 f_equal. lia. }
  pose proof (half_len F N j (D j ltac:(lia))) as E0. pose proof (half_len F N (S j) (D (S j) ltac:(lia))) as E1. rewrite Nat2Z.inj_succ, Z.pow_succ_r in E1 by lia.
  assert (0 < 2 ^ Z.of_nat j) by (apply Z.pow_pos_nonneg; lia). assert (K : approx_len PERIODIZATION F j N = approx_len PERIODIZATION F (S j) N * 2) by nia. rewrite K. apply Z_mod_mult.
Qed.
Theorem packetn_inner (x y : nd C) w M axes0 axes plan B hx hy opsx opsy T :
  let K := wpn fuel junk w PERIODIZATION axes in
  orthonormal w -> nd_wf x -> nd_wf y -> nshape y = nshape x -> zlen (nshape x) <= 64 -> 0 <= M ->
  packetn fuel junk (Some x) w (Some M) axes0 = Ok (axes, hx) -> packetn fuel junk (Some y) w (Some M) axes0 = Ok (axes, hy) -> plan <> [] ->
  resolves C (zlen (nshape x)) (One w) (One PERIODIZATION) axes plan -> plan_good C fuel B (nshape x) plan ->
  (forall s, In s plan -> 1 <= nthz (st_ax C s) (nshape x) /\ (2 ^ M | nthz (st_ax C s) (nshape x))) ->
  forallb analysing opsx = true -> forallb analysing opsy = true -> depth_le (ad_keys (List.length axes)) T (Z.to_nat M) ->
  exists X Y, (forall s, In s (leaf_paths (ad_keys (List.length axes)) T) -> node_data K (run K hx opsx) s (X s) /\ node_data K (run K hy opsy) s (Y s)) /\
    lsum (map (fun s => ndinner (X s) (Y s)) (leaf_paths (ad_keys (List.length axes)) T)) = ndinner x y.
Proof.
  intros K Ho Wx Wy HS H64 HM Ex Ey Hne Hres Hpg Hdv Ox Oy HT. pose proof Ho as (Hpr & _). pose proof (pr_wf w Hpr) as Hw. pose proof Hw as (_ & _ & _ & _ & W5).
  assert (Hlv : forall l, Some M = Some l -> 0 <= l /\ forall s, In s plan -> levels_ok PERIODIZATION (dec_len w) (Z.to_nat l) (nthz (st_ax C s) (nshape x))).
  { intros M' E; injection E as <-; split; auto. intros s Hs. destruct (Hdv s Hs). apply levels_ok_intro; auto. }
  assert (Hws : forall s, In s plan -> st_w C s = w /\ st_m C s = PERIODIZATION).
  { destruct Hres as (_ & R2 & R3). cbn [objs_per_axis] in R2, R3. injection R2 as R2. injection R3 as R3. intros s Hs. split.
    - assert (I : In (st_w C s) (map (st_w C) plan)) by (apply in_map; auto). rewrite <- R2 in I. exact (repeat_spec _ _ _ I).
    - assert (I : In (st_m C s) (map (st_m C) plan)) by (apply in_map; auto). rewrite <- R3 in I. exact (repeat_spec _ _ _ I). }
  assert (HL : List.length axes = List.length plan).
  { destruct Hres as (R1 & _). apply (f_equal (@List.length Z)) in R1. unfold norm_axes in R1. rewrite !map_length in R1. exact R1. }
  assert (Hev : forall s j, In s plan -> (j < Z.to_nat M)%nat -> approx_len PERIODIZATION (dec_len w) j (nthz (st_ax C s) (nshape x)) mod 2 = 0).
  { intros s j Hs Hj. apply divisible_even with (Z.to_nat M); auto. rewrite Z2Nat.id by lia. apply Hdv; auto. }
  assert (Hq : (1 <= List.length plan)%nat) by (destruct plan; [tauto|cbn; lia]).
  rewrite HL in *. set (q := List.length plan) in *. set (P := fun s (d : nd C) => cut_at (fun p d => band C p plan d) q EmptyString (pred q) s d).
  exists (fun s => P s x), (fun s => P s y). split.
  - intros s Hs. destruct (leaf_path_words K T (Z.to_nat M) s) as (j & Hj & Hjl); [cbn [K wpn parts]; rewrite HL; auto|cbn [K wpn parts]; rewrite HL; auto|].
    destruct (packetn_spec C fuel junk x w PERIODIZATION (Some M) axes0 axes plan B hx opsx Hpr Wx H64 Ex Hne Hres Hpg Hlv Ox) as (M1 & E1 & _ & Nx).
    destruct (packetn_spec C fuel junk y w PERIODIZATION (Some M) axes0 axes plan B hy opsy Hpr Wy) as (M2 & E2 & _ & Ny); rewrite ?HS; auto.
    specialize (E1 M eq_refl). specialize (E2 M eq_refl). subst M1 M2. destruct (Nx Hev) as (_ & _ & Nx'). rewrite HS in Ny. destruct (Ny Hev) as (_ & _ & Ny').
    destruct (Nx' s j Hj ltac:(lia)) as (h1 & c1 & z1 & ps1 & A1 & A2 & A3 & _ & A4 & A5 & A6). destruct (Ny' s j Hj ltac:(lia)) as (h2 & c2 & z2 & ps2 & B1 & B2 & B3 & _ & B4 & B5 & B6).
    rewrite HL in A5, B5. assert (PX : P s x = List.fold_left (fun d p => band C p plan d) ps1 x) by (unfold P; rewrite A4; apply cut_parts; auto).
    assert (PY : P s y = List.fold_left (fun d p => band C p plan d) ps2 y) by (unfold P; rewrite B4; apply cut_parts; auto). rewrite PX, PY.
    split; [exists h1, c1, z1|exists h2, c2, z2]; auto.
  - destruct Hpg as (_ & _ & _ & _ & Hnd & Hst). apply (packetn_tree_inner plan T (Z.to_nat M)); auto.
    + split; auto. intros s Hs. apply Hws; auto.
    + intros s Hs. rewrite (proj1 (Hws s Hs)). auto.
    + split; auto. split; auto. split; auto. rewrite Z2Nat.id by lia. intros a Ha. apply in_map_iff in Ha. destruct Ha as (s & <- & Hs). split; [apply (proj1 (Hst s Hs))|apply Hdv; auto].
Qed.
End E.
