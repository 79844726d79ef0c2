(** What boundary_mode_subplot draws. *)
From Coq Require Import String.
From Verif Require Import Base BaseLemmas CConv Spec ExtLemmas Lengths Dwt Linear Pad PadProofs Reversal BoundaryPlot BoundaryPlotSpec.
Open Scope list_scope. Open Scope Z_scope.

Section BPP.
Variable C : CRing.
Add Ring bpring : (rth C).
Implicit Types (x v : list C).

Lemma zlen_evened m x : zlen (evened m x) = match m with PERIODIZATION => zlen x + zlen x mod 2 | _ => zlen x end.
Proof.
  destruct m; try reflexivity. unfold evened. destruct (Z.eqb_spec (zlen x mod 2) 1) as [->|H]; [rewrite zlen_app; reflexivity|]. lia.
Qed.
Lemma plot_ok lo hi v : lo <= hi -> zlen v = hi - lo -> plot lo hi v = Ok (tab (zlen v) (fun i => (lo + i, gz v i))).
Proof. intros H L. unfold plot. replace (zlen v =? _) with true by lia. reflexivity. Qed.
Lemma zlen_firstn x n : (n <= List.length x)%nat -> zlen (firstn n x) = Z.of_nat n.
Proof. intros H. unfold zlen. rewrite firstn_length. lia. Qed.
Lemma gz_firstn x n i : 0 <= i < Z.of_nat n -> (n <= List.length x)%nat -> gz (firstn n x) i = gz x i.
Proof.
  intros Hi H. unfold gz. destruct (0 <=? i); [|reflexivity]. assert (K : (Z.to_nat i < n)%nat) by lia. revert K. generalize (Z.to_nat i). clear. 
  revert x. induction n as [|n IH]; intros x k K; [lia|]. destruct x as [|a x]; [destruct k; reflexivity|]. destruct k as [|k]; [reflexivity|]. cbn. apply IH. lia.
Qed.
Lemma evened_even m x : m = PERIODIZATION -> zlen (evened m x) mod 2 = 0.
Proof. intros ->. rewrite zlen_evened. lia. Qed.

Theorem subplot_spec fuel x m symw : min_len m <= zlen x -> (m = SMOOTH -> 2 <= zlen x) -> 5 * zlen x + 9 < Z.of_nat fuel ->
  let e := evened m x in let n := zlen e in
  exists p, boundary_mode_subplot fuel x (mode_name m) symw = Ok p /\
    dots p = tab (5 * n) (fun t => (t, ext m e (t - 2 * n))) /\
    red p = tab (match m with PERIODIZATION => n - 1 | _ => n end) (fun i => (2 * n + i, gz e i)) /\
    bars p = bars_of m symw n.
Proof.
  intros Hm Hs Hf e n. assert (HN : 1 <= zlen x) by (destruct m; cbn in Hm; lia).
  assert (Hn : zlen x <= n <= zlen x + 1) by (unfold n, e; rewrite zlen_evened; destruct m; lia).
  assert (E : (if (String.eqb (mode_name m) "periodization") && (zlen x mod 2 =? 1) then x ++ [gz x (zlen x - 1)] else x) = e) by (unfold e; destruct m; reflexivity).
  unfold boundary_mode_subplot. rewrite E. fold n.
  assert (PE : padded_end m n = n). { unfold padded_end. destruct m; try reflexivity. unfold n, e. rewrite evened_even by reflexivity. lia. }
  rewrite pad_spec by (fold n; first [lia|intros S; specialize (Hs S); lia|intros S; lia|destruct m; cbn in *; lia]).
  cbn [bind]. fold n. rewrite PE.
  assert (L : zlen (window m e (2 * n) (n + 2 * n)) = 5 * n) by (unfold window; rewrite zlen_tab; lia).
  rewrite plot_ok by (rewrite ?L; lia). cbn [bind]. rewrite L.
  assert (D : tab (5 * n) (fun i => (0 + i, gz (window m e (2 * n) (n + 2 * n)) i)) = tab (5 * n) (fun t => (t, ext m e (t - 2 * n)))).
  { apply tab_ext. intros i Hi. unfold window. rewrite gz_tab by lia. reflexivity. }
  rewrite D. replace (5 * n =? 0) with false by lia.
  assert (LE : Z.of_nat (List.length e) = n) by reflexivity.
  assert (R : (if String.eqb (mode_name m) "periodization" then plot (2 * n) (2 * n + n - 1) (firstn (List.length e - 1) e) else plot (2 * n) (2 * n + n) e)
    = Ok (tab (match m with PERIODIZATION => n - 1 | _ => n end) (fun i => (2 * n + i, gz e i)))).
  { destruct m; cbn [mode_name String.eqb Ascii.eqb Bool.eqb]; try (rewrite plot_ok by (fold n; lia); fold n; reflexivity).
    assert (LF : zlen (firstn (List.length e - 1) e) = n - 1) by (rewrite zlen_firstn by lia; lia).
    rewrite plot_ok by (rewrite ?LF; lia). rewrite LF. f_equal. apply tab_ext. intros i Hi. rewrite gz_firstn by lia. reflexivity. }
  rewrite R. cbn [bind]. eexists. split; [reflexivity|]. cbn [dots red bars]. split; [reflexivity|]. split; [reflexivity|].
  change (py_range 0 2) with [0; 1]. change (py_range (-2) 4) with [-2; -1; 0; 1; 2; 3].
  unfold bars_of. destruct m, symw; cbn [mode_name String.eqb Ascii.eqb Bool.eqb orb]; apply map_ext; intros rep; lia.
Qed.

(** ** The bars *)
Lemma ext_refl_at x c n : 2 <= zlen x -> ext REFLECT x (2 * (c * (zlen x - 1)) - n) = ext REFLECT x n.
Proof.
  intros H. unfold ext. cbv zeta. set (L := zlen x - 1). pose proof (Z.div_mod n (2 * L) ltac:(lia)) as D. pose proof (Z.mod_pos_bound n (2 * L) ltac:(lia)) as B. set (r := n mod (2 * L)) in *. set (q := n / (2 * L)) in *.
  destruct (Z.eq_dec r 0) as [R|R].
  - destruct (mod_split (2 * (c * L) - n) (2 * L) (c - q) 0 ltac:(lia) ltac:(lia)) as (-> & _). rewrite R. reflexivity.
  - destruct (mod_split (2 * (c * L) - n) (2 * L) (c - q - 1) (2 * L - r) ltac:(lia) ltac:(lia)) as (-> & _).
    destruct (Z.leb_spec (2 * L - r) L), (Z.leb_spec r L); try lia; f_equal; lia.
Qed.
Lemma ext_arefl_at x c n : 2 <= zlen x -> ext ANTIREFLECT x (2 * (c * (zlen x - 1)) - n) [+] ext ANTIREFLECT x n = ext ANTIREFLECT x (c * (zlen x - 1)) [+] ext ANTIREFLECT x (c * (zlen x - 1)).
Proof.
  intros H. assert (V : ext ANTIREFLECT x (c * (zlen x - 1)) = gz x 0 [+] rz c [*] (gz x (zlen x - 1) [-] gz x 0)).
  { unfold ext. cbv zeta. set (L := zlen x - 1). pose proof (Z.div_mod c 2 ltac:(lia)) as D. pose proof (Z.mod_pos_bound c 2 ltac:(lia)) as B. destruct (Z.eq_dec (c mod 2) 0) as [E|E].
    - destruct (mod_split (c * L) (2 * L) (c / 2) 0 ltac:(lia) ltac:(nia)) as (-> & ->). replace (0 <=? L) with true by lia. replace (2 * (c / 2)) with c by lia. reflexivity.
    - destruct (mod_split (c * L) (2 * L) (c / 2) L ltac:(lia) ltac:(nia)) as (-> & ->). rewrite Z.leb_refl. replace (2 * (c / 2)) with (c - 1) by lia. rewrite rz_sub, rz_1. ring. }
  rewrite V. unfold ext. cbv zeta. set (L := zlen x - 1). pose proof (Z.div_mod n (2 * L) ltac:(lia)) as D. pose proof (Z.mod_pos_bound n (2 * L) ltac:(lia)) as B. set (r := n mod (2 * L)) in *. set (q := n / (2 * L)) in *.
  destruct (Z.eq_dec r 0) as [R|R].
  - destruct (mod_split (2 * (c * L) - n) (2 * L) (c - q) 0 ltac:(lia) ltac:(lia)) as (-> & ->). rewrite R. replace (0 <=? L) with true by lia.
    replace (2 * (c - q)) with (c + c - 2 * q) by lia. rewrite rz_sub, rz_add. ring.
  - destruct (mod_split (2 * (c * L) - n) (2 * L) (c - q - 1) (2 * L - r) ltac:(lia) ltac:(lia)) as (-> & ->).
    replace (2 * (c - q - 1)) with (c + c - 2 * q - 2) by lia. rewrite !rz_sub, rz_add, rz_2.
    destruct (Z.leb_spec (2 * L - r) L), (Z.leb_spec r L); try lia.
    + assert (r = L) by lia. replace (2 * L - r) with L by lia. rewrite H2. ring.
    + ring.
    + replace (2 * L - (2 * L - r)) with r by lia. ring.
Qed.
Lemma ext_sym_at x c n : 1 <= zlen x -> ext SYMMETRIC x (2 * (c * zlen x) - 1 - n) = ext SYMMETRIC x n /\ ext ANTISYMMETRIC x (2 * (c * zlen x) - 1 - n) = [--] ext ANTISYMMETRIC x n.
Proof.
  intros H. unfold ext. cbv zeta. set (N := zlen x) in *. pose proof (Z.div_mod n (2 * N) ltac:(lia)) as D. pose proof (Z.mod_pos_bound n (2 * N) ltac:(lia)) as B. set (r := n mod (2 * N)) in *. set (q := n / (2 * N)) in *.
  destruct (mod_split (2 * (c * N) - 1 - n) (2 * N) (c - q - 1) (2 * N - 1 - r) ltac:(lia) ltac:(lia)) as (-> & _).
  destruct (Z.ltb_spec (2 * N - 1 - r) N), (Z.ltb_spec r N); try lia.
  - split; [reflexivity|ring].
  - replace (2 * N - 1 - (2 * N - 1 - r)) with r by lia. split; reflexivity.
Qed.


Lemma in_bars m symw n b : In b (bars_of m symw n) -> exists rep, b = if symw then 4 * n + 2 * (rep * (n - 1)) else 4 * n - 1 + 2 * (rep * n).
Proof. unfold bars_of. intros H. apply in_map_iff in H. destruct H as (rep & <- & _). exists rep. reflexivity. Qed.
Theorem bars_symmetry x b : 2 <= zlen x ->
  (In b (bars_of REFLECT true (zlen x)) -> forall t, drawn REFLECT x (b - t) = drawn REFLECT x t) /\
  (In b (bars_of ANTIREFLECT true (zlen x)) -> b mod 2 = 0 /\ forall t, drawn ANTIREFLECT x (b - t) [+] drawn ANTIREFLECT x t = drawn ANTIREFLECT x (b / 2) [+] drawn ANTIREFLECT x (b / 2)).
Proof.
  intros H. unfold drawn. cbn [evened]. split; intros I; apply in_bars in I; destruct I as (rep & ->).
  - intros t. rewrite <- (ext_refl_at x rep) by exact H. f_equal. lia.
  - split; [lia|]. intros t.
    replace (4 * zlen x + 2 * (rep * (zlen x - 1)) - t - 2 * zlen x) with (2 * (rep * (zlen x - 1)) - (t - 2 * zlen x)) by lia.
    rewrite (ext_arefl_at x rep (t - 2 * zlen x)) by exact H.
    replace ((4 * zlen x + 2 * (rep * (zlen x - 1))) / 2 - 2 * zlen x) with (rep * (zlen x - 1)) by lia. reflexivity.
Qed.
Theorem bars_half x b : 1 <= zlen x -> In b (bars_of SYMMETRIC false (zlen x)) -> forall t,
  drawn SYMMETRIC x (b - t) = drawn SYMMETRIC x t /\ drawn ANTISYMMETRIC x (b - t) = [--] drawn ANTISYMMETRIC x t.
Proof.
  intros H I t. apply in_bars in I. destruct I as (rep & ->). unfold drawn. cbn [evened].
  replace (4 * zlen x - 1 + 2 * (rep * zlen x) - t - 2 * zlen x) with (2 * (rep * zlen x) - 1 - (t - 2 * zlen x)) by lia. apply ext_sym_at. exact H.
Qed.
(** Between two bars of the periodic modes there is one copy of the signal. *)
Theorem bars_copies x m k i : 1 <= zlen x -> m = PERIODIC \/ m = PERIODIZATION -> let e := evened m x in let n := zlen e in
  (k < 5)%nat -> 0 <= i < n -> let b := nth k (bars_of m false n) 0 in let b' := nth (S k) (bars_of m false n) 0 in
  b' = b + 2 * n /\ b mod 2 = 1 /\ drawn m x ((b + 1) / 2 + i) = gz e i.
Proof.
  intros H Hm e n Hk Hi b b'. assert (B : b = 4 * n - 1 + 2 * ((Z.of_nat k - 2) * n) /\ b' = b + 2 * n).
  { subst b b'. destruct Hm as [-> | ->]; unfold bars_of; do 5 (destruct k as [|k]; [cbn [nth map Z.of_nat Pos.of_succ_nat Pos.succ]; lia|]); lia. }
  destruct B as (B & B'). split; [exact B'|]. split; [lia|]. unfold drawn. fold e n.
  replace ((b + 1) / 2 + i - 2 * n) with ((Z.of_nat k - 2) * n + i) by lia.
  assert (M : ((Z.of_nat k - 2) * n + i) mod n = i) by (apply (mod_split _ n (Z.of_nat k - 2) i); lia).
  destruct Hm as [-> | ->].
  - unfold ext. fold n. rewrite M. reflexivity.
  - rewrite ext_per_even by (first [apply evened_even; reflexivity|fold n; lia]). fold n. rewrite M. reflexivity.
Qed.
(** In the other modes the bars enclose the red dots. *)
Theorem bars_enclose x m t : 1 <= zlen x -> m = SMOOTH \/ m = CONSTANT_EDGE \/ m = ZEROPAD -> let n := zlen x in
  (bars_of m false n = [4 * n - 1; 6 * n - 1] /\ (4 * n - 1 < 2 * t < 6 * n - 1 <-> 2 * n <= t < 3 * n)) /\
  (bars_of m true n = [4 * n; 6 * n - 2] /\ (4 * n <= 2 * t <= 6 * n - 2 <-> 2 * n <= t < 3 * n)).
Proof. intros H Hm n. destruct Hm as [-> |[-> | ->]]; unfold bars_of; cbn [map]; (split; split; [f_equal; [lia|f_equal; lia]|lia|f_equal; [lia|f_equal; lia]|lia]). Qed.

(** ** Together *)
Lemma picture_of fuel x m symw p : min_len m <= zlen x -> (m = SMOOTH -> 2 <= zlen x) -> 5 * zlen x + 9 < Z.of_nat fuel ->
  boundary_mode_subplot fuel x (mode_name m) symw = Ok p -> bars p = bars_of m symw (zlen (evened m x)).
Proof. intros H1 H2 H3 E. destruct (subplot_spec fuel x m symw H1 H2 H3) as (p' & E' & _ & _ & B). rewrite E in E'. injection E' as <-. exact B. Qed.
Theorem subplot_symmetry fuel x p b : 2 <= zlen x -> 5 * zlen x + 9 < Z.of_nat fuel -> In b (bars p) -> 
  (boundary_mode_subplot fuel x "reflect" true = Ok p -> forall t, drawn REFLECT x (b - t) = drawn REFLECT x t) /\
  (boundary_mode_subplot fuel x "antireflect" true = Ok p -> forall t, drawn ANTIREFLECT x (b - t) [+] drawn ANTIREFLECT x t = drawn ANTIREFLECT x (b / 2) [+] drawn ANTIREFLECT x (b / 2)) /\
  (boundary_mode_subplot fuel x "symmetric" false = Ok p -> forall t, drawn SYMMETRIC x (b - t) = drawn SYMMETRIC x t) /\
  (boundary_mode_subplot fuel x "antisymmetric" false = Ok p -> forall t, drawn ANTISYMMETRIC x (b - t) = [--] drawn ANTISYMMETRIC x t).
Proof.
  intros H F I. repeat split; intros E t.
  - apply (picture_of fuel x REFLECT) in E; [|exact H|discriminate|exact F]. rewrite E in I. apply (proj1 (bars_symmetry x b H)). exact I.
  - apply (picture_of fuel x ANTIREFLECT) in E; [|exact H|discriminate|exact F]. rewrite E in I. apply (proj2 (bars_symmetry x b H)). exact I.
  - apply (picture_of fuel x SYMMETRIC) in E; [|cbn; lia|discriminate|exact F]. rewrite E in I. apply (bars_half x b); [lia|exact I].
  - apply (picture_of fuel x ANTISYMMETRIC) in E; [|cbn; lia|discriminate|exact F]. rewrite E in I. apply (bars_half x b); [lia|exact I].
Qed.
Theorem subplot_copies fuel x m p k i : 1 <= zlen x -> m = PERIODIC \/ m = PERIODIZATION -> 5 * zlen x + 9 < Z.of_nat fuel ->
  boundary_mode_subplot fuel x (mode_name m) false = Ok p -> (k < 5)%nat -> 0 <= i < zlen (evened m x) ->
  let b := nth k (bars p) 0 in nth (S k) (bars p) 0 = b + 2 * zlen (evened m x) /\ b mod 2 = 1 /\ drawn m x ((b + 1) / 2 + i) = gz (evened m x) i.
Proof.
  intros H Hm F E Hk Hi. rewrite (picture_of fuel x m false p) by (try assumption; destruct Hm as [-> | ->]; (cbn; lia) || discriminate). apply bars_copies; assumption.
Qed.
Theorem subplot_enclose fuel x m symw p t : 1 <= zlen x -> m = SMOOTH \/ m = CONSTANT_EDGE \/ m = ZEROPAD -> (m = SMOOTH -> 2 <= zlen x) -> 5 * zlen x + 9 < Z.of_nat fuel ->
  boundary_mode_subplot fuel x (mode_name m) symw = Ok p -> exists b b', bars p = [b; b'] /\ (In t (map fst (red p)) <-> b <= 2 * t <= b').
Proof.
  intros H Hm S F E. assert (M : min_len m <= zlen x) by (destruct Hm as [-> |[-> | ->]]; cbn; lia).
  destruct (subplot_spec fuel x m symw M S F) as (p' & E' & _ & R & B). rewrite E in E'. injection E' as <-.
  assert (EV : evened m x = x) by (destruct Hm as [-> |[-> | ->]]; reflexivity). rewrite EV in R, B.
  replace (match m with PERIODIZATION => zlen x - 1 | _ => zlen x end) with (zlen x) in R by (destruct Hm as [-> |[-> | ->]]; reflexivity).
  assert (I : In t (map fst (red p)) <-> 2 * zlen x <= t < 3 * zlen x).
  { rewrite R. unfold tab. rewrite map_map, in_map_iff. cbn [fst]. split; [intros (k & <- & K); apply in_seq in K; lia|]. intros K. exists (Z.to_nat (t - 2 * zlen x)). rewrite in_seq. lia. }
  destruct (bars_enclose x m t H Hm) as ((B1 & I1) & B2 & I2). rewrite B. destruct symw; [rewrite B2|rewrite B1]; eexists _, _; (split; [reflexivity|rewrite I; lia]).
Qed.
End BPP.
