(** Inner products of wavelet packets: the leaves of any complete tree. *)
From Coq Require Import Permutation String Ascii.
From Verif Require Import Base BaseLemmas CConv Spec ExtLemmas Lengths LengthsProofs Dwt DwtProofs PR Multilevel MultilevelProofs Swt Nd NdSpec NdLinear Axis AxisProofs AxisProofs2 Multidim MultidimProofs MultidimFacts MultilevelNd MultilevelNdProofs MultilevelNdFacts SwtNd SwtNdArgs Facts1 CyclicMain CyclicNd ParsevalNd.
From Verif Require Import Packets PacketsInv PacketsPath PacketsRead PacketsSpec PacketsLevel PacketsClasses PacketsFacts PacketsFacts2 PacketsRebuild PacketsRebuild2.
Open Scope list_scope. Open Scope Z_scope.

(** Reading the node with path [s] under the root gives the data [d]. *)
Definition node_data {D} (K : wpclass D) (h : list (node D)) (s : string) (d : D) : Prop :=
  exists h' c x, getitem K 0 s h = (h', Ok c) /\ nth_error h' c = Some x /\ npath x = s /\ ndat x = Some d.

Section E.
Variable C : CRing.
Add Ring Cring_ring_pe : (rth C).
Notation ndinner := (ndinner C).
Notation lsum := (lsum C).

Lemma lsum_flat {A} (f : A -> list C) l : lsum (flat_map f l) = lsum (map (fun a => lsum (f a)) l).
Proof. induction l as [|a l IH]; [reflexivity|]. cbn [flat_map map]. rewrite lsum_app, IH. reflexivity. Qed.

Lemma map_flat {A B E} (f : B -> E) (g : A -> list B) l : map f (flat_map g l) = flat_map (fun a => map f (g a)) l.
Proof. induction l as [|a l IH]; [reflexivity|]. cbn [flat_map]. rewrite map_app, IH. reflexivity. Qed.
Lemma tree_inner ps (at1 at2 band1 band2 : string -> nd C -> nd C) (G : nat -> nd C -> nd C -> Prop) :
  (forall d, at1 EmptyString d = d) -> (forall d, at2 EmptyString d = d) ->
  (forall p s d, In p ps -> at1 (append p s) d = at1 s (band1 p d)) -> (forall p s d, In p ps -> at2 (append p s) d = at2 s (band2 p d)) ->
  (forall k x y, G (S k) x y -> lsum (map (fun p => ndinner (band1 p x) (band2 p y)) ps) = ndinner x y /\ forall p, In p ps -> G k (band1 p x) (band2 p y)) ->
  forall T k x y, depth_le ps T k -> G k x y -> lsum (map (fun s => ndinner (at1 s x) (at2 s y)) (leaf_paths ps T)) = ndinner x y.
Proof.
  intros E1 E2 A1 A2 Hs. induction T as [|sub IH]; intros k x y Hd HG.
  - cbn [leaf_paths map]. rewrite E1, E2. change (ndinner x y [+] r0 = ndinner x y). ring.
  - destruct k as [|k]; [destruct Hd|]. destruct (Hs k x y HG) as (S1 & S2). cbn [leaf_paths depth_le] in *.
    rewrite <- S1. rewrite map_flat, lsum_flat. f_equal. apply map_ext_in. intros p Hp. rewrite map_map.
    rewrite <- (IH p k (band1 p x) (band2 p y) (Hd p Hp) (S2 p Hp)). f_equal. apply map_ext. intros s. rewrite A1, A2 by auto. reflexivity.
Qed.

(** Data of two packets that can be halved [k] times along the axes. *)
Definition halves (axs : list nat) (k : nat) (x y : nd C) : Prop :=
  nd_wf x /\ nd_wf y /\ nshape y = nshape x /\ forall a, In a axs -> (a < List.length (nshape x))%nat /\ 1 <= nthz a (nshape x) /\ (2 ^ Z.of_nat k | nthz a (nshape x)).
Lemma halves_step axs k x y w w' a : halves axs (S k) x y -> In a axs -> dual C w w' ->
  dual_step C (nshape x) (a, (w, PERIODIZATION)) (a, (w', PERIODIZATION)).
Proof.
  intros (_ & _ & _ & H) Ha Hd. destruct (H a Ha) as (H1 & H2 & (q & Hq)). rewrite Nat2Z.inj_succ, Z.pow_succ_r in Hq by lia.
  assert (0 < 2 ^ Z.of_nat k) by (apply Z.pow_pos_nonneg; lia). unfold dual_step. cbn [st_ax st_w st_m fst snd].
  assert (E : nthz a (nshape x) = (q * 2 ^ Z.of_nat k) * 2) by lia.
  repeat split; auto; try apply Hd; [nia|]. rewrite E. apply Z_mod_mult.
Qed.
Lemma dax_len a h (x : nd C) : nshape (dax a PERIODIZATION h x) = setn a ((nthz a (nshape x) + 1) / 2) (nshape x).
Proof. unfold dax. rewrite along_shape. reflexivity. Qed.
Lemma dax_wf_per a h (x : nd C) : nd_wf x -> 1 <= nthz a (nshape x) -> nd_wf (dax a PERIODIZATION h x).
Proof. intros. apply dax_wf; auto. cbn [coeff_len]. lia. Qed.

(** One axis. *)
Lemma halves_one ax k x y h h' : halves [ax] (S k) x y -> halves [ax] k (dax ax PERIODIZATION h x) (dax ax PERIODIZATION h' y).
Proof.
  intros (W1 & W2 & HS & H). destruct (H ax (or_introl eq_refl)) as (H1 & H2 & (q & Hq)). rewrite Nat2Z.inj_succ, Z.pow_succ_r in Hq by lia.
  assert (0 < 2 ^ Z.of_nat k) by (apply Z.pow_pos_nonneg; lia). assert (E : (nthz ax (nshape x) + 1) / 2 = q * 2 ^ Z.of_nat k) by lia.
  split; [apply dax_wf_per; auto|]. split; [apply dax_wf_per; auto; rewrite HS; auto|]. rewrite !dax_len, HS. split; auto.
  intros a [<-|[]]. rewrite setn_length, nthz_setn by auto. rewrite E. split; auto. split; [nia|exists q; reflexivity].
Qed.
Theorem packet_tree_inner ax w w' T k (x y : nd C) : dual C w w' -> halves [ax] k x y -> depth_le ["a"; "d"]%string T k ->
  lsum (map (fun s => ndinner (packet_data ax PERIODIZATION w s x) (packet_data ax PERIODIZATION w' s y)) (leaf_paths ["a"; "d"]%string T)) = ndinner x y.
Proof.
  intros Hd HG HT.
  apply (tree_inner ["a"; "d"]%string (packet_data ax PERIODIZATION w) (packet_data ax PERIODIZATION w') (packet_data ax PERIODIZATION w) (packet_data ax PERIODIZATION w') (halves [ax])) with (k := k); auto;
    try (intros; apply packet_data_app).
  clear k x y HG HT. intros k x y HG. pose proof (halves_step [ax] k x y w w' ax HG (or_introl eq_refl) Hd) as Hs. pose proof HG as (W1 & W2 & HS & _). split.
  - pose proof (dax_inner C 0 (ax, (w, PERIODIZATION)) (ax, (w', PERIODIZATION)) x y Hs W1 W2 HS) as K. cbn [st_ax st_w st_m fst snd] in K. rewrite <- K.
    cbn [map packet_data Ascii.eqb Bool.eqb]. match goal with |- lsum [?a; ?b] = _ => change (a [+] (b [+] r0) = a [+] b) end. ring.
  - intros p [<-|[<-|[]]]; cbn [packet_data Ascii.eqb Bool.eqb]; apply halves_one; auto.
Qed.

(** Two axes. *)
Lemma halves_two a b k x y f g f' g' : a <> b -> halves [a; b] (S k) x y ->
  halves [a; b] k (dax b PERIODIZATION g (dax a PERIODIZATION f x)) (dax b PERIODIZATION g' (dax a PERIODIZATION f' y)).
Proof.
  intros Hab (W1 & W2 & HS & H). destruct (H a (or_introl eq_refl)) as (H1 & H2 & (q & Hq)). destruct (H b (or_intror (or_introl eq_refl))) as (K1 & K2 & (r & Hr)). rewrite Nat2Z.inj_succ, Z.pow_succ_r in Hq, Hr by lia.
  assert (0 < 2 ^ Z.of_nat k) by (apply Z.pow_pos_nonneg; lia). assert (E : (nthz a (nshape x) + 1) / 2 = q * 2 ^ Z.of_nat k) by lia. assert (F : (nthz b (nshape x) + 1) / 2 = r * 2 ^ Z.of_nat k) by lia.
  assert (Nb : nthz b (setn a (q * 2 ^ Z.of_nat k) (nshape x)) = nthz b (nshape x)) by (apply nthz_setn_ne; auto).
  split; [apply dax_wf_per; [apply dax_wf_per; auto|rewrite dax_len, E, Nb; auto]|].
  split; [apply dax_wf_per; [apply dax_wf_per; auto; rewrite HS; auto|rewrite dax_len, HS, E, Nb; auto]|].
  rewrite !dax_len, HS. split; auto. rewrite E, Nb, F. intros c Hc. rewrite !setn_length.
  destruct Hc as [<-|[<-|[]]]; [rewrite nthz_setn_ne, nthz_setn by auto|rewrite nthz_setn by (rewrite setn_length; auto)]; (split; [auto|split; [nia|]]); [exists q|exists r]; reflexivity.
Qed.
Theorem packet2_tree_inner a b w w' T k (x y : nd C) : a <> b -> dual C w w' -> halves [a; b] k x y -> depth_le ["a"; "h"; "v"; "d"]%string T k ->
  lsum (map (fun s => ndinner (packet_data2 a b PERIODIZATION w s x) (packet_data2 a b PERIODIZATION w' s y)) (leaf_paths ["a"; "h"; "v"; "d"]%string T)) = ndinner x y.
Proof.
  intros Hab Hd HG HT. pose (P := packet_data2 (C := C) a b PERIODIZATION).
  apply (tree_inner ["a"; "h"; "v"; "d"]%string (P w) (P w') (P w) (P w') (halves [a; b])) with (k := k); auto;
    try (intros; apply packet_data2_app).
  clear k x y HG HT. intros k x y HG. pose proof (halves_step [a; b] k x y w w' a HG (or_introl eq_refl) Hd) as Hs. pose proof (halves_step [a; b] k x y w w' b HG (or_intror (or_introl eq_refl)) Hd) as Hb.
  pose proof HG as (W1 & W2 & HS & H). destruct (H a (or_introl eq_refl)) as (H1 & H2 & _). split.
  - pose proof (dax_inner C 0 (a, (w, PERIODIZATION)) (a, (w', PERIODIZATION)) x y Hs W1 W2 HS) as K. cbn [st_ax st_w st_m fst snd] in K. rewrite <- K.
    assert (G : forall f f', let X := dax a PERIODIZATION f x in let Y := dax a PERIODIZATION f' y in
      ndinner (dax b PERIODIZATION (dec_lo w) X) (dax b PERIODIZATION (dec_lo w') Y) [+] ndinner (dax b PERIODIZATION (dec_hi w) X) (dax b PERIODIZATION (dec_hi w') Y) = ndinner X Y).
    { intros f f' X Y. apply (dax_inner C 0 (b, (w, PERIODIZATION)) (b, (w', PERIODIZATION)) X Y).
      - unfold dual_step in *. cbn [st_ax st_w st_m fst snd] in *. unfold X. rewrite dax_len, setn_length, nthz_setn_ne by auto. exact Hb.
      - apply dax_wf_per; auto.
      - apply dax_wf_per; auto. rewrite HS. auto.
      - unfold X, Y. rewrite !dax_len, HS. reflexivity. }
    cbn zeta in G. rewrite <- (G (dec_lo w) (dec_lo w')), <- (G (dec_hi w) (dec_hi w')).
    unfold P. cbn [map packet_data2 Ascii.eqb Bool.eqb orb]. match goal with |- lsum [?a; ?b; ?c; ?d] = _ => change (lsum [a; b; c; d]) with (a [+] (b [+] (c [+] (d [+] r0)))) end. ring.
  - unfold P. intros p [<-|[<-|[<-|[<-|[]]]]]; cbn [packet_data2 Ascii.eqb Bool.eqb orb]; apply halves_two; auto.
Qed.

(** The objects. *)
Variable fuel : nat.
Variable junk : Z -> C.
Lemma leaf_over T : forall k s, depth_le ["a"; "d"]%string T k -> In s (leaf_paths ["a"; "d"]%string T) -> over "a" "d" s /\ (String.length s <= k)%nat.
Proof.
  induction T as [|sub IH]; intros k s Hd Hs; cbn [leaf_paths depth_le] in *; [destruct Hs as [<-|[]]; cbn; split; auto; lia|]. destruct k as [|k]; [destruct Hd|].
  apply in_flat_map in Hs. destruct Hs as (p & Hp & Hs). apply in_map_iff in Hs. destruct Hs as (t & <- & Ht). destruct (IH p k t (Hd p Hp) Ht) as (A & B).
  destruct Hp as [<-|[<-|[]]]; cbn [append over String.length]; (split; [split; auto|lia]).
Qed.
Lemma leaf_over4 T : forall k s, depth_le ["a"; "h"; "v"; "d"]%string T k -> In s (leaf_paths ["a"; "h"; "v"; "d"]%string T) -> over4 s /\ (String.length s <= k)%nat.
Proof.
  induction T as [|sub IH]; intros k s Hd Hs; cbn [leaf_paths depth_le] in *; [destruct Hs as [<-|[]]; cbn; split; auto; lia|]. destruct k as [|k]; [destruct Hd|].
  apply in_flat_map in Hs. destruct Hs as (p & Hp & Hs). apply in_map_iff in Hs. destruct Hs as (t & <- & Ht). destruct (IH p k t (Hd p Hp) Ht) as (A & B).
  destruct Hp as [<-|[<-|[<-|[<-|[]]]]]; cbn [append over4 String.length]; (split; [split; auto|lia]).
Qed.

(** [x] and [y] in two packets of the same shape; any complete tree [T] of
    depth at most [M]. *)
Theorem packet1_inner (x y : nd C) w M axis (ax : nat) hx hy opsx opsy T :
  let K := wp1 fuel junk w PERIODIZATION (Z.of_nat ax) in let n := nthz ax (nshape x) in
  orthonormal w -> nd_wf x -> nd_wf y -> nshape y = nshape x -> zlen (nshape x) <= 64 -> 0 <= M -> 1 <= n -> (2 ^ M | n) ->
  packet1 fuel junk (Some x) w (Some M) axis = Ok (Z.of_nat ax, hx) -> packet1 fuel junk (Some y) w (Some M) axis = Ok (Z.of_nat ax, hy) ->
  resources fuel n (dec_len w) -> prodZ (setn ax (2 * Z.max n (dec_len w)) (nshape x)) < max_alloc ->
  forallb analysing opsx = true -> forallb analysing opsy = true -> depth_le ["a"; "d"]%string T (Z.to_nat M) ->
  exists X Y, (forall s, In s (leaf_paths ["a"; "d"]%string T) -> node_data K (run K hx opsx) s (X s) /\ node_data K (run K hy opsy) s (Y s)) /\
    lsum (map (fun s => ndinner (X s) (Y s)) (leaf_paths ["a"; "d"]%string T)) = ndinner x y.
Proof.
  intros K n Ho Wx Wy HS H64 HM Hn Hdiv Ex Ey Hr Hb Ox Oy HT. pose proof Ho as (Hpr & _). pose proof (pr_wf w Hpr) as Hw. pose proof Hw as (_ & _ & _ & _ & W5).
  assert (Hax : (ax < List.length (nshape x))%nat).
  { destruct (Nat.lt_ge_cases ax (List.length (nshape x))) as [H|H]; auto. unfold n, nthz in Hn. rewrite nth_overflow in Hn by auto. lia. }
  assert (Hlv : forall M', Some M = Some M' -> 0 <= M' /\ levels_ok PERIODIZATION (dec_len w) (Z.to_nat M') n) by (intros M' E; injection E as <-; split; auto; apply levels_ok_intro; auto).
  exists (fun s => packet_data ax PERIODIZATION w s x), (fun s => packet_data ax PERIODIZATION w s y). split.
  - intros s Hs. destruct (leaf_over T _ s HT Hs) as (Hov & Hl).
    destruct (packet1_spec C fuel junk x w PERIODIZATION (Some M) axis ax hx opsx Hpr Wx H64 Ex Hlv Hr Hb Ox) as (_ & _ & Nx).
    destruct (packet1_spec C fuel junk y w PERIODIZATION (Some M) axis ax hy opsy Hpr Wy) as (_ & _ & Ny); rewrite ?HS; auto.
    destruct (Nx s Hov ltac:(lia)) as (h1 & c1 & z1 & A1 & A2 & A3 & _ & A4). destruct (Ny s Hov ltac:(lia)) as (h2 & c2 & z2 & B1 & B2 & B3 & _ & B4).
    split; [exists h1, c1, z1|exists h2, c2, z2]; auto.
  - apply (packet_tree_inner ax w w T (Z.to_nat M)); auto; [apply orthonormal_dual; auto|].
    split; auto. split; auto. split; auto. intros a [<-|[]]. rewrite Z2Nat.id by lia. auto.
Qed.
Theorem packet2_inner (x y : nd C) w M axes1 axes2 s1 s2 B hx hy opsx opsy T :
  let K := wp2 fuel junk w PERIODIZATION [axes1; axes2] in
  orthonormal w -> nd_wf x -> nd_wf y -> nshape y = nshape x -> zlen (nshape x) <= 64 -> 0 <= M ->
  packet2 fuel junk (Some x) w (Some M) [axes1; axes2] = Ok hx -> packet2 fuel junk (Some y) w (Some M) [axes1; axes2] = Ok hy ->
  resolves C (zlen (nshape x)) (One w) (One PERIODIZATION) [axes1; axes2] [s1; s2] -> plan_good C fuel B (nshape x) [s1; s2] ->
  (forall s, In s [s1; s2] -> 1 <= nthz (st_ax C s) (nshape x) /\ (2 ^ M | nthz (st_ax C s) (nshape x))) ->
  forallb analysing opsx = true -> forallb analysing opsy = true -> depth_le ["a"; "h"; "v"; "d"]%string T (Z.to_nat M) ->
  exists X Y, (forall s, In s (leaf_paths ["a"; "h"; "v"; "d"]%string T) -> node_data K (run K hx opsx) s (X s) /\ node_data K (run K hy opsy) s (Y s)) /\
    lsum (map (fun s => ndinner (X s) (Y s)) (leaf_paths ["a"; "h"; "v"; "d"]%string T)) = ndinner x y.
Proof.
  intros K Ho Wx Wy HS H64 HM Ex Ey Hres Hpg Hdv Ox Oy HT. pose proof Ho as (Hpr & _). pose proof (pr_wf w Hpr) as Hw. pose proof Hw as (_ & _ & _ & _ & W5).
  assert (Hlv : forall l, Some M = Some l -> 0 <= l /\ forall s, In s [s1; s2] -> levels_ok PERIODIZATION (dec_len w) (Z.to_nat l) (nthz (st_ax C s) (nshape x))).
  { intros M' E; injection E as <-; split; auto. intros s Hs. destruct (Hdv s Hs). apply levels_ok_intro; auto. }
  set (P := packet_data2 (C := C) (st_ax C s1) (st_ax C s2) PERIODIZATION w). exists (fun s => P s x), (fun s => P s y). split.
  - intros s Hs. destruct (leaf_over4 T _ s HT Hs) as (Hov & Hl).
    destruct (packet2_spec C fuel junk x w PERIODIZATION (Some M) axes1 axes2 s1 s2 B hx opsx Hpr Wx H64 Ex Hres Hpg Hlv Ox) as (M1 & E1 & _ & _ & Nx).
    destruct (packet2_spec C fuel junk y w PERIODIZATION (Some M) axes1 axes2 s1 s2 B hy opsy Hpr Wy) as (M2 & E2 & _ & _ & Ny); rewrite ?HS; auto.
    specialize (E1 M eq_refl). specialize (E2 M eq_refl). subst M1 M2.
    destruct (Nx s Hov ltac:(lia)) as (h1 & c1 & z1 & A1 & A2 & A3 & _ & A4). destruct (Ny s Hov ltac:(lia)) as (h2 & c2 & z2 & B1 & B2 & B3 & _ & B4).
    split; [exists h1, c1, z1|exists h2, c2, z2]; auto.
  - destruct Hpg as (_ & _ & _ & _ & Hnd & Hst). apply (packet2_tree_inner (st_ax C s1) (st_ax C s2) w w T (Z.to_nat M)); auto.
    + intros E. cbn [map] in Hnd. inversion Hnd as [|? ? Hni _]. apply Hni. left; auto.
    + apply orthonormal_dual; auto.
    + split; auto. split; auto. split; auto. rewrite Z2Nat.id by lia. destruct (Hst s1 ltac:(cbn; auto)) as ((P1 & _) & _). destruct (Hst s2 ltac:(cbn; auto)) as ((P2 & _) & _). intros a [<-|[<-|[]]]; (split; [auto|apply Hdv; cbn; auto]).
Qed.
End E.
