(** The keys of wavedec and wavedec2 are the leaves of a tree. *)
From Coq Require Import Ascii String QArith FinFun.
From Verif Require Import Base BaseLemmas Dwt Multidim DocUtils DocUtilsSpec DocUtilsProofs.
Open Scope list_scope. Open Scope Z_scope.

Definition one (c : ascii) : string := String c EmptyString.
(** The keys of the first [n] levels without the approximation. *)
Fixpoint dets (ds : list ascii) (n : nat) : list string :=
  match n with O => [] | S n => dets ds n ++ map (fun c => (as_ n ++ one c)%string) ds end.
Lemma app_assoc_s (a b c : string) : ((a ++ b) ++ c)%string = (a ++ (b ++ c))%string.
Proof. induction a; cbn; congruence. Qed.
Lemma length_app_s (a b : string) : String.length (a ++ b) = (String.length a + String.length b)%nat.
Proof. induction a; cbn; congruence. Qed.
Lemma length_as n : String.length (as_ n) = n.
Proof. induction n; cbn; congruence. Qed.
Lemma as_one n : (as_ n ++ one "a")%string = as_ (S n).
Proof. induction n as [|n IH]; [reflexivity|]. cbn [as_]. change (String "a" (as_ n ++ one "a") = String "a" (String "a" (as_ n))). rewrite IH. reflexivity. Qed.
Lemma app_inj_s (a b c : string) : (a ++ b)%string = (a ++ c)%string -> b = c.
Proof. induction a; cbn; auto. intros E. injection E as E. auto. Qed.
Lemma dets_length ds n k : In k (dets ds n) -> (String.length k <= n)%nat.
Proof.
  induction n as [|n IH]; cbn [dets]; [intros []|]. rewrite in_app_iff, in_map_iff. intros [H|(c & <- & _)]; [specialize (IH H); lia|].
  rewrite length_app_s, length_as. cbn. lia.
Qed.
Lemma dset_fresh {A} (d : dict A) k v : ~ In k (map fst d) -> dset d k v = d ++ [(k, v)].
Proof.
  induction d as [|(k', v') d IH]; cbn [dset map fst In app]; intros H; auto.
  destruct (String.eqb_spec k' k) as [E|E]; [tauto|]. rewrite IH by tauto. reflexivity.
Qed.
Lemma dpop_mid {A} (d1 d2 : dict A) k v : ~ In k (map fst d1) -> dpop (d1 ++ (k, v) :: d2) k = Ok (d1 ++ d2).
Proof.
  induction d1 as [|(k', v') d IH]; cbn [dpop map fst In app]; intros H.
  - rewrite String.eqb_refl. reflexivity.
  - destruct (String.eqb_spec k' k) as [E|E]; [tauto|]. rewrite IH by tauto. reflexivity.
Qed.
Definition units (l : list string) : dict unit := map (fun k => (k, tt)) l.
Lemma units_fst l : map fst (units l) = l.
Proof. unfold units. rewrite map_map. apply map_id. Qed.
Lemma add_letters p cs : forall l, NoDup cs -> (forall c, In c cs -> ~ In (p ++ one c)%string l) ->
  fold_left (fun c k => dset c (p ++ k)%string tt) (map one cs) (units l) = units (l ++ map (fun c => (p ++ one c)%string) cs).
Proof.
  induction cs as [|c cs IH]; intros l N H; cbn [map fold_left]; [rewrite app_nil_r; auto|]. inversion N as [|? ? N1 N2]; subst.
  rewrite dset_fresh by (rewrite units_fst; apply H; left; auto).
  replace (units l ++ [((p ++ one c)%string, tt)]) with (units (l ++ [(p ++ one c)%string])) by (unfold units; rewrite map_app; reflexivity).
  rewrite IH; auto.
  - rewrite <- app_assoc. reflexivity.
  - intros c' I. rewrite in_app_iff. intros [K|[K|[]]]; [revert K; apply H; right; auto|]. apply app_inj_s in K. injection K as K. congruence.
Qed.
Lemma keys_loop_S letters level n lev approx coeffs : keys_loop letters level (S n) lev approx coeffs =
  (coeffs <- (if lev <? level - 1 then dpop (fold_left (fun c k => dset c (approx ++ k)%string tt) letters coeffs) (as_ (Z.to_nat (lev + 1))) else Ok (fold_left (fun c k => dset c (approx ++ k)%string tt) letters coeffs)) ;;
   keys_loop letters level n (lev + 1) (as_ (Z.to_nat (lev + 1))) coeffs).
Proof. reflexivity. Qed.
(** The loop from level [lev] on. *)
Lemma keys_loop_eq ds : NoDup ("a"%char :: ds) -> forall n lev, keys_loop (map one ("a"%char :: ds)) (Z.of_nat lev + Z.of_nat (S n)) (S n) (Z.of_nat lev) (as_ lev) (units (dets ds lev)) =
  Ok (units (dets ds (lev + n) ++ as_ (S (lev + n)) :: map (fun c => (as_ (lev + n) ++ one c)%string) ds)).
Proof.
  intros N. assert (NA : forall l, ~ In (as_ (S l)) (dets ds l)) by (intros l I; apply dets_length in I; rewrite length_as in I; lia).
  induction n as [|n IH]; intros lev; rewrite keys_loop_S.
  - rewrite add_letters; auto.
    2: { intros c _ I. apply dets_length in I. rewrite length_app_s, length_as in I. cbn in I. lia. }
    destruct (Z.ltb_spec (Z.of_nat lev) (Z.of_nat lev + Z.of_nat 1 - 1)); [lia|]. cbn [bind]. rewrite Nat.add_0_r. f_equal. f_equal. cbn [map]. rewrite as_one. reflexivity.
  - rewrite add_letters; auto.
    2: { intros c _ I. apply dets_length in I. rewrite length_app_s, length_as in I. cbn in I. lia. }
    destruct (Z.ltb_spec (Z.of_nat lev) (Z.of_nat lev + Z.of_nat (S (S n)) - 1)); [|lia].
    replace (Z.to_nat (Z.of_nat lev + 1)) with (S lev) by lia. cbn [map]. rewrite as_one.
    replace (units (dets ds lev ++ as_ (S lev) :: map (fun c => (as_ lev ++ one c)%string) ds))
      with (units (dets ds lev) ++ (as_ (S lev), tt) :: units (map (fun c => (as_ lev ++ one c)%string) ds)) by (unfold units; rewrite map_app; reflexivity).
    rewrite dpop_mid by (rewrite units_fst; apply NA). cbn [bind].
    replace (units (dets ds lev) ++ units (map (fun c => (as_ lev ++ one c)%string) ds)) with (units (dets ds (S lev))) by (unfold units; cbn [dets]; rewrite map_app; reflexivity).
    replace (Z.of_nat lev + 1) with (Z.of_nat (S lev)) by lia. replace (Z.of_nat lev + Z.of_nat (S (S n))) with (Z.of_nat (S lev) + Z.of_nat (S n)) by lia.
    change (one "a" :: map one ds) with (map one ("a"%char :: ds)).
    rewrite (IH (S lev)). replace (S lev + n)%nat with (lev + S n)%nat by lia. reflexivity.
Qed.
Definition keys_of (ds : list ascii) (n : nat) : list string := dets ds n ++ as_ (S n) :: map (fun c => (as_ n ++ one c)%string) ds.
Lemma keys_loop_all ds n : NoDup ("a"%char :: ds) -> keys_loop (map one ("a"%char :: ds)) (Z.of_nat (S n)) (S n) 0 EmptyString [] = Ok (units (keys_of ds n)).
Proof. intros N. exact (keys_loop_eq ds N n 0). Qed.
Lemma wavedec_keys_eq n : wavedec_keys (Z.of_nat (S n)) = Ok (keys_of ["d"]%char n).
Proof.
  unfold wavedec_keys. rewrite Nat2Z.id. change ["a"; "d"]%string with (map one ["a"; "d"]%char). rewrite keys_loop_all; [cbn [bind]; rewrite units_fst; reflexivity|].
  repeat constructor; cbn; intuition discriminate.
Qed.
Lemma wavedec2_keys_eq n : wavedec2_keys (Z.of_nat (S n)) = Ok (keys_of ["h"; "v"; "d"]%char n).
Proof.
  unfold wavedec2_keys. rewrite Nat2Z.id. change ["a"; "h"; "v"; "d"]%string with (map one ["a"; "h"; "v"; "d"]%char). rewrite keys_loop_all; [cbn [bind]; rewrite units_fst; reflexivity|].
  repeat constructor; cbn; intuition discriminate.
Qed.
(** One level more: the details of the first level, and the rest below "a". *)
Lemma dets_S ds n : dets ds (S n) = map one ds ++ map (String "a") (dets ds n).
Proof.
  induction n as [|n IH]; [cbn [dets map as_]; rewrite app_nil_r; reflexivity|].
  change (dets ds (S (S n))) with (dets ds (S n) ++ map (fun c => (as_ (S n) ++ one c)%string) ds). rewrite IH at 1. cbn [dets]. rewrite map_app, <- app_assoc. f_equal. f_equal.
  rewrite map_map. reflexivity.
Qed.
Lemma keys_of_S ds n : keys_of ds (S n) = map one ds ++ map (String "a") (keys_of ds n).
Proof. unfold keys_of. rewrite dets_S, map_app, <- app_assoc. cbn [map]. rewrite map_map. reflexivity. Qed.
Lemma prefix_one c w c' : String.prefix (one c) (String c' w) = true <-> c = c'.
Proof. unfold one. rewrite prefix_cons, prefix_nil. tauto. Qed.
Lemma leaves_keys ds : NoDup ("a"%char :: ds) -> forall n, leaves ("a"%char :: ds) (S n) (keys_of ds n).
Proof.
  intros N. assert (NM : NoDup (map one ("a"%char :: ds))).
  { apply FinFun.Injective_map_NoDup; auto. intros x y E. injection E as E. auto. }
  induction n as [|n (IH1 & IH2)].
  - split.
    + intros k I. change (keys_of ds 0) with (map one ("a"%char :: ds)) in I. apply in_map_iff in I. destruct I as (c & <- & I). split; [split; [exact I|exact Logic.I]|cbn; lia].
    + intros w Ho Hl. destruct w as [|c [|c' w]]; try discriminate. destruct Ho as (Hc & _). change (keys_of ds 0) with (map one ("a"%char :: ds)).
      apply (only_ext (fun y => y = one c)).
      * intros x I. apply in_map_iff in I. destruct I as (c' & <- & I). rewrite prefix_one. unfold one. split; congruence.
      * apply only_eq; auto. apply in_map. auto.
  - rewrite keys_of_S. split.
    + intros k. rewrite in_app_iff, !in_map_iff. intros [(c & <- & I)|(k' & <- & I)]; [split; [split; [right; exact I|exact Logic.I]|cbn; lia]|].
      destruct (IH1 k' I) as (A & B). cbn [over String.length]. split; [|lia]. split; [left; auto|auto].
    + intros w Ho Hl. destruct w as [|c w]; [discriminate|]. destruct Ho as (Hc & Ho). injection Hl as Hl.
      assert (NA : ~ In "a"%char ds) by (inversion N; auto).
      destruct (ascii_dec c "a") as [->|Nc].
      * apply only_app_r.
        -- intros x I. apply in_map_iff in I. destruct I as (c & <- & I). rewrite prefix_one. intros ->. tauto.
        -- apply only_map. apply (only_ext (fun k => String.prefix k w = true)); [|apply IH2; auto]. intros x _. rewrite prefix_cons. tauto.
      * apply only_app_l.
        -- apply (only_ext (fun y => y = one c)).
           ++ intros x I. apply in_map_iff in I. destruct I as (c' & <- & I). rewrite prefix_one. unfold one. split; congruence.
           ++ apply only_eq; [inversion NM; auto|]. apply in_map. destruct Hc as [E|E]; [congruence|auto].
        -- intros x I. apply in_map_iff in I. destruct I as (k & <- & I). rewrite prefix_cons. intros (E & _). congruence.
Qed.
Lemma nodup1 : NoDup ["a"; "d"]%char. Proof. repeat constructor; cbn; intuition discriminate. Qed.
Lemma nodup2 : NoDup ["a"; "h"; "v"; "d"]%char. Proof. repeat constructor; cbn; intuition discriminate. Qed.

Theorem wavedec_keys_leaves level : 1 <= level -> exists ks, wavedec_keys level = Ok ks /\ leaves ["a"; "d"]%char (Z.to_nat level) ks /\ zlen ks = level + 1.
Proof.
  intros H. destruct (Z.to_nat level) as [|n] eqn:E; [lia|]. replace level with (Z.of_nat (S n)) by lia. eexists. split; [apply wavedec_keys_eq|].
  split; [apply (leaves_keys ["d"]%char nodup1)|].
  assert (L : forall m, List.length (dets ["d"]%char m) = m) by (induction m; cbn [dets]; rewrite ?app_length; cbn; lia).
  unfold keys_of, zlen. rewrite app_length, L. cbn [List.length map]. lia.
Qed.
Theorem wavedec2_keys_leaves level : 1 <= level -> exists ks, wavedec2_keys level = Ok ks /\ leaves ["a"; "h"; "v"; "d"]%char (Z.to_nat level) ks /\ zlen ks = 3 * level + 1.
Proof.
  intros H. destruct (Z.to_nat level) as [|n] eqn:E; [lia|]. replace level with (Z.of_nat (S n)) by lia. eexists. split; [apply wavedec2_keys_eq|].
  split; [apply (leaves_keys ["h"; "v"; "d"]%char nodup2)|].
  assert (L : forall m, List.length (dets ["h"; "v"; "d"]%char m) = (3 * m)%nat) by (induction m; cbn [dets]; rewrite ?app_length; cbn [List.length map]; lia).
  unfold keys_of, zlen. rewrite app_length, L. cbn [List.length map]. lia.
Qed.
Theorem wavedec2_tiling level s0 s1 : 1 <= level -> (2 ^ level | s0) -> (2 ^ level | s1) -> 0 <= s0 -> 0 <= s1 ->
  exists ks bs c, wavedec2_keys level = Ok ks /\ wp_basis_coords (s0, s1) ks = Ok (bs, c) /\ zlen bs = 3 * level + 1 /\ tiling s0 s1 bs.
Proof.
  intros H D0 D1 P0 P1. destruct (wavedec2_keys_leaves level H) as (ks & E & HL & Hz).
  destruct (wp_tiling (Z.to_nat level) ks s0 s1 HL) as (bs & c & Eb & Lb & T & _); rewrite ?Z2Nat.id by lia; auto.
  exists ks, bs, c. unfold zlen in *. rewrite Lb. auto.
Qed.
Theorem fsw_tiling levels s0 s1 : 1 <= levels -> (2 ^ levels | s0) -> (2 ^ levels | s1) -> 0 <= s0 -> 0 <= s1 ->
  exists ks bs c, wavedec_keys levels = Ok ks /\ fswavedecn_coords (s0, s1) levels = Ok (bs, c) /\ zlen bs = (levels + 1) ^ 2 /\ tiling s0 s1 bs /\
    map fst c = list_prod ks ks /\ Forall2 (fun b '(_, p) => midpoint b p) bs c.
Proof.
  intros H D0 D1 P0 P1. destruct (wavedec_keys_leaves levels H) as (ks & E & HL & Hz). unfold fswavedecn_coords. rewrite E. cbn [bind fst snd].
  exists ks. rewrite fsw_loop_eq.
  2: { intros (k, k') I. apply in_prod_iff in I. destruct I as (I & I'). destruct HL as (Hk & _). destruct (Hk k I) as (_ & A). destruct (Hk k' I') as (_ & A').
    cbn [fst snd]. split; intros ->; cbn in *; lia. }
  eexists. eexists. split; [reflexivity|]. split; [reflexivity|]. cbn [fst snd app]. split; [|split; [|split]].
  - unfold zlen in *. rewrite map_length, prod_length. rewrite Nat2Z.inj_mul, Hz. ring.
  - apply (fsw_tiling_keys (Z.to_nat levels)); rewrite ?Z2Nat.id by lia; auto.
  - rewrite map_map. apply map_id.
  - generalize (list_prod ks ks). intros l. induction l as [|k l IH]; cbn [map]; constructor; auto. unfold midpoint, fbox, fmid. cbn [fst snd].
    destruct (box_ends (off bd s0 (fst k)) (off bd s1 (snd k)) (wid s0 (fst k)) (wid s1 (snd k))) as (-> & -> & -> & ->); try (apply wid_ge0; auto).
    unfold Zminus. rewrite !inject_Z_plus, !inject_Z_opp. split; field.
Qed.
(** Without levels there is nothing to draw, although the transform has one part. *)
Theorem no_levels level : level <= 0 -> wavedec_keys level = Ok [] /\ wavedec2_keys level = Ok [] /\ forall shape, fswavedecn_coords shape level = Ok ([], []).
Proof.
  intros H. assert (E : Z.to_nat level = 0%nat) by lia. unfold fswavedecn_coords, wavedec_keys, wavedec2_keys. rewrite E. auto.
Qed.
(** Sizes that are not divisible leave gaps. *)
Theorem gaps : exists s0 s1 ks bs c i j, wavedec2_keys 1 = Ok ks /\ wp_basis_coords (s0, s1) ks = Ok (bs, c) /\ 0 <= i < s0 /\ 0 <= j < s1 /\ forall b, In b bs -> ~ holds i j b.
Proof.
  exists 3, 3. eexists. eexists. eexists. exists 2, 0. split; [vm_compute; reflexivity|]. split; [vm_compute; reflexivity|]. split; [lia|]. split; [lia|].
  intros b [<-|[<-|[<-|[<-|[]]]]] (H & _); unfold lo, hi in H; cbn in H; lia.
Qed.
(** The key of the root. *)
Theorem root_first shape keys : wp_basis_coords shape (EmptyString :: keys) = Err UnboundLocalError.
Proof. reflexivity. Qed.
Theorem root_later : exists bs c b, wp_basis_coords (4, 4) ["aa"; ""]%string = Ok (bs, c) /\ nth_error bs 1 = Some b /\ dget c "" = Some (0, 0) /\ ~ holds 2 2 b.
Proof.
  do 3 eexists. split; [vm_compute; reflexivity|]. split; [reflexivity|]. split; [reflexivity|]. intros (H & _). unfold lo, hi in H. cbn in H. lia.
Qed.
