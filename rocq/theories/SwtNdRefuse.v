(** What the inverse n-dimensional stationary transform refuses. *)
From Coq Require Import List Ascii String.
From Verif Require Import Base BaseLemmas CConv Spec Lengths Dwt Nd NdSpec Axis Multidim MultidimProofs MultidimFacts MultilevelNd MultilevelNdProofs Swt SwtNd.
Import ListNotations.
Open Scope list_scope. Open Scope Z_scope.

(** [n] is the length of the longest key. *)
Definition longest {A} (d : dict A) (n : nat) : Prop :=
  (exists k v, In (k, v) d /\ String.length k = n) /\ forall k v, In (k, v) d -> (String.length k <= n)%nat.
(** Two entries have different shapes, or there is none. *)
Definition uneven {C} (d : dict (sarr C)) : Prop := d = [] \/ exists k v k' v', In (k, v) d /\ In (k', v') d /\ sshape v <> sshape v'.
(** The letter a, [n] times. *)
Definition a_times (n : nat) (k : string) : Prop := String.length k = n /\ forall c, In c (list_ascii_of_string k) -> c = "a"%char.
(** The axes counted from the front. *)
Definition front_axes (n : Z) (axes : option (list Z)) (l : list Z) : Prop :=
  match axes with
  | Some a => Forall2 (fun x y => y = if x <? 0 then x + n else x) a l
  | None => l = map Z.of_nat (seq 0 (Z.to_nat n))
  end.

Section A.
Variable C : CRing.
Variable fuel : nat.
Variable junk : Z -> C.

Lemma fold_max (d : dict (sarr C)) : forall n, fold_left (fun m '(k, _) => Nat.max m (String.length k)) d n = Nat.max n (fold_left (fun m '(k, _) => Nat.max m (String.length k)) d O).
Proof.
  induction d as [|[k v] d IH]; intros n; cbn [fold_left]; [lia|]. rewrite IH, (IH (Nat.max 0 _)). lia.
Qed.
Lemma fold_longest (d : dict (sarr C)) n : longest d n -> fold_left (fun m '(k, _) => Nat.max m (String.length k)) d O = n.
Proof.
  intros [(k & v & Hin & <-) Hle]. apply Nat.le_antisymm.
  - clear Hin. assert (G : forall k' v', In (k', v') d -> (String.length k' <= String.length k)%nat) by exact Hle. clear Hle. revert G. induction d as [|[a b] d IH]; intros G; cbn [fold_left]; [lia|].
    rewrite fold_max. specialize (IH (fun k' v' H => G k' v' (or_intror H))). pose proof (G a b (or_introl eq_refl)). lia.
  - clear Hle. induction d as [|[a b] d IH]; [contradiction|]. cbn [fold_left]. rewrite fold_max. destruct Hin as [E|Hin]; [injection E as -> _; lia|]. specialize (IH Hin). lia.
Qed.
Lemma key_length_dict (d : dict (sarr C)) n : longest d n -> key_length (NDict d) = Ok n.
Proof.
  intros H. pose proof (fold_longest d n H) as E. destruct d as [|x d]; [destruct H as [(k & v & [] & _) _]|]. cbn [key_length]. now rewrite E.
Qed.

Lemma front_axes_eq n axes l : front_axes n axes l -> norm_axes n (match axes with None => tab n (fun i => i) | Some a => a end) = l.
Proof.
  destruct axes as [a|]; cbn.
  - induction 1 as [|x y a l -> H IH]; cbn; auto. now rewrite <- IH.
  - intros ->. unfold norm_axes, tab. rewrite map_map. apply map_ext_in. intros i _. destruct (Z.ltb_spec (Z.of_nat i) 0); [lia|reflexivity].
Qed.

Lemma a_times_eq n : forall k, a_times n k -> k = all_a n.
Proof.
  induction n as [|n IH]; intros [|c k] [Hl Hc]; cbn in Hl; try discriminate; [reflexivity|]. cbn [all_a]. rewrite (Hc c (or_introl eq_refl)). f_equal. apply IH. split; [lia|]. intros. apply Hc. now right.
Qed.

Theorem iswtn_refuses half w axes norm :
  iswtn fuel junk half [] w axes norm = ([], Err IndexError) /\
  (forall cs, iswtn fuel junk half (cs ++ [NDict []]) w axes norm = (cs ++ [NDict []], Err ValueError)) /\
  (forall cs a, sshape a = [] -> iswtn fuel junk half (cs ++ [NArr a]) w axes norm = (cs ++ [NArr a], Err TypeError)) /\
  (forall cs a t, sshape a = 0 :: t -> iswtn fuel junk half (cs ++ [NArr a]) w axes norm = (cs ++ [NArr a], Err ValueError)) /\
  (forall cs a s, sshape a = [s] -> s <> 0 -> iswtn fuel junk half (cs ++ [NArr a]) w axes norm = (cs ++ [NArr a], Err TypeError)).
Proof.
  split; [reflexivity|]. split; [|split; [|split]].
  - intros cs. unfold iswtn. rewrite rev_app_distr. reflexivity.
  - intros cs a E. unfold iswtn. rewrite rev_app_distr. cbn [rev app key_length]. now rewrite E.
  - intros cs a t E. unfold iswtn. rewrite rev_app_distr. cbn [rev app key_length]. now rewrite E.
  - intros cs a s E Hs. unfold iswtn. rewrite rev_app_distr. cbn [rev app key_length]. rewrite E. destruct (Z.eqb_spec s 0); [contradiction|reflexivity].
Qed.

Lemma last_key (coeffs cs : list (swtn_item C)) d n : coeffs = cs ++ [NDict d] -> longest d n ->
  (match rev coeffs with [] => Err IndexError | it :: _ => key_length it end) = Ok n.
Proof. intros -> H. rewrite rev_app_distr. cbn [rev app]. now apply key_length_dict. Qed.

Theorem iswtn_no_approximation half cs d n k d0 rest w axes norm : NDict d0 :: rest = cs ++ [NDict d] -> longest d n -> a_times n k -> dget d0 k = None ->
  iswtn fuel junk half (NDict d0 :: rest) w axes norm = (NDict d0 :: rest, Err KeyError).
Proof.
  intros E H Hk E0. rewrite (a_times_eq n k Hk) in E0. unfold iswtn. rewrite (last_key _ cs d n E H). unfold dgetE. rewrite E0. reflexivity.
Qed.

Lemma nodup_distinct l : negb (Nat.eqb (List.length l) (distinct l)) = false -> NoDup l.
Proof. intros H. apply distinct_NoDup_inv. apply negb_false_iff, Nat.eqb_eq in H. auto. Qed.

Theorem iswtn_axes_refused half cs d n k it rest cA w axes l norm : it :: rest = cs ++ [NDict d] -> longest d n -> a_times n k ->
  match it with NArr a => a = cA | NDict d0 => dget d0 k = Some cA end -> front_axes (ndim cA) axes l -> ~ NoDup l \/ List.length l <> n \/ (exists ws, w = Seq ws /\ List.length ws <> 1%nat /\ List.length ws <> n) ->
  iswtn fuel junk half (it :: rest) w axes norm = (it :: rest, Err ValueError).
Proof.
  intros E H Hk Ha Hl Hbad. rewrite (a_times_eq n k Hk) in Ha. unfold iswtn. rewrite (last_key _ cs d n E H).
  assert (G : exists trim, (match it with NArr a => Ok (true, a) | NDict d => a <- dgetE d (all_a n) ;; Ok (false, a) end) = Ok (trim, cA)).
  { destruct it as [a|d0]; [subst; now exists true|]. unfold dgetE. rewrite Ha. now exists false. }
  destruct G as [trim G]. rewrite G. cbv zeta. rewrite (front_axes_eq _ _ _ Hl).
  destruct (negb (Nat.eqb (List.length l) (distinct l))) eqn:E1; [reflexivity|]. apply nodup_distinct in E1.
  destruct (Nat.eqb_spec n (List.length l)) as [En|En]; cbn [negb]; [|reflexivity].
  destruct Hbad as [Hb|[Hb|(ws & -> & H1 & H2)]]; [contradiction|congruence|].
  unfold objs_per_axis. destruct ws as [|a [|b ws]]; [|cbn in H1; lia|].
  - destruct (Nat.eqb_spec (List.length (@nil (wavelet C))) (List.length l)); [cbn in *; lia|reflexivity].
  - destruct (Nat.eqb_spec (List.length (a :: b :: ws)) (List.length l)) as [El|]; [rewrite <- En in El; contradiction|reflexivity].
Qed.

Lemma level_uneven half axes ws nt step output (d : dict (sarr C)) : uneven d -> iswtn_level fuel junk half axes ws nt step output d = Err RuntimeError.
Proof.
  intros [->|(k & v & k' & v' & Hi & Hi' & Hne)]; [reflexivity|]. unfold iswtn_level. destruct d as [|[k0 v0] rest]; [contradiction|].
  destruct (existsb _ rest) eqn:Ee; [reflexivity|]. exfalso.
  assert (G : forall k v, In (k, v) ((k0, v0) :: rest) -> sshape v = sshape v0).
  { intros k1 v1 [E|Hin]; [now injection E as _ ->|]. destruct (shape_eqb (sshape v1) (sshape v0)) eqn:Es; [unfold shape_eqb in Es; destruct (list_eq_dec _ _ _); congruence|].
    assert (existsb (fun '(_, v) => negb (shape_eqb (sshape v) (sshape v0))) rest = true); [|congruence].
    apply existsb_exists. exists (k1, v1). split; auto. now rewrite Es. }
  apply Hne. rewrite (G k v Hi), (G k' v' Hi'). reflexivity.
Qed.

(** The first level has arrays of different shapes. *)
Theorem iswtn_shapes half d1 cs' cs d n cA rest w axes l norm : rest = NDict d1 :: cs' -> NArr cA :: rest = cs ++ [NDict d] -> longest d n ->
  front_axes (ndim cA) axes l -> NoDup l -> List.length l = n -> match w with One _ => True | Seq ws => List.length ws = 1%nat \/ List.length ws = n end -> uneven d1 ->
  iswtn fuel junk half (NArr cA :: rest) w axes norm = (NArr cA :: rest, Err RuntimeError).
Proof.
  intros -> E H Hl Hn En Hw Hu. unfold iswtn. rewrite (last_key _ cs d n E H). cbv zeta. rewrite (front_axes_eq _ _ _ Hl).
  rewrite (distinct_NoDup l Hn), Nat.eqb_refl. cbn [negb]. rewrite En, Nat.eqb_refl. cbn [negb].
  assert (G : exists ws, objs_per_axis w n = Ok ws).
  { unfold objs_per_axis. destruct w as [a|[|a [|b ws]]]; cbn [List.length] in *; [now eexists| |now eexists|].
    - destruct Hw as [Hw|<-]; [lia|]. now eexists.
    - destruct Hw as [Hw|<-]; [lia|]. rewrite Nat.eqb_refl. now eexists. }
  destruct G as [ws G]. rewrite G. cbn [iswtn_loop].
  rewrite level_uneven by exact Hu. reflexivity.
Qed.

(** * swtn, swt2, swt and iswt *)
(** The axis [a] is not one of [n] dimensions. *)
Definition outside (n a : Z) : Prop := a < - n \/ n <= a.

Lemma front_outside n axes l : front_axes n axes l -> existsb (fun a => (a <? 0) || (n <=? a)) l = true <-> match axes with None => False | Some a => Exists (outside n) a end.
Proof.
  intros H. destruct axes as [a|]; cbn in H.
  - rewrite existsb_exists, Exists_exists. unfold outside. split.
    + intros (y & Hy & Hb). induction H as [|x y0 a l E H IH]; [contradiction|]. destruct Hy as [->|Hy].
      * exists x. split; [now left|]. subst y. destruct (Z.ltb_spec x 0); lia.
      * destruct (IH Hy) as (x' & Hx & Ho). exists x'. split; [now right|auto].
    + intros (x & Hx & Ho). induction H as [|x0 y0 a l E H IH]; [contradiction|]. destruct Hx as [->|Hx].
      * exists y0. split; [now left|]. subst y0. destruct (Z.ltb_spec x 0); lia.
      * destruct (IH Hx) as (y & Hy & Hb). exists y. split; [now right|auto].
  - subst l. split; [|contradiction]. rewrite existsb_exists. intros (y & Hy & Hb). apply in_map_iff in Hy. destruct Hy as (i & <- & Hi). apply in_seq in Hi. lia.
Qed.
Lemma nodup_ltb l : ~ NoDup l -> negb (Nat.eqb (List.length l) (distinct l)) = true.
Proof. intros H. destruct (negb _) eqn:E; [reflexivity|]. apply nodup_distinct in E. contradiction. Qed.

Lemma nodup_ltb' l : ~ NoDup l -> Nat.eqb (List.length l) (distinct l) = false.
Proof. intros H. apply Bool.negb_true_iff. now apply nodup_ltb. Qed.

Theorem swtn_refuses (data : sarr C) w level start axes l trim norm : front_axes (ndim data) axes l ->
  (ndim data < 1 -> swtn fuel junk data w level start axes trim norm = Err ValueError) /\
  (1 <= ndim data -> match axes with None => False | Some a => Exists (outside (ndim data)) a end -> swtn fuel junk data w level start axes trim norm = Err AxisError) /\
  (1 <= ndim data -> match axes with None => True | Some a => Forall (fun x => ~ outside (ndim data) x) a end ->
     ~ NoDup l \/ (exists ws, w = Seq ws /\ List.length ws <> 1%nat /\ List.length ws <> List.length l) ->
     swtn fuel junk data w level start axes trim norm = Err ValueError).
Proof.
  intros Hl. pose proof (front_outside _ _ _ Hl) as Ho. unfold swtn. split; [|split].
  - intros H. destruct (Z.ltb_spec (ndim data) 1); [reflexivity|lia].
  - intros H Hb. destruct (Z.ltb_spec (ndim data) 1); [lia|]. cbv zeta. rewrite (front_axes_eq _ _ _ Hl). rewrite (proj2 Ho Hb). reflexivity.
  - intros H Hb Hbad. destruct (Z.ltb_spec (ndim data) 1); [lia|]. cbv zeta. rewrite (front_axes_eq _ _ _ Hl).
    destruct (existsb _ l) eqn:Ee.
    { exfalso. pose proof (proj1 Ho eq_refl) as Ee'. clear Ee. rename Ee' into Ee. destruct axes as [a|]; [|contradiction]. apply Exists_exists in Ee. destruct Ee as (x & Hx & Hout). rewrite Forall_forall in Hb. exact (Hb x Hx Hout). }
    destruct (negb (Nat.eqb (List.length l) (distinct l))) eqn:E1; [reflexivity|]. apply nodup_distinct in E1.
    destruct Hbad as [Hb'|(ws & -> & H1 & H2)]; [contradiction|]. unfold objs_per_axis. destruct ws as [|a [|b ws]]; [|cbn in H1; lia|].
    + destruct (Nat.eqb_spec (List.length (@nil (wavelet C))) (List.length l)); [contradiction|reflexivity].
    + destruct (Nat.eqb_spec (List.length (a :: b :: ws)) (List.length l)) as [El|]; [contradiction|reflexivity].
Qed.

Theorem swt2_refuses (data : sarr C) w level start trim norm :
  (forall axes, List.length axes <> 2%nat -> swt2 fuel junk data w level start axes trim norm = Err ValueError) /\
  (forall a b, a = b \/ ndim data < 2 -> swt2 fuel junk data w level start [a; b] trim norm = Err ValueError) /\
  (forall a b, a <> b -> 2 <= ndim data -> outside (ndim data) a \/ outside (ndim data) b -> swt2 fuel junk data w level start [a; b] trim norm = Err AxisError) /\
  (forall a b, ~ outside (ndim data) a -> ~ outside (ndim data) b -> a = b + ndim data \/ b = a + ndim data -> swt2 fuel junk data w level start [a; b] trim norm = Err ValueError).
Proof.
  assert (F : forall a b, front_axes (ndim data) (Some [a; b]) [if a <? 0 then a + ndim data else a; if b <? 0 then b + ndim data else b]) by (intros; repeat constructor).
  assert (D : forall a b, a <> b -> distinct [a; b] = 2%nat).
  { intros a b H. apply distinct_NoDup. repeat constructor; cbn; intuition congruence. }
  unfold swt2. split; [|split; [|split]].
  - intros axes H. destruct (Nat.eqb_spec (List.length axes) 2); [contradiction|reflexivity].
  - intros a b H. destruct (Z.eq_dec a b) as [<-|Hab].
    + rewrite (nodup_ltb' [a; a]) by (inversion 1; cbn in *; tauto). reflexivity.
    + destruct H as [H|H]; [contradiction|]. rewrite (D a b Hab). cbn [List.length Nat.eqb negb]. destruct (Z.ltb_spec (ndim data) (Z.of_nat 2)); [reflexivity|lia].
  - intros a b Hab Hn Ho. rewrite (D a b Hab). cbn [List.length Nat.eqb negb]. destruct (Z.ltb_spec (ndim data) (Z.of_nat 2)); [lia|].
    destruct (swtn_refuses data w level start (Some [a; b]) _ trim norm (F a b)) as (_ & H2 & _). rewrite H2; [reflexivity|lia|]. destruct Ho; [now left|now right; left].
  - intros a b Ha Hb Hs. assert (Hn0 : 0 <= ndim data) by (unfold ndim, zlen; lia).
    destruct (Z.eq_dec a b) as [<-|Hab]. 
    { exfalso. unfold outside in Ha. lia. }
    rewrite (D a b Hab). cbn [List.length Nat.eqb negb]. destruct (Z.ltb_spec (ndim data) (Z.of_nat 2)); [reflexivity|].
    destruct (swtn_refuses data w level start (Some [a; b]) _ trim norm (F a b)) as (_ & _ & H3). rewrite H3; [reflexivity|lia|now repeat constructor|left].
    unfold outside in Ha, Hb. intros Hd. inversion Hd as [|x y Hx _]. apply Hx. left. destruct (Z.ltb_spec a 0), (Z.ltb_spec b 0); lia.
Qed.

Theorem swt_refuses (data : sarr C) w level start axis trim norm : outside (ndim data) axis ->
  py_swt fuel junk data w level start axis trim norm = Err AxisError.
Proof.
  intros H. unfold py_swt. cbv zeta. assert (E : ndim (of_nd (val C data)) = ndim data) by reflexivity. rewrite E. unfold outside in H.
  destruct (Z.ltb_spec axis 0); destruct (Z.leb_spec 0 (if axis <? 0 then axis + ndim data else axis)); 
  match goal with |- context [negb ?b] => destruct b eqn:Eb; [|reflexivity] end; exfalso; apply Bool.andb_true_iff in Eb; lia.
Qed.

Theorem iswt_refuses half w norm axis :
  py_iswt fuel junk half [] w norm axis = Err IndexError /\
  (forall it rest a, match it with SPair b _ => b = a | SArr b => b = a end -> ndim a <= 1 -> axis <> 0 -> axis <> -1 -> py_iswt fuel junk half (it :: rest) w norm axis = Err AxisError) /\
  (forall it rest a, match it with SPair b _ => b = a | SArr b => b = a end -> ndim a = 0 -> axis = 0 \/ axis = -1 -> py_iswt fuel junk half (it :: rest) w norm axis = Err ValueError).
Proof.
  split; [reflexivity|]. split.
  - intros it rest a Ha Hn H0 H1. unfold py_iswt. replace (match it with SPair b _ => b | SArr b => b end) with a by (destruct it; auto). cbv zeta.
    destruct (Z.ltb_spec 1 (ndim a)); [lia|]. destruct (Z.eqb_spec axis 0); [contradiction|]. destruct (Z.eqb_spec axis (-1)); [contradiction|]. reflexivity.
  - intros it rest a Ha Hn Hx. unfold py_iswt. replace (match it with SPair b _ => b | SArr b => b end) with a by (destruct it; auto). cbv zeta. rewrite Hn.
    destruct Hx as [-> | ->]; reflexivity.
Qed.
End A.
