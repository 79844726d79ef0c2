(** Defaults of mra, mra followed by imra, and concrete cases in which imra2,
    imran and iswtn change their arguments. *)
From Coq Require Import Ascii String.
From Verif Require Import Base BaseLemmas CConv Spec Instances Lengths Dwt DwtProofs Multilevel MultilevelProofs Swt SwtSpec SwtProofs FactsSwt Nd NdSpec Axis AxisProofs Multidim MultilevelNd SwtNd Mra MraProofs SwtNdArgs ExBanks ExNd.

Section D.
Variable C : CRing.
Variable fuel : nat.
Variables half sq2 isq2 : C.

Lemma mra_default_dwt (x : list C) w m :
  mra fuel half sq2 isq2 x w None TDwt m = mra fuel half sq2 isq2 x w (Some (dwt_max_level_c (zlen x) (dec_len w))) TDwt m.
Proof. cbn [mra]. rewrite wavedec_default. reflexivity. Qed.
Lemma mra_default_swt (x : list C) w m j : swt_max_level (zlen x) = Ok j ->
  mra fuel half sq2 isq2 x w None TSwt m = mra fuel half sq2 isq2 x w (Some j) TSwt m.
Proof. intros H. cbn [mra]. rewrite (swt_default C fuel w x true (Some isq2) j) by auto. reflexivity. Qed.
Lemma mra_default (x : list C) w m :
  mra fuel half sq2 isq2 x w None TDwt m = mra fuel half sq2 isq2 x w (Some (dwt_max_level_c (zlen x) (dec_len w))) TDwt m /\
  forall j, swt_max_level (zlen x) = Ok j -> mra fuel half sq2 isq2 x w None TSwt m = mra fuel half sq2 isq2 x w (Some j) TSwt m.
Proof. split; [apply mra_default_dwt|]. intros. apply mra_default_swt; auto. Qed.
Lemma mra_rejects (x : list C) w level m :
  mra fuel half sq2 isq2 x w level TOther m = Err ValueError /\
  (m <> PERIODIZATION -> mra fuel half sq2 isq2 x w level TSwt m = Err ValueError).
Proof. split; [reflexivity|]. intros H. cbn [mra]. destruct m; cbn; auto; congruence. Qed.

(** The arrays of a list of vectors, and all their indices. *)
Definition arrays (l : list (list C)) : list (nd C) := map (fun a => mkNd [zlen a] a) l.

Lemma hsum_col : forall (pre out : list (list C)) N i, (forall a, In a out -> zlen a = N) -> 0 <= i < N ->
  hsum C (arrays (pre ++ out)) (seq (List.length pre) (List.length out)) [i] = col C out i.
Proof.
  intros pre out. revert pre. induction out as [|a out IH]; intros pre N i Ha Hi; cbn [List.length seq]; [reflexivity|].
  change (a :: out) with ([a] ++ out) at 1. rewrite app_assoc.
  replace (S (List.length pre)) with (List.length (pre ++ [a])) by (rewrite app_length; cbn; lia).
  assert (E : hsum C (arrays ((pre ++ [a]) ++ out)) (List.length pre :: seq (List.length (pre ++ [a])) (List.length out)) [i]
    = (gz a i [+] hsum C (arrays ((pre ++ [a]) ++ out)) (seq (List.length (pre ++ [a])) (List.length out)) [i])).
  { unfold hsum at 1. cbn [fold_right]. unfold hsum. f_equal. unfold arrays. rewrite nth_error_map, nth_error_app1 by (rewrite app_length; cbn; lia).
    rewrite nth_error_app2, Nat.sub_diag by lia. cbn. unfold ndget. cbn. f_equal. lia. }
  etransitivity; [exact E|]. rewrite (IH (pre ++ [a]) N i); auto. intros; apply Ha; right; auto.
Qed.

(** mra, then imra. *)
Lemma imra_of_terms (x : list C) out : out <> [] -> (forall a, In a out -> zlen a = zlen x) ->
  (forall i, 0 <= i < zlen x -> col C out i = gz x i) ->
  exists h r, imra (arrays out) (seq 0 (List.length out)) = Ok (h, r) /\ exists y, nth_error h r = Some y /\ nshape y = [zlen x] /\
    forall i, 0 <= i < zlen x -> ndget y [i] = gz x i.
Proof.
  intros Hne Ha Hc.
  destruct (imra_sum C (arrays out) (seq 0 (List.length out)) [zlen x]) as (h & r & y & E & Hy & Hs & Hv).
  - destruct out; [congruence|discriminate].
  - intros c Hi. apply in_seq in Hi. unfold arrays. rewrite nth_error_map.
    destruct (nth_error out c) as [a|] eqn:En; [|apply nth_error_None in En; lia].
    eexists. split; [reflexivity|]. cbn. rewrite (Ha a) by (eapply nth_error_In; eauto). reflexivity.
  - exists h, r. split; auto. exists y. split; auto. split; auto. intros i Hi. rewrite Hv by (cbn; auto).
    rewrite <- Hc by auto. apply (hsum_col [] out (zlen x)); auto.
Qed.
End D.

(** ** imra2 and imran add into the caller's first array *)
Definition h4 : list (nd Zring) := map (fun v => mkNd (C := Zring) [1; 1] [v]) [10; 1; 2; 3].

Lemma imra2_not_pure : exists (h h' h'' : heap (C := Zring)) c0 ds r, imra2 h c0 ds = Ok (h', r) /\ nth_error h' c0 <> nth_error h c0 /\
  imra2 h' c0 ds = Ok (h'', r) /\ nth_error h'' r <> nth_error h' r.
Proof.
  exists h4. do 2 eexists. exists 0%nat, [[1; 2; 3]%nat], 0%nat. split; [vm_compute; reflexivity|]. split; [vm_compute; congruence|].
  split; [vm_compute; reflexivity|]. vm_compute. congruence.
Qed.
Lemma imran_not_pure : exists (h h' h'' : heap (C := Zring)) c0 ds r, imran h c0 ds = Ok (h', r) /\ nth_error h' c0 <> nth_error h c0 /\
  imran h' c0 ds = Ok (h'', r) /\ nth_error h'' r <> nth_error h' r.
Proof.
  exists h4. do 2 eexists. exists 0%nat, [[("ad"%string, 1%nat); ("da"%string, 2%nat); ("dd"%string, 3%nat)]], 0%nat.
  split; [vm_compute; reflexivity|]. split; [vm_compute; congruence|].
  split; [vm_compute; reflexivity|]. vm_compute. congruence.
Qed.

(** ** iswtn loses the approximation of a dictionary if it raises *)
Definition s2_ (a b : Z) (l : list Z) : sarr Zring := of_nd (mkNd (C := Zring) [a; b] l).
Definition ragged : list (swtn_item Zring) :=
  [NDict [("aa"%string, s2_ 2 2 [1; 2; 3; 4]); ("ad"%string, s2_ 2 2 [1; 2; 3; 4]); ("da"%string, s2_ 2 2 [1; 2; 3; 4]);
          ("dd"%string, s2_ 2 3 [1; 2; 3; 4; 5; 6])]].
Lemma iswtn_loses : exists (cs cs' : list (swtn_item Zring)) w e d d' k, iswtn 99 jk 1 cs w None None = (cs', Err e) /\
  In (NDict d) cs /\ cs' = [NDict d'] /\ cs = [NDict d] /\ dget d k <> None /\ dget d' k = None.
Proof.
  exists ragged. eexists. exists (One zbank), RuntimeError. do 2 eexists. exists "aa"%string.
  split; [vm_compute; reflexivity|]. split; [left; reflexivity|]. split; [reflexivity|]. split; [reflexivity|].
  split; [vm_compute; discriminate|reflexivity].
Qed.
