(** The forms of the argument pad_widths of pad. *)
From Coq Require Import Ascii String.
From Verif Require Import Base BaseLemmas CConv Spec Instances Lengths Dwt Swt Nd NdSpec Pad PadProofs PadNd PadNdProofs PadNdDwt.

(** A number is negative, or the sequence has more than two numbers, or the
    rows do not have one or two numbers each, or their number is not 1 nor the
    number of axes. *)
Definition widths_wrong (n : nat) (a : pad_arg) : Prop :=
  (exists p, In p (match a with WInt p => [p] | WVec v => v | WMat rows => List.concat rows end) /\ p < 0) \/
  match a with
  | WInt _ => False
  | WVec v => (List.length v = 0 \/ 2 < List.length v)%nat
  | WMat rows => (List.length rows <> 1 /\ List.length rows <> n)%nat \/ exists r, In r rows /\ (List.length r = 0 \/ 2 < List.length r)%nat
  end.

Lemma widths_ok_dest n a ws : widths n a = Ok ws -> ~ widths_wrong n a.
Proof.
  unfold widths, widths_wrong. set (e := match a with WInt p => [p] | WVec v => v | WMat rows => List.concat rows end).
  destruct (existsb (fun p => p <? 0) e) eqn:E1; [rewrite orb_true_r; discriminate|].
  intros H [(p & Hp & H0)|W].
  - assert (existsb (fun p => p <? 0) e = true) by (apply existsb_exists; exists p; split; auto; lia). congruence.
  - destruct a as [p|v|rows]; auto.
    + destruct v as [|x [|y [|z v]]]; cbn in W; try lia; revert H; destruct ((zlen _ =? 0) || false); discriminate.
    + destruct ((zlen e =? 0) || false) eqn:Ez; [discriminate|]. destruct (negb (forallb _ rows)) eqn:Ef; [discriminate|].
      destruct (mapM as_pair rows) as [qs| | |] eqn:Em; cbn [bind] in H; try discriminate.
      assert (G : List.length qs = List.length rows /\ forall r, In r rows -> (1 <= List.length r <= 2)%nat).
      { clear - Em. revert qs Em. induction rows as [|r rows IH]; intros qs Em; cbn [mapM] in Em.
        - injection Em as <-. split; [reflexivity|intros r []].
        - destruct (as_pair r) as [q| | |] eqn:Er; try discriminate. cbn [bind] in Em. destruct (mapM as_pair rows) as [qs'| | |]; try discriminate. injection Em as <-.
          destruct (IH qs' eq_refl) as (L & B). split; [cbn; lia|]. intros r' [<-|Hr]; auto. destruct r as [|x [|y [|z r]]]; try discriminate; cbn; lia. }
      destruct G as (L & B). destruct W as [(W1 & W2)|(r & Hr & W)]; [|specialize (B r Hr); lia].
      destruct qs as [|q [|q' qs]]; cbn in L; try lia.
      * destruct rows; [|discriminate]. destruct n; [contradiction|discriminate].
      * destruct (Nat.eqb_spec (List.length (q :: q' :: qs)) n); [cbn in *; lia|discriminate].
Qed.
Lemma widths_res n a : (exists ws, widths n a = Ok ws) \/ widths n a = Err ValueError.
Proof.
  unfold widths. destruct (_ || _); auto. destruct a as [p|v|rows]; eauto.
  - destruct v as [|x [|y [|z v]]]; cbn; eauto.
  - destruct (negb _); auto. assert (G : (exists qs, mapM as_pair rows = Ok qs) \/ mapM as_pair rows = Err ValueError).
    { induction rows as [|r rows IH]; cbn [mapM]; eauto. destruct r as [|x [|y [|z r]]]; cbn; auto; destruct IH as [(qs & ->)| ->]; cbn; eauto. }
    destruct G as [(qs & ->)| ->]; cbn [bind]; auto. destruct qs as [|q [|q' qs]]; eauto; destruct (Nat.eqb _ n); eauto.
Qed.
Theorem padn_bad_widths fuel (C : CRing) (x : nd C) a mode : widths_wrong (List.length (nshape x)) a -> padn fuel x a mode = Err ValueError.
Proof.
  intros W. unfold padn. destruct (widths_res (List.length (nshape x)) a) as [(ws & E)| ->]; [|reflexivity].
  destruct (widths_ok_dest _ _ _ E W).
Qed.

Theorem widths_forms : forall n,
  (forall p, 0 <= p -> widths n (WInt p) = Ok (repeat (p, p) n)) /\
  (forall p, 0 <= p -> widths n (WVec [p]) = Ok (repeat (p, p) n)) /\
  (forall l r, 0 <= l -> 0 <= r -> widths n (WVec [l; r]) = Ok (repeat (l, r) n) /\ widths n (WMat [[l; r]]) = Ok (repeat (l, r) n)) /\
  (forall ws, List.length ws = n -> (1 <= n)%nat -> Forall (fun w => 0 <= fst w /\ 0 <= snd w) ws -> widths n (WMat (map (fun w => [fst w; snd w]) ws)) = Ok ws) /\
  (forall ps, List.length ps = n -> (1 <= n)%nat -> Forall (fun p => 0 <= p) ps -> widths n (WMat (map (fun p => [p]) ps)) = Ok (map (fun p => (p, p)) ps)).
Proof.
  intros n. repeat split; intros.
  - unfold widths. cbn. replace (p <? 0) with false by lia. reflexivity.
  - unfold widths. cbn. replace (p <? 0) with false by lia. reflexivity.
  - unfold widths. cbn. replace (l <? 0) with false by lia. replace (r <? 0) with false by lia. reflexivity.
  - unfold widths. cbn. replace (l <? 0) with false by lia. replace (r <? 0) with false by lia. reflexivity.
  - unfold widths.
    assert (E1 : existsb (fun p => p <? 0) (List.concat (map (fun w : Z * Z => [fst w; snd w]) ws)) = false).
    { clear - H1. induction H1 as [|w ws (A & B) H IH]; auto. cbn. rewrite IH. lia. }
    rewrite E1. assert (Hm : mapM as_pair (map (fun w : Z * Z => [fst w; snd w]) ws) = Ok ws).
    { clear. induction ws as [|(l & r) ws IH]; auto. cbn [map mapM fst snd as_pair bind]. rewrite IH. reflexivity. }
    rewrite Hm. destruct ws as [|w ws]; [cbn in H; lia|].
    replace (forallb _ _) with true; [|symmetry; apply forallb_forall; intros r Hr; apply in_map_iff in Hr; destruct Hr as (w' & <- & _); reflexivity].
    replace (zlen _ =? 0) with false by (unfold zlen; cbn; lia). cbn [orb negb bind].
    destruct ws as [|w' ws]; [cbn in H; subst n; reflexivity|]. rewrite H, Nat.eqb_refl. reflexivity.
  - unfold widths.
    assert (E1 : existsb (fun p => p <? 0) (List.concat (map (fun p : Z => [p]) ps)) = false).
    { clear - H1. induction H1 as [|w ws A H IH]; auto. cbn. rewrite IH. lia. }
    rewrite E1. assert (Hm : mapM as_pair (map (fun p : Z => [p]) ps) = Ok (map (fun p => (p, p)) ps)).
    { clear. induction ps as [|p ps IH]; auto. cbn [map mapM as_pair bind]. rewrite IH. reflexivity. }
    rewrite Hm. destruct ps as [|w ws]; [cbn in H; lia|].
    replace (forallb _ _) with true; [|symmetry; apply forallb_forall; intros r Hr; apply in_map_iff in Hr; destruct Hr as (w' & <- & _); reflexivity].
    replace (zlen _ =? 0) with false by (unfold zlen; cbn; lia). cbn [orb negb bind].
    destruct ws as [|w' ws]; [cbn in H; subst n; reflexivity|]. cbn [map]. cbn [List.length] in *. rewrite map_length, H, Nat.eqb_refl. reflexivity.
Qed.

Theorem padn_one_axis : exists (x : nd Zring) a ws m, nd_wf x /\ widths (List.length (nshape x)) a = Ok ws /\
  Forall (fun N => 2 <= N) (nshape x) /\ Forall (fun w => 0 <= fst w /\ 0 <= snd w) ws /\ padn 99 x a (mode_name m) = Err ValueError.
Proof.
  exists (mkNd (C := Zring) [3; 2] [1; 2; 3; 4; 5; 6]), (WMat [[1; 1]; [0; 0]]), [(1, 1); (0, 0)], SMOOTH.
  split; [split; [repeat constructor; lia|reflexivity]|]. split; [reflexivity|]. split; [repeat constructor; lia|]. split; [repeat constructor; cbn; lia|]. vm_compute. reflexivity.
Qed.
