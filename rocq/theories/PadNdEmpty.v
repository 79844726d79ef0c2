(** pad with widths zero, and arrays with empty axes. *)
From Coq Require Import Ascii String.
From Verif Require Import Base BaseLemmas CConv Spec Instances ExtLemmas Lengths Dwt Swt Nd NdSpec FswAxis Pad PadProofs PadNd PadNdProofs PadNdFacts.

Section E.
Variable fuel : nat.
Variable C : CRing.

(** The modes in which pad calls numpy.pad once, with the name of a mode. *)
Definition by_name (m : mode) : Prop := m <> PERIODIZATION /\ m <> SMOOTH /\ m <> ANTISYMMETRIC.

Lemma padn_by_name m (x : nd C) a ws : by_name m -> widths (List.length (nshape x)) a = Ok ws -> padn fuel x a (mode_name m) = np_padn m x ws.
Proof. intros (H1 & H2 & H3) E. unfold padn. rewrite E. destruct m; try contradiction; reflexivity. Qed.

Lemma pad_axis_zero m (x : nd C) k : nd_wf x -> (k < List.length (nshape x))%nat -> np_pad_axis m x (k, (0, 0)) = Ok x.
Proof.
  intros Wx Hk. unfold np_pad_axis. cbn [Z.eqb andb negb]. rewrite andb_false_r. cbn [andb]. rewrite Z.add_0_l, Z.add_0_r. f_equal.
  pose proof (shape_ok_nth (nshape x) k (proj1 Wx)) as H0.
  etransitivity; [|apply (FswAxis.along_id C k x Wx Hk)]. apply FswAxis.along_ext; auto. intros v Hv.
  etransitivity; [|apply (tab_gz v)]. rewrite Hv. apply tab_ext. intros n Hn. rewrite Z.sub_0_r. apply ext_in. lia.
Qed.
Theorem padn_nothing m (x : nd C) : by_name m -> nd_wf x -> padn fuel x (WInt 0) (mode_name m) = Ok x.
Proof.
  intros Hm Wx. rewrite (padn_by_name m x (WInt 0) (repeat (0, 0) (List.length (nshape x))) Hm) by (apply (proj1 (widths_forms _)); lia).
  unfold np_padn. rewrite (numbered_nth _ (0, 0)), repeat_length.
  assert (G : forall ks, (forall k, In k ks -> (k < List.length (nshape x))%nat) -> foldM (np_pad_axis m) x (map (fun k => (k, nth k (repeat (0, 0) (List.length (nshape x))) (0, 0))) ks) = Ok x).
  { induction ks as [|k ks IH]; intros Hks; cbn [map foldM]; auto. rewrite nth_repeat, pad_axis_zero by (auto; apply Hks; left; auto). cbn [bind]. apply IH. intros j Hj. apply Hks. right. auto. }
  apply G. intros k Hk. apply in_seq in Hk. lia.
Qed.

Lemma pad_axis_res m (x : nd C) w : (exists y, np_pad_axis m x w = Ok y /\ forall k, k <> fst w -> nthz k (nshape y) = nthz k (nshape x)) \/ np_pad_axis m x w = Err ValueError.
Proof.
  destruct w as (k & l & r). unfold np_pad_axis. destruct (_ && _ && _); auto. left. eexists. split; [reflexivity|]. intros j Hj. cbn [fst] in Hj. rewrite along_shape. apply nthz_setn_ne. auto.
Qed.
Theorem padn_empty_axis m (x : nd C) a ws k : by_name m -> m <> ZEROPAD -> widths (List.length (nshape x)) a = Ok ws ->
  (k < List.length ws)%nat -> nthz k (nshape x) = 0 -> nth k ws (0, 0) <> (0, 0) -> padn fuel x a (mode_name m) = Err ValueError.
Proof.
  intros Hm Hz E Hk H0 Hw. rewrite (padn_by_name m x a ws Hm E). unfold np_padn. rewrite (numbered_nth ws (0, 0)).
  assert (G : forall ks (x : nd C), In k ks -> NoDup ks -> nthz k (nshape x) = 0 -> foldM (np_pad_axis m) x (map (fun k => (k, nth k ws (0, 0))) ks) = Err ValueError).
  { clear - Hz Hw. induction ks as [|j ks IH]; intros x Hin Hnd H0; [destruct Hin|]. inversion Hnd; subst. cbn [map foldM].
    destruct (Nat.eq_dec j k) as [->|Hj].
    - unfold np_pad_axis. destruct (nth k ws (0, 0)) as (l & r). rewrite H0. cbn [Z.eqb].
      assert (negb ((l =? 0) && (r =? 0)) = true) as ->.
      { destruct (Z.eqb_spec l 0); [|reflexivity]. destruct (Z.eqb_spec r 0); [|reflexivity]. subst. congruence. }
      destruct m; try congruence; reflexivity.
    - destruct (pad_axis_res m x (j, nth j ws (0, 0))) as [(y & -> & Hy)| ->]; [|reflexivity]. cbn [bind]. apply IH; auto; [destruct Hin; [congruence|auto]|].
      rewrite Hy; auto. }
  apply G; auto; [apply in_seq; lia|apply seq_NoDup].
Qed.
End E.
