(** Coefficient lists that are not the result of a transform. *)
From Coq Require Import Ascii String.
From Verif Require Import Base BaseLemmas Dwt Instances Nd Swt Multidim MultilevelNd SwtNd PackSpec Packing.
Open Scope list_scope. Open Scope Z_scope.

Section Bad.
Variable C : CRing.
Local Notation nd := (nd C).
Local Notation item := (item C).

Lemma array_shape_bad (ds1 : list item) x ds2 axes : forall arr n r, array_shape C arr n ds1 axes = Ok r -> (forall d, x <> IDict d) ->
  array_shape C arr n (ds1 ++ x :: ds2) axes = Err (not_dict C x).
Proof.
  induction ds1 as [|y ds1 IH]; intros arr n r E Hx; cbn [array_shape app] in *.
  - destruct x; try reflexivity. exfalso. eapply Hx. reflexivity.
  - destruct (as_dict C (not_dict C y) y) as [d| | |e]; cbn [bind] in *; try discriminate.
    destruct (dgetE d _) as [v| | |e]; cbn [bind] in *; try discriminate.
    destruct (as_arr C v) as [a| | |e]; cbn [bind] in *; try discriminate.
    destruct (add_axes _ _ _) as [arr'| | |e]; cbn [bind] in *; try discriminate.
    destruct (mapM _ d) as [sz| | |e]; cbn [bind] in *; try discriminate.
    eapply IH; eauto.
Qed.
(** A list of dictionaries that is accepted, followed by something else. *)
Theorem not_a_dict junk junk' (a : nd) d ds1 x ds2 padding axes r : coeffs_to_array C junk (IArr a :: IDict d :: ds1) padding axes = Ok r -> (forall d, x <> IDict d) ->
  coeffs_to_array C junk' (IArr a :: IDict d :: ds1 ++ x :: ds2) padding axes = Err (match x with IArr _ => IndexError | _ => TypeError end).
Proof.
  unfold coeffs_to_array, prepare. cbn [bind]. destruct d as [|(k & v) d]; [discriminate|].
  destruct (match axes with Some l => Ok l | None => _ end) as [axes'| | |e]; cbn [bind]; try discriminate.
  destruct (negb _); cbn [bind]; try discriminate.
  destruct (array_shape C _ _ (IDict ((k, v) :: d) :: ds1) axes') as [(sh & tight)| | |e] eqn:E; cbn [bind]; try discriminate.
  intros _ Hx. rewrite (app_comm_cons ds1 (x :: ds2) (IDict ((k, v) :: d))). rewrite (array_shape_bad _ x ds2 _ _ _ _ E Hx). reflexivity.
Qed.
Lemma mapM_err {X Y} (f : X -> res Y) e l1 x l2 : (forall y, In y l1 -> exists z, f y = Ok z) -> f x = Err e -> mapM f (l1 ++ x :: l2) = Err e.
Proof.
  intros H E. induction l1 as [|y l1 IH]; cbn [mapM app]; [rewrite E; reflexivity|].
  destruct (H y (or_introl eq_refl)) as (z & ->). cbn [bind]. rewrite IH; [reflexivity|]. intros y' Hy. apply H. right. auto.
Qed.
(** Lists in the format of wavedec: arrays of one axis, None or an error. *)
Theorem not_wavedec junk (a : nd) y ds1 x ds2 padding axes :
  (forall z, In z (IArr y :: ds1) -> z = INone \/ exists b, z = IArr b /\ zlen (nshape b) = 1) ->
  (forall b, x = IArr b -> zlen (nshape b) <> 1) -> x <> INone ->
  coeffs_to_array C junk (IArr a :: IArr y :: ds1 ++ x :: ds2) padding axes = Err (match x with IArr _ => ValueError | _ => AttributeError end).
Proof.
  intros H Hx Hn. unfold coeffs_to_array, prepare. rewrite (app_comm_cons ds1 (x :: ds2) (IArr y)).
  rewrite (mapM_err (conv1 C) (match x with IArr _ => ValueError | _ => AttributeError end)); [reflexivity| |].
  - intros z Hz. destruct (H z Hz) as [->|(b & -> & L)]; [exists INone; reflexivity|]. exists (IDict [("d"%string, Some b)]). cbn [conv1]. rewrite L. reflexivity.
  - destruct x as [|b|l|d]; try reflexivity; [contradiction|]. cbn [conv1]. replace (zlen (nshape b) =? 1) with false; [reflexivity|]. symmetry. apply Z.eqb_neq. apply Hx. reflexivity.
Qed.
(** Lists in the format of wavedec2: triples of arrays or a ValueError. *)
Theorem not_wavedec2 junk (a : nd) y ds1 x ds2 padding axes :
  (forall z, In z (ITup y :: ds1) -> exists da ad dd, z = ITup [Some da; Some ad; Some dd]) ->
  (forall da ad dd, x <> ITup [Some da; Some ad; Some dd]) ->
  coeffs_to_array C junk (IArr a :: ITup y :: ds1 ++ x :: ds2) padding axes = Err ValueError.
Proof.
  intros H Hx. unfold coeffs_to_array, prepare. rewrite (app_comm_cons ds1 (x :: ds2) (ITup y)).
  rewrite (mapM_err (conv2 C) ValueError); [reflexivity| |].
  - intros z Hz. destruct (H z Hz) as (da & ad & dd & ->). eexists. reflexivity.
  - destruct x as [|b|l|d]; try reflexivity. destruct l as [|[p|] [|[q|] [|[r|] [|s l]]]]; try reflexivity. exfalso. eapply Hx. reflexivity.
Qed.
(** The first element must be an array, the second one not None. *)
Theorem no_approximation junk (l : list item) padding axes : (forall a ds, l <> IArr a :: ds) -> coeffs_to_array C junk l padding axes = Err ValueError.
Proof. intros H. destruct l as [|[|a|t|d] l]; try reflexivity. exfalso. eapply H. reflexivity. Qed.
End Bad.

(** Details of inconsistent shapes: one overwrites another, *)
Definition zs (sh : list Z) (l : list Z) : nd Zring := mkNd (C := Zring) sh l.
Definition over : list (item Zring) :=
  [IArr (zs [2; 2] [1; 2; 3; 4]);
   IDict [("ad"%string, Some (zs [3; 2] [5; 6; 7; 8; 9; 10])); ("da"%string, Some (zs [2; 2] [11; 12; 13; 14])); ("dd"%string, Some (zs [2; 2] [15; 16; 17; 18]))]].
Theorem overwritten : exists l arr sls back, (forall junk, coeffs_to_array Zring junk l (Some 0) None = Ok (arr, sls)) /\
  array_to_coeffs Zring arr sls FWavedecn = Ok back /\ back <> l.
Proof. exists over. do 3 eexists. split; [intros junk; vm_compute; reflexivity|]. split; [vm_compute; reflexivity|discriminate]. Qed.
(** one is repeated along an axis that is not transformed, *)
Definition thin : list (item Zring) :=
  [IArr (zs [1; 1; 2] [1; 2]);
   IDict [("ad"%string, Some (zs [1; 1; 1] [3])); ("da"%string, Some (zs [1; 1; 2] [4; 5])); ("dd"%string, Some (zs [1; 1; 2] [6; 7]))]].
Theorem repeated : exists l axes arr sls back d d' : _, (forall junk, coeffs_to_array Zring junk l (Some 0) (Some axes) = Ok (arr, sls)) /\
  array_to_coeffs Zring arr sls FWavedecn = Ok back /\
  nth 1 l INone = IDict d /\ nth 1 back INone = IDict d' /\ dget d "ad" = Some (Some (zs [1; 1; 1] [3])) /\ dget d' "ad" = Some (Some (zs [1; 1; 2] [3; 3])).
Proof. exists thin, [0; 1]. do 5 eexists. split; [intros junk; vm_compute; reflexivity|]. split; [vm_compute; reflexivity|]. repeat split. Qed.
(** and without padding the result shows what was in memory before. *)
Definition holes : list (item Zring) :=
  [IArr (zs [2; 2] [1; 2; 3; 4]);
   IDict [("ad"%string, Some (zs [3; 2] [5; 6; 7; 8; 9; 10])); ("da"%string, Some (zs [2; 1] [11; 12])); ("dd"%string, Some (zs [2; 2] [15; 16; 17; 18]))]].
Theorem uninitialised : exists l junk1 junk2 arr1 arr2 sls, coeffs_to_array Zring junk1 l None None = Ok (arr1, sls) /\ coeffs_to_array Zring junk2 l None None = Ok (arr2, sls) /\ arr1 <> arr2.
Proof. exists holes, (fun _ => 0), (fun _ => 99). do 3 eexists. split; [vm_compute; reflexivity|]. split; [vm_compute; reflexivity|discriminate]. Qed.
