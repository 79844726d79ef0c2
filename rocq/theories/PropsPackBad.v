(** C108: coeffs_to_array of lists that are not the result of a transform. *)
From Coq Require Import Ascii String.
From Verif Require Import Base BaseLemmas Dwt Instances Nd Swt Multidim MultilevelNd SwtNd PackSpec Packing PackBad.
Open Scope list_scope. Open Scope Z_scope.

(** A list of dictionaries that is accepted, followed by something else. *)
Theorem C108_not_a_dict : forall (C : CRing) junk junk' (a : nd C) d ds1 x ds2 padding axes r, coeffs_to_array C junk (IArr a :: IDict d :: ds1) padding axes = Ok r -> (forall d, x <> IDict d) ->
  coeffs_to_array C junk' (IArr a :: IDict d :: ds1 ++ x :: ds2) padding axes = Err (match x with IArr _ => IndexError | _ => TypeError end).
Proof. exact not_a_dict. Qed.
Print Assumptions C108_not_a_dict.
Example C108_not_a_dict_ex : (exists r, coeffs_to_array Zring (fun _ => 0) over (Some 0) None = Ok r) /\
  coeffs_to_array Zring (fun _ => 0) (over ++ [IArr (zs [4; 4] [])]) (Some 0) None = Err IndexError /\ coeffs_to_array Zring (fun _ => 0) (over ++ [INone]) (Some 0) None = Err TypeError /\
  coeffs_to_array Zring (fun _ => 0) (over ++ [ITup []; INone]) (Some 0) None = Err TypeError.
Proof. split; [eexists|]; repeat split; vm_compute; reflexivity. Qed.
(** The formats of wavedec and wavedec2. *)
Theorem C108_not_wavedec : forall (C : CRing) junk (a : nd C) y ds1 x ds2 padding axes,
  (forall z, In z (IArr y :: ds1) -> z = INone \/ exists b, z = IArr b /\ zlen (nshape b) = 1) ->
  (forall b, x = IArr b -> zlen (nshape b) <> 1) -> x <> INone ->
  coeffs_to_array C junk (IArr a :: IArr y :: ds1 ++ x :: ds2) padding axes = Err (match x with IArr _ => ValueError | _ => AttributeError end).
Proof. exact not_wavedec. Qed.
Print Assumptions C108_not_wavedec.
Theorem C108_not_wavedec2 : forall (C : CRing) junk (a : nd C) y ds1 x ds2 padding axes,
  (forall z, In z (ITup y :: ds1) -> exists da ad dd, z = ITup [Some da; Some ad; Some dd]) ->
  (forall da ad dd, x <> ITup [Some da; Some ad; Some dd]) ->
  coeffs_to_array C junk (IArr a :: ITup y :: ds1 ++ x :: ds2) padding axes = Err ValueError.
Proof. exact not_wavedec2. Qed.
Print Assumptions C108_not_wavedec2.
Theorem C108_no_approximation : forall (C : CRing) junk (l : list (item C)) padding axes, (forall a ds, l <> IArr a :: ds) -> coeffs_to_array C junk l padding axes = Err ValueError.
Proof. exact no_approximation. Qed.
Print Assumptions C108_no_approximation.
Example C108_formats_ex : coeffs_to_array Zring (fun _ => 0) [IArr (zs [2] [1; 2]); IArr (zs [2] [3; 4]); INone; IArr (zs [1; 4] [5; 6; 7; 8])] (Some 0) None = Err ValueError /\
  coeffs_to_array Zring (fun _ => 0) [IArr (zs [2] [1; 2]); IArr (zs [2] [3; 4]); ITup [None]] (Some 0) None = Err AttributeError /\
  (forall x : nd Zring, coeffs_to_array Zring (fun _ => 0) [IArr x; ITup [Some x; Some x; Some x]; ITup [Some x; None; Some x]] (Some 0) None = Err ValueError) /\
  coeffs_to_array Zring (fun _ => 0) [INone] (Some 0) None = Err ValueError /\ coeffs_to_array Zring (fun _ => 0) [] (Some 0) None = Err ValueError.
Proof. repeat split. Qed.
(** A detail that does not fit the place left for it: an error if it cannot be
    repeated to fill it. *)
Example C108_too_wide_ex :
  coeffs_to_array Zring (fun _ => 0) [IArr (zs [2; 2] [1; 2; 3; 4]); IDict [("ad"%string, Some (zs [2; 3] [5; 6; 7; 8; 9; 10])); ("dd"%string, Some (zs [2; 2] [15; 16; 17; 18]))]] (Some 0) None = Err ValueError /\
  coeffs_to_array Zring (fun _ => 0) [IArr (zs [2; 2] [1; 2; 3; 4]); IDict [("da"%string, Some (zs [3; 2] [5; 6; 7; 8; 9; 10])); ("dd"%string, Some (zs [2; 2] [15; 16; 17; 18]))]] (Some 0) None = Err ValueError /\
  (exists sls, coeffs_to_array Zring (fun _ => 0) [IArr (zs [1; 1] [1]); IDict [("ad"%string, Some (zs [1; 1; 1] [5])); ("dd"%string, Some (zs [1; 1] [6]))]] (Some 0) None = Ok (zs [2; 2] [1; 5; 0; 6], sls)) /\
  coeffs_to_array Zring (fun _ => 0) [IArr (zs [1; 1] [1]); IDict [("ad"%string, Some (zs [1; 1; 2] [5; 7])); ("dd"%string, Some (zs [1; 1] [6]))]] (Some 0) None = Err ValueError.
Proof. split; [|split; [|split; [eexists|]]]; vm_compute; reflexivity. Qed.

(** Lists with details of inconsistent shapes are accepted: one detail overwrites
    another, is repeated along an axis that is not transformed, or places of the
    array are left uninitialised. *)
Theorem C108_overwritten_refuted : exists l arr sls back, (forall junk, coeffs_to_array Zring junk l (Some 0) None = Ok (arr, sls)) /\
  array_to_coeffs Zring arr sls FWavedecn = Ok back /\ back <> l.
Proof. exact overwritten. Qed.
Print Assumptions C108_overwritten_refuted.
Theorem C108_repeated_refuted : exists l axes arr sls back d d', (forall junk, coeffs_to_array Zring junk l (Some 0) (Some axes) = Ok (arr, sls)) /\
  array_to_coeffs Zring arr sls FWavedecn = Ok back /\
  nth 1 l INone = IDict d /\ nth 1 back INone = IDict d' /\ dget d "ad" = Some (Some (zs [1; 1; 1] [3])) /\ dget d' "ad" = Some (Some (zs [1; 1; 2] [3; 3])).
Proof. exact repeated. Qed.
Print Assumptions C108_repeated_refuted.
Theorem C108_uninitialised_refuted : exists l junk1 junk2 arr1 arr2 sls, coeffs_to_array Zring junk1 l None None = Ok (arr1, sls) /\ coeffs_to_array Zring junk2 l None None = Ok (arr2, sls) /\ arr1 <> arr2.
Proof. exact uninitialised. Qed.
Print Assumptions C108_uninitialised_refuted.
