(** Missing coefficients, and examples of packing. *)
From Coq Require Import Ascii String Permutation Sorted.
From Verif Require Import Base BaseLemmas Instances Dwt Nd Swt AxisProofs Multidim MultidimProofs MultidimFacts MultilevelNd MultilevelNdProofs SwtNd PackSpec Packing PackRavel PackRavelFacts PackBox PackArray PackArrayFacts.
Open Scope Z_scope.

Section M.
Variable C : CRing.
Definition odicts (ds : list (dict (option (nd C)))) : list (item C) := map (@IDict C) ds.
Definition first_key (axes : option (list Z)) (a : nd C) (ds : list (dict (option (nd C)))) : Prop :=
  match ds with d :: _ => exists k x t, d = (k, x) :: t /\ axes_fit axes (String.length k) (List.length (nshape a)) | [] => False end.
Definition missing (ds : list (dict (option (nd C)))) : Prop := exists d k, In d ds /\ In (k, None) d.

Lemma prepare_odicts axes a ds : first_key axes a ds -> prepare C (IArr a :: odicts ds) axes = Ok (a, odicts ds, Some (the_axes C axes a)).
Proof.
  destruct ds as [|d ds]; [intros []|]. intros (k & x & t & -> & Hf). cbn [odicts map prepare bind].
  unfold axes_fit, the_axes in *. destruct axes as [l|]; cbn [bind].
  - rewrite Hf, Nat.eqb_refl. reflexivity.
  - rewrite Hf. replace (Z.of_nat (List.length (nshape a)) <? zlen (nshape a)) with false by (unfold zlen; lia).
    cbn [bind]. rewrite map_length, seq_length, Nat.eqb_refl. reflexivity.
Qed.

Lemma size_missing : forall ds n, missing ds -> coeffs_size C n (odicts ds) = Err ValueError.
Proof.
  assert (G : forall d n, (exists k, In (k, None) d) ->
    foldM (fun n '(_, v) => match v with None => Err ValueError | Some a => Ok (n + prodZ (nshape a)) end) n (d : dict (option (nd C))) = Err ValueError).
  { induction d as [|(k, [x|]) d IH]; intros n (j & Hj); [destruct Hj| |reflexivity]. cbn [foldM bind]. apply IH. destruct Hj as [E|Hj]; [discriminate|eauto]. }
  assert (G2 : forall d n, foldM (fun n '(_, v) => match v with None => Err ValueError | Some a => Ok (n + prodZ (nshape a)) end) n (d : dict (option (nd C))) = Err ValueError
     \/ exists m, foldM (fun n '(_, v) => match v with None => Err ValueError | Some a => Ok (n + prodZ (nshape a)) end) n d = Ok m).
  { induction d as [|(k, [x|]) d IH]; intros n; cbn [foldM bind]; eauto. }
  induction ds as [|d ds IH]; intros n (e & k & Hi & Hk); [destruct Hi|]. cbn [odicts map coeffs_size as_dict bind].
  destruct Hi as [<-|Hi].
  - rewrite G by eauto. reflexivity.
  - destruct (G2 d n) as [-> |(m & ->)]; [reflexivity|]. cbn [bind]. apply IH. exists e, k. auto.
Qed.
(** ravel_coeffs *)
Theorem ravel_missing junk axes a ds : first_key axes a ds -> missing ds -> ravel_coeffs C junk (IArr a :: odicts ds) axes = Err ValueError.
Proof. intros H1 H2. unfold ravel_coeffs. rewrite prepare_odicts by auto. cbn [bind]. rewrite size_missing by auto. reflexivity. Qed.

(** coeffs_to_array: something is raised. *)
Theorem array_missing junk padding axes a ds : first_key axes a ds -> missing ds ->
  forall r, coeffs_to_array C junk (IArr a :: odicts ds) padding axes <> Ok r.
Proof.
  intros H1 H2 r. unfold coeffs_to_array. rewrite prepare_odicts by auto. cbn [bind].
  assert (G : forall d : dict (option (nd C)), (exists k, In (k, None) d) -> forall v, mapM (fun '(_, v) => a <- as_arr C v;; Ok (prodZ (nshape a))) d <> Ok v).
  { induction d as [|(k, [x|]) d IH]; intros (j & Hj) v; [destruct Hj| |discriminate]. destruct Hj as [E|Hj]; [discriminate|].
    cbn [mapM as_arr bind]. specialize (IH (ex_intro _ j Hj)). destruct (mapM _ d); cbn [bind]; try discriminate. exfalso. eapply IH. reflexivity. }
  assert (G2 : forall arr n axs v, array_shape C arr n (odicts ds) axs <> Ok v).
  { clear H1. induction ds as [|d ds IH]; intros arr n axs v; [destruct H2 as (? & ? & [] & _)|]. cbn [odicts map array_shape as_dict bind].
    destruct (dgetE d _) as [o| | |]; cbn [bind]; try discriminate. destruct o as [x|]; cbn [as_arr bind]; [|discriminate].
    destruct (add_axes _ _ _) as [s| | |]; cbn [bind]; try discriminate.
    destruct H2 as (e & k & Hi & Hk). destruct (mapM _ d) as [sz| | |] eqn:E; cbn [bind]; try discriminate.
    destruct Hi as [<-|Hi]; [exfalso; exact (G d (ex_intro _ k Hk) sz E)|]. apply IH. exists e, k. auto. }
  destruct (array_shape C _ _ _ _) as [v| | |] eqn:E; cbn [bind]; try discriminate. exfalso. exact (G2 _ _ _ _ E).
Qed.
End M.
Lemma array_missing_bad : exists (a : nd Zring) (ds : list (dict (option (nd Zring)))),
  nd_wf a /\ first_key Zring None a ds /\ missing Zring ds /\
  (forall junk padding, coeffs_to_array Zring junk (IArr a :: odicts Zring ds) padding None = Err AttributeError) /\
  ravel_coeffs Zring (fun _ => 7) (IArr a :: odicts Zring ds) None = Err ValueError.
Proof.
  exists (mkNd (C := Zring) [2] [1; 2]), [[("d"%string, None)]]. split; [split; [repeat constructor; lia|reflexivity]|].
  split; [exists "d"%string, None, []; split; reflexivity|]. split; [exists [("d"%string, None)], "d"%string; cbn; auto|].
  split; [intros j [p|]; reflexivity|reflexivity].
Qed.

(** A 3x2 approximation with two levels of details over both axes; the second
    level is smaller than what was reached, so that padding is needed. *)
Definition pa : nd Zring := mkNd (C := Zring) [1; 2] [1; 2].
Definition pband (s : list Z) (v : Z) : nd Zring := ndtab (C := Zring) s (fun idx => v + dot idx [10; 1]).
Definition pls : list (list Z * dict (nd Zring)) :=
  [([1; 2], [("ad", pband [1; 2] 100); ("da", pband [1; 2] 200); ("dd", pband [1; 2] 300)]);
   ([2; 3], [("da", pband [2; 3] 400); ("ad", pband [2; 3] 500); ("dd", pband [2; 3] 600)])]%string.
Definition parr : nd Zring := mkNd (C := Zring) [4; 7]
  [1; 2; 100; 101; 500; 501; 502;
   200; 201; 300; 301; 510; 511; 512;
   400; 401; 402; -9; 600; 601; 602;
   410; 411; 412; -9; 610; 611; 612].
Lemma pa_wf : nd_wf pa.
Proof. split; [repeat constructor; lia|reflexivity]. Qed.

Ltac in_cases H := repeat (destruct H as [H|H]; [injection H as <- <-|]); [..|destruct H].
Lemma pls_ok : details_ok Zring (Some [0; -1]) pa [0%nat; 1%nat] pls.
Proof.
  split.
  - split; [repeat constructor; cbn; intuition discriminate|]. repeat constructor; cbn; lia.
  - cbn [pls levels_are level_ok fst nshape pa List.length].
    assert (W : forall s v, shape_ok s -> nd_wf (pband s v)) by (intros; apply ndtab_wf; auto).
    assert (S1 : shape_ok [1; 2]) by (repeat constructor; lia). assert (S2 : shape_ok [2; 3]) by (repeat constructor; lia).
    split; [|split; [|exact I]]; (split; [reflexivity|]; split; [auto|]; split; [intros [|[|ax]] Hx; try (exfalso; apply Hx; cbn; auto; fail); destruct ax; reflexivity|];
      split; [intros ax [<-|[<-|[]]]; cbv; congruence|]; split; [split; [repeat constructor; cbn; intuition discriminate|intros k x H; in_cases H; auto]|];
      split; [cbn; auto|]; intros k x H; in_cases H; (split; [cbn; auto|]; split; [reflexivity|]; split; [discriminate|reflexivity])).
Qed.
Lemma parr_ok : exists sls, (forall junk, coeffs_to_array Zring junk (IArr pa :: dicts Zring (map snd pls)) (Some (-9)) (Some [0; -1]) = Ok (parr, sls)) /\
  (forall junk, coeffs_to_array Zring junk (IArr pa :: dicts Zring (map snd pls)) None (Some [0; -1]) = Err ValueError).
Proof. eexists. split; intros junk; vm_compute; reflexivity. Qed.
