(** Distances of n-dimensional arrays in terms of the lists of their elements. *)
From Coq Require Import Ascii String.
From Verif Require Import Base BaseLemmas CConv Nd Axis AxisProofs Multidim ParsevalNd Denoise DenoiseSpec DenoiseNdSpec DenoiseNd.
Open Scope list_scope. Open Scope Z_scope.

Section F.
Variable C : CRing.
Add Ring Cring_ring_dnf : (rth C).

Lemma sumZ_blocks n P (g : Z -> C) : 0 <= n -> 0 <= P -> sumZ 0 n (fun i => sumZ 0 P (fun j => g (i * P + j))) = sumZ 0 (n * P) g.
Proof.
  intros Hn HP. revert n Hn. apply natlike_ind; [reflexivity|]. intros k Hk IH. unfold Z.succ.
  rewrite sumZ_last by lia. rewrite IH. rewrite (sumZ_split C 0 (k * P) ((k + 1) * P)) by nia. f_equal.
  replace (k * P) with (0 + k * P) by lia. replace ((k + 1) * P) with (P + k * P) by lia. rewrite (sumZ_shift C 0 P (k * P)). apply sumZ_ext. intros i Hi. f_equal. lia.
Qed.
Lemma ndsum_flat sh : shape_ok sh -> forall g : Z -> C, ndsum C sh (fun idx => g (ravel sh idx)) = sumZ 0 (prodZ sh) g.
Proof.
  intros H. induction H as [|n t Hn Ht IH]; intros g; cbn [ndsum ravel].
  - change (prodZ []) with 1. rewrite (sumZ_single C 0 1 0); auto; intros; lia.
  - change (prodZ (n :: t)) with (n * prodZ t). rewrite <- sumZ_blocks by (auto; apply prodZ_nonneg; auto). apply sumZ_ext. intros i _. exact (IH (fun j => g (i * prodZ t + j))).
Qed.
Lemma nddist2_flat (u v : nd C) : nd_wf u -> nshape v = nshape u -> nddist2 u v = dist2 (ndata u) (ndata v).
Proof.
  intros (S & L) HS. unfold nddist2, dist2, ndget. rewrite HS, L. apply (ndsum_flat (nshape u) S (fun i => (gz (ndata u) i [-] gz (ndata v) i) [*] (gz (ndata u) i [-] gz (ndata v) i))).
Qed.
Lemma dist2s_app (X X' Y Y' : list (list C)) : List.length X = List.length X' -> dist2s (X ++ Y) (X' ++ Y') = dist2s X X' [+] dist2s Y Y'.
Proof.
  revert X'. induction X as [|u X IH]; intros [|v X'] H; try discriminate; cbn [app dist2s]; [ring|]. rewrite IH by (injection H; auto). ring.
Qed.
Lemma ddist2_flat (d e : dict (sarr C)) : Forall (fun p => sarr_ok C (snd p)) d -> alike d e ->
  ddist2 d e = dist2s (map (fun p => ndata (val C (snd p))) d) (map (fun p => ndata (val C (snd p))) e).
Proof.
  intros Hd H. induction H as [|(k & u) (k' & v) d e (E & O & S) H IH]; [reflexivity|]. inversion Hd as [|? ? Hu Hd']; subst. cbn [map ddist2 dist2s fst snd] in *.
  rewrite IH by auto. rewrite nddist2_flat; [reflexivity|apply val_wf; auto|]. exact S.
Qed.
Lemma ddist2s_flat (X Y : list (dict (sarr C))) : Forall (Forall (fun p => sarr_ok C (snd p))) X -> Forall2 alike X Y -> ddist2s X Y = dist2s (arrays_of X) (arrays_of Y).
Proof.
  intros Hd H. induction H as [|d e X Y H HF IH]; [reflexivity|]. inversion Hd as [|? ? Hu Hd']; subst. unfold arrays_of in *. cbn [map concat ddist2s].
  rewrite dist2s_app by (rewrite !map_length; symmetry; apply (Forall2_len _ _ _ H)). rewrite IH, ddist2_flat by auto. reflexivity.
Qed.
Lemma alike_ok (X Y : list (dict (sarr C))) : Forall2 alike X Y -> Forall (Forall (fun p => sarr_ok C (snd p))) Y.
Proof. intros H. induction H as [|d e X Y H HF IH]; constructor; auto. induction H as [|p q d e (E & O & S) H IH']; constructor; auto. Qed.
Lemma shape_flat (X Y : list (dict (sarr C))) : Forall (Forall (fun p => sarr_ok C (snd p))) X -> Forall2 alike X Y -> same_shape C (arrays_of X) (arrays_of Y).
Proof.
  intros Hd H. unfold arrays_of. induction H as [|d e X Y H HF IH]; [constructor|]. inversion Hd as [|? ? Hu Hd']; subst. cbn [map concat]. apply Forall2_app; [|apply IH; auto].
  clear - Hu H. induction H as [|(k & u) (k' & v) d e (E & O & S) H IH]; cbn [map]; constructor; [|inversion Hu; auto]. inversion Hu as [|? ? Hk Hu']; subst. cbn [fst snd] in *.
  destruct (val_wf C u Hk) as (_ & L1). destruct (val_wf C v O) as (_ & L2). rewrite L1, L2, !nshape_val, S. reflexivity.
Qed.
Lemma arrays_vals (X Y : list (dict (sarr C))) : map (vals C) X = map (vals C) Y -> arrays_of X = arrays_of Y.
Proof.
  intros H. unfold arrays_of. f_equal. assert (G : forall Z : list (dict (sarr C)), map (map (fun p => ndata (val C (snd p)))) Z = map (map (@ndata C)) (map (vals C) Z)).
  { intros Z. rewrite map_map. apply map_ext. intros d. unfold vals. rewrite map_map. reflexivity. }
  rewrite !G, H. reflexivity.
Qed.
End F.
