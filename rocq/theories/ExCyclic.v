(** Concrete data for the examples on periodization mode. *)
From Coq Require Import String.
From Verif Require Import Base BaseLemmas CConv Spec Instances Lengths Dwt DwtProofs Multilevel MultilevelProofs Swt Nd NdSpec Axis AxisProofs Multidim MultidimProofs ExBanks ExNd MultilevelNd MultilevelNdProofs MultilevelNdFacts
  MultidimFacts SwtNd MranSum MranAdd CyclicMain CyclicNd ParsevalNd RollNd.

Definition p0 : step Zring := (0%nat, (zbank, PERIODIZATION)).
Definition p1 : step Zring := (1%nat, (zbank2, PERIODIZATION)).
Definition pplan : list (step Zring) := [p0; p1].
Definition pw : per_axis (wavelet Zring) := Seq [zbank; zbank2].
Definition pm : per_axis mode := One PERIODIZATION.

(** The dual bank: reversed reconstruction filters. *)
Definition dualw (w : wavelet Zring) : wavelet Zring := mkWavelet (C := Zring) (rev (rec_lo w)) (rev (rec_hi w)) (rev (dec_lo w)) (rev (dec_hi w)).
Lemma zbank_dual : dual Zring zbank (dualw zbank).
Proof. split; [exact zbank_pr|]. split; [repeat split; vm_compute; congruence|]. split; reflexivity. Qed.
Lemma zbank2_dual : dual Zring zbank2 (dualw zbank2).
Proof. split; [exact zbank2_pr|]. split; [repeat split; vm_compute; congruence|]. split; reflexivity. Qed.
Definition dplan : list (step Zring) := [(0%nat, (dualw zbank, PERIODIZATION)); (1%nat, (dualw zbank2, PERIODIZATION))].
Definition dw : per_axis (wavelet Zring) := Seq [dualw zbank; dualw zbank2].

Lemma pplan_good plan sh : (plan = pplan \/ plan = dplan) -> (sh = [2; 4] \/ sh = [4; 4]) -> plan_good Zring 99 [16; 16] sh plan.
Proof.
  intros Hp Hs. split; [reflexivity|]. split; [destruct Hs; subst; reflexivity|]. split; [destruct Hs; subst; repeat constructor; cbn; lia|].
  split; [destruct Hs; subst; intros [|[|[|k]]]; vm_compute; congruence|].
  split; [destruct Hp; subst; repeat constructor; cbn; intuition discriminate|].
  intros s Hi. destruct Hp, Hs; subst; destruct Hi as [<-|[<-|[]]]; (split; [repeat split; cbn; try lia; vm_compute; congruence|vm_compute; congruence]).
Qed.
Lemma pplan_resolves : resolves Zring 2 pw pm [0; 1] pplan /\ resolves Zring 2 dw pm [0; 1] dplan.
Proof. repeat split; vm_compute; reflexivity. Qed.
Lemma pplan_periodized sh n : (2 ^ Z.of_nat n | nthz 0 sh) -> (2 ^ Z.of_nat n | nthz 1 sh) -> periodized Zring pplan sh n.
Proof. intros H0 H1 s [<-|[<-|[]]]; (split; [reflexivity|]); (split; [first [exact zbank_pr|exact zbank2_pr]|]); assumption. Qed.

(** Coefficients of a 2x4 array, all different. *)
Definition bnd (a b : Z) : sarr Zring := of_nd (mkNd (C := Zring) [1; 2] [a; b]).
Definition pD : dict (sarr Zring) := [("dd", bnd 7 8); ("aa", bnd 1 2); ("ad", bnd 3 4); ("da", bnd 5 6)]%string.
Definition pY (k : string) : nd Zring := match dget pD k with Some v => val Zring v | None => ndtab [] (fun _ => r0) end.
Lemma pD_ok : forall k v, In (k, v) pD -> In k (ad_keys (List.length pplan)) /\ sarr_ok Zring v /\ sshape v = [1; 2] /\ val Zring v = pY k.
Proof.
  intros k v Hi. repeat (destruct Hi as [E|Hi]; [injection E as <- <-; split; [vm_compute; tauto|]; split; [apply of_nd_ok; split; [repeat constructor; cbn; lia|reflexivity]|]; split; reflexivity|]). destruct Hi.
Qed.
Lemma pD_full : forall k, In k (ad_keys (List.length pplan)) -> exists v, dget pD k = Some v.
Proof. intros k Hi. repeat (destruct Hi as [<-|Hi]; [eexists; reflexivity|]). destruct Hi. Qed.

(** Coefficients of a 4x4 array, two levels. *)
Definition b2 (a : Z) : sarr Zring := of_nd (mkNd (C := Zring) [2; 2] [a; a + 1; a + 2; a * a]).
Definition b1 (a : Z) : sarr Zring := of_nd (mkNd (C := Zring) [1; 1] [a]).
Definition pds : list (dict (sarr Zring)) := [[("ad", b1 2); ("da", b1 3); ("dd", b1 4)]; [("ad", b2 5); ("da", b2 6); ("dd", b2 7)]]%string.
Definition pV (j : nat) (k : string) : nd Zring :=
  match nth_error pds j with Some d => match dget d k with Some v => val Zring v | None => ndtab [] (fun _ => r0) end | None => ndtab [] (fun _ => r0) end.
Lemma pds_hold : ds_hold Zring 2 (fun j => lev_shape Zring pplan (2 - j) [4; 4]) (tl (ad_keys (List.length pplan))) pds pV.
Proof.
  split; [reflexivity|]. intros j d Hj.
  assert (W1 : forall a, sarr_ok Zring (b1 a)) by (intros a; apply of_nd_ok; split; [repeat constructor; cbn; lia|reflexivity]).
  assert (W2 : forall a, sarr_ok Zring (b2 a)) by (intros a; apply of_nd_ok; split; [repeat constructor; cbn; lia|reflexivity]).
  destruct j as [|[|j]]; [| |destruct j; discriminate]; injection Hj as <-; (split; [reflexivity|]); intros k v Hg;
    apply dget_In in Hg; repeat (destruct Hg as [E|Hg]; [injection E as <- <-; split; [auto|]; split; vm_compute; reflexivity|]); destruct Hg.
Qed.

(** Data for inner products and shifts. *)
Definition x44 : sarr Zring := of_nd (mkNd (C := Zring) [4; 4] [1; 2; 3; 4; 5; 6; 7; 8; 9; 1; 2; 3; 4; 5; 6; 7]).
Definition y44 : sarr Zring := of_nd (mkNd (C := Zring) [4; 4] [0; 1; 0; 2; 0; 3; 1; 1; 1; 0; 0; 5; 0; 7; 0; 9]).
Lemma x44_ok : sarr_ok Zring x44.
Proof. apply of_nd_ok. split; [repeat constructor; cbn; lia|reflexivity]. Qed.
Lemma y44_ok : sarr_ok Zring y44.
Proof. apply of_nd_ok. split; [repeat constructor; cbn; lia|reflexivity]. Qed.
Definition roll44 (s : Z) : sarr Zring := of_nd (ndroll Zring 1 s (val Zring x44)).
Lemma roll44_ok s : sarr_ok Zring (roll44 s) /\ val Zring (roll44 s) = ndroll Zring 1 s (val Zring x44).
Proof.
  assert (W : nd_wf (ndroll Zring 1 s (val Zring x44))) by (apply ndroll_wf, val_wf, x44_ok).
  split; [apply of_nd_ok; auto|apply val_of_nd; auto].
Qed.
Lemma pdual_plan : dual_plan Zring pplan dplan [4; 4].
Proof.
  split; [repeat constructor; cbn; intuition discriminate|].
  apply Forall2_cons; [|apply Forall2_cons; [|constructor]]; (split; [reflexivity|]; split; [reflexivity|]; split; [reflexivity|]; split; [first [exact zbank_dual|exact zbank2_dual]|]; vm_compute; repeat split; try lia; congruence).
Qed.
Lemma pdual_levels : dual_levels Zring pplan dplan [4; 4] 2.
Proof.
  apply Forall2_cons; [|apply Forall2_cons; [|constructor]]; (split; [reflexivity|]; split; [reflexivity|]; split; [reflexivity|]; split; [first [exact zbank_dual|exact zbank2_dual]|]; exists 1; reflexivity).
Qed.

(** With other modes dwt does not invert idwt. *)
Lemma symmetric_not_inverse : exists cA cD x, pr_wavelet zbank /\ zlen cA = zlen cD /\
  idwt (C := Zring) 99 (Some cA) (Some cD) zbank SYMMETRIC = Ok x /\ exists a d, dwt 99 x zbank SYMMETRIC = Ok (a, d) /\ zlen a = zlen cA /\ (a, d) <> (cA, cD).
Proof.
  exists [1; 2; 3], [4; 5; 7]. eexists. split; [exact zbank_pr|]. split; [reflexivity|]. split; [vm_compute; reflexivity|].
  eexists _, _. split; [vm_compute; reflexivity|]. split; [reflexivity|congruence].
Qed.
