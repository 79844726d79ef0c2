(** Concrete data for the examples on distances of n-dimensional data. *)
From Coq Require Import QArith Qcanon String.
From Verif Require Import Base BaseLemmas CConv Spec Instances Lengths Dwt DwtProofs Multilevel MultilevelProofs Facts1 Nd NdSpec Axis AxisProofs Multidim MultidimProofs ExBanks ExNd MultilevelNd MultilevelNdProofs MultilevelNdFacts
  MultidimFacts CyclicMain CyclicNd ParsevalNd DenoiseNdSpec DenoiseNd ExDenoiseQ.
Open Scope list_scope. Open Scope Z_scope.

Definition oplan : list (step Qcring) := [(0%nat, (qbank, PERIODIZATION)); (1%nat, (qbank, PERIODIZATION))].
Definition ow : per_axis (wavelet Qcring) := One qbank.
Definition om : per_axis mode := One PERIODIZATION.
Definition qarr (n : Z) (l : list Z) : sarr Qcring := of_nd (mkNd (C := Qcring) [n; n] (map (fun z => qc z 1) l)).
Definition ox : sarr Qcring := qarr 4 [1; 2; 3; 4; 5; 6; 7; 8; 9; 1; 2; 3; 4; 5; 6; 7].
Definition oy : sarr Qcring := qarr 4 [1; 2; 3; 4; 5; 6; 0; 8; 9; 1; 2; 3; 4; 5; 6; 5].
Lemma qarr_ok n l : 0 <= n -> zlen l = n * n -> sarr_ok Qcring (qarr n l).
Proof.
  intros Hn Hl. apply of_nd_ok. split; [repeat constructor; auto|]. cbn [ndata nshape]. unfold zlen in *. rewrite map_length, Hl. cbn. lia.
Qed.
Lemma ox_ok : sarr_ok Qcring ox /\ sarr_ok Qcring oy.
Proof. split; apply qarr_ok; reflexivity || lia. Qed.
Lemma oplan_orth : orthonormal_levels Qcring oplan [4; 4] 2.
Proof.
  intros s [<-|[<-|[]]]; (split; [reflexivity|]; split; [exact (conj qbank_pr (conj eq_refl eq_refl))|]; exists 1; reflexivity).
Qed.
Lemma oplan_good : plan_good Qcring 99 [16; 16] [4; 4] oplan.
Proof.
  split; [reflexivity|]. split; [reflexivity|]. split; [repeat constructor; cbn; lia|].
  split; [intros [|[|[|k]]]; vm_compute; congruence|].
  split; [repeat constructor; cbn; intuition discriminate|].
  intros s Hi. destruct Hi as [<-|[<-|[]]]; (split; [repeat split; cbn; try lia; vm_compute; congruence|vm_compute; congruence]).
Qed.
Lemma oplan_resolves : resolves Qcring 2 ow om [0; 1] oplan.
Proof. repeat split; vm_compute; reflexivity. Qed.
(** The finest level is dropped. *)
Definition drop_fine (X : list (dict (sarr Qcring))) : list (dict (sarr Qcring)) :=
  match X with
  | [c; f] => [c; map (fun '(k, v) => (k, of_nd (mkNd (C := Qcring) (sshape v) (map (fun _ => qc 0 1) (ndata (val Qcring v)))))) f]
  | _ => X
  end.
