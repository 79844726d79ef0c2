(** Concrete cases for PropsCwtReal.v. *)
From Coq Require Import QArith Reals Qreals Lra Lia ZArith List String.
Import ListNotations.
From Verif Require Import Base Instances CConv Dwt Nd NdSpec Swt Multidim SwtNd Filters Names Cwt CwtSpec CwtProofs CwtMain Wavefun.
From Verif Require Import ContinuousSpec Continuous ContinuousDoc ContinuousMain ExContinuous CwtReal CwtRealSpec CwtRealProofs.
Open Scope R_scope.

Definition mexh_a : cattrs := mkAttrs MEXH 0 Symmetric false (-8) 8 0 0 0.
Lemma attrs_mexh : continuous_attrs "mexh" = Ok mexh_a.
Proof. reflexivity. Qed.

(** Two samples: the only frequency is 1 over the width of the support. *)
Lemma mexh_central : exists q, c_central_frequency mexh_a 1 = Ok q /\ (q == 1 # 16)%Q.
Proof.
  destruct (central_named _ _ 1 attrs_mexh I ltac:(lia) ltac:(unfold max_alloc; lia)) as (f & k & q & _ & (K & _) & E & Q & _).
  exists q. split; [exact E|]. rewrite Q. change (2 ^ 1)%Z with 2%Z in *. replace k with 1%Z by lia. reflexivity.
Qed.

(** Three rows of two samples. *)
Definition rdata : nd CR := @mkNd CR [3; 2]%Z [(1, 0); (2, 0); (-1, 0); (1/2, 0); (0, 0); (PI, 0)].
Lemma rdata_wf : nd_wf rdata.
Proof. split; [repeat constructor; lia|reflexivity]. Qed.
Lemma rdata_real : Forall (fun z : CR => snd z = 0) (ndata rdata).
Proof. repeat constructor. Qed.
Lemma cmor_scales : forall s, In s [1; 5 # 2; 100]%Q -> (0 < s)%Q /\ (1 < inject_Z 1024 * (s * grid_step (linspace (-8) 8 1024)))%Q.
Proof.
  intros s Hs. split; [destruct Hs as [<- |[<- |[<- |[]]]]; reflexivity|].
  destruct (grid_1024 _ _ attrs_cmor) as (-> & _). destruct Hs as [<- |[<- |[<- |[]]]]; reflexivity.
Qed.
Lemma cmor_short : (inject_Z 1024 * ((1 # 17) * ((8 - - (8)) / 1023)) <= 1)%Q.
Proof. discriminate. Qed.
