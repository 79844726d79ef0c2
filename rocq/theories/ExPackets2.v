(** Data for the examples of PropsPackets2.v. *)
From Coq Require Import Ascii String.
From Verif Require Import Base BaseLemmas CConv Spec Instances Lengths Dwt DwtProofs Multilevel MultilevelProofs Swt Nd NdSpec Axis AxisProofs Multidim MultidimProofs MultidimFacts MultilevelNd MultilevelNdProofs SwtNd.
From Verif Require Import Packets PacketsInv PacketsPath PacketsRead PacketsLevel PacketsMax PacketsClasses PacketsFacts PacketsFacts2 PacketsFacts3 PacketsLevel2 PacketsLevel3 ExBanks ExNd ExPackets.
Open Scope string_scope. Open Scope list_scope. Open Scope Z_scope.

(** maxlevel in every class, after every history. *)
Section Max.
Context {C : CRing}.
Variable fuel : nat.
Variable junk : Z -> C.
Variable K : wpclass (nd C).
Hypothesis HC : packet_class fuel junk K.
Lemma pm_tree data maxl ops : tree_ok K (run K [root_node K data maxl] ops).
Proof. apply (run_ok K (pc_ok fuel junk K HC)). apply root_ok. Qed.
Theorem packet_max_above data maxl ops n x a y v : let h := run K [root_node K data maxl] ops in
  nth_error h n = Some x -> above h n a -> nth_error h a = Some y -> known K y v ->
  maxlevel K n h = (set_nth n (set_max x (Some v)) h, Ok (Some v)).
Proof. intros h. apply maxlevel_above. apply pm_tree. Qed.
Theorem packet_max_below data maxl ops n x a y v : let h := run K [root_node K data maxl] ops in
  nth_error h n = Some x -> none_above h n -> below K h n a -> nth_error h a = Some y -> known K y v ->
  maxlevel K n h = (set_nth n (set_max x (Some v)) h, Ok (Some v)).
Proof. intros h. apply maxlevel_below. apply pm_tree. Qed.
Theorem packet_max_nowhere data maxl ops n : let h := run K [root_node K data maxl] ops in
  none_above h n -> none_below K h n -> maxlevel K n h = (h, Ok None).
Proof. intros h. apply maxlevel_nowhere. apply pm_tree. Qed.
Theorem packet_max_cases data maxl ops n x : let h := run K [root_node K data maxl] ops in nth_error h n = Some x ->
  ((exists a, above h n a) \/ none_above h n) /\ ((exists a, below K h n a) \/ none_below K h n).
Proof. intros h Hx. split; [eapply above_or; eauto; apply pm_tree|eapply below_or; eauto; apply pm_tree]. Qed.
Theorem packet_max_data d M ops n x : 0 <= M -> forallb reading ops = true -> let h := run K [root_node K (Some d) (Some M)] ops in
  nth_error h n = Some x -> maxlevel K n h = (h, Ok (Some M)).
Proof. intros HM Hr h Hx. eapply packet_max_level; eauto; [apply (pc_ok fuel junk); auto|apply (pc_keys fuel junk); auto]. Qed.
End Max.

(** A packet without data; a subnode is given data. *)
Definition hm : nheap (nd Zring) := run K5 [root_node K5 None None] [OSet 0 "ad" pk5].
Definition hm2 : nheap (nd Zring) := run K5 [root_node K5 None None] [OSet 0 "ad" pk5; OData 2 None; OData 0 (Some pk5)].

(** Level 0 in frequency order is empty, in two dimensions too. *)
Lemma level0_freq2 : exists (data : nd Zring) w m h0 h,
  packet2 99 jk (Some data) w None [0; 1] = Ok h0 /\ pr_wavelet w /\ nd_wf data /\
  get_level_2d_freq (wp2 99 jk w m [0; 1]) 5 0 0 true h0 = (h, Ok []) /\
  get_level (wp2 99 jk w m [0; 1]) 5 0 0 false true h0 = (h, Ok [0%nat]).
Proof.
  exists pk33, zbank2, SYMMETRIC. eexists. eexists. split; [vm_compute; reflexivity|]. split; [exact zbank2_pr|]. split; [exact pk33_wf|].
  split; vm_compute; reflexivity.
Qed.

Lemma hm_above : above hm 2 2.
Proof. eapply above_here; [vm_compute; reflexivity|intros (_ & H); discriminate]. Qed.
Lemma hm2_above : above hm2 2 0.
Proof.
  eapply above_up; [vm_compute; reflexivity|split; reflexivity|reflexivity|].
  eapply above_up; [vm_compute; reflexivity|split; reflexivity|reflexivity|].
  eapply above_here; [vm_compute; reflexivity|intros (_ & H); discriminate].
Qed.
Lemma hm_none : none_above hm 1.
Proof.
  eapply none_up; [vm_compute; reflexivity|split; reflexivity|reflexivity|].
  eapply none_root; [vm_compute; reflexivity|split; reflexivity|reflexivity].
Qed.
Lemma hm_below : below K5 hm 1 2.
Proof.
  eapply (below_down K5 hm 1 _ ["a"] "d" []); [vm_compute; reflexivity|split; reflexivity|reflexivity| |reflexivity|].
  - intros q d [<-|[]] H. vm_compute in H. discriminate.
  - eapply below_here; [vm_compute; reflexivity|intros (_ & H); discriminate].
Qed.
Definition hm0 : nheap (nd Zring) := run K5 [root_node K5 None None] [OSet 0 "ad" pk5; OData 2 None].
Lemma hm0_none : none_above hm0 1 /\ none_below K5 hm0 1.
Proof.
  split.
  - eapply none_up; [vm_compute; reflexivity|split; reflexivity|reflexivity|].
    eapply none_root; [vm_compute; reflexivity|split; reflexivity|reflexivity].
  - econstructor; [vm_compute; reflexivity|split; reflexivity|]. intros q d [<-|[<-|[]]] H; vm_compute in H; [discriminate|]. injection H as <-.
    econstructor; [vm_compute; reflexivity|split; reflexivity|]. intros q d [<-|[<-|[]]] H; vm_compute in H; discriminate.
Qed.
