(** Concrete packet trees: counterexamples and data for the examples. *)
From Coq Require Import String.
From Verif Require Import Base BaseLemmas CConv Spec Instances Lengths Dwt DwtProofs Multilevel MultilevelProofs Swt Nd NdSpec Axis AxisProofs Multidim MultidimProofs MultilevelNd MultilevelNdProofs SwtNd.
From Verif Require Import Packets PacketsInv PacketsRead PacketsSpec PacketsLevel PacketsFacts2 PacketsFacts3 PacketsRebuild PacketsRebuild2 ExBanks ExNd.
Open Scope string_scope. Open Scope list_scope. Open Scope Z_scope.

Definition pk (l : list Z) : nd Zring := mkNd (C := Zring) [zlen l] l.
Definition pk5 : nd Zring := pk [3; 1; 4; 1; 5].
Definition pk33 : nd Zring := mkNd (C := Zring) [3; 3] [1; 2; 3; 4; 5; 6; 7; 8; 9].
Definition pk22 : nd Zring := mkNd (C := Zring) [2; 2] [1; 2; 3; 4].
Definition K5 : wpclass (nd Zring) := wp1 99 jk zbank2 SYMMETRIC 0.
Definition K33 : wpclass (nd Zring) := wp2 99 jk zbank2 SYMMETRIC [0; 1].
Definition K22 : wpclass (nd Zring) := wpn 99 jk zbank2 SYMMETRIC [0; -1].
Definition sa : step Zring := (0%nat, (zbank2, SYMMETRIC)).
Definition sb : step Zring := (1%nat, (zbank2, SYMMETRIC)).

(** What is found under a path, and what reconstruct returns. *)
Definition data_at {D} (K : wpclass D) (path : string) (h : nheap D) : option D :=
  match getitem K 0 path h with (h', Ok c) => match nth_error h' c with Some x => ndat x | None => None end | _ => None end.

Lemma pk5_wf : nd_wf pk5. Proof. split; [repeat constructor; cbn; lia|reflexivity]. Qed.
Lemma pk33_wf : nd_wf pk33. Proof. split; [repeat constructor; cbn; lia|reflexivity]. Qed.
Lemma pk22_wf : nd_wf pk22. Proof. split; [repeat constructor; cbn; lia|reflexivity]. Qed.
Lemma pg33 : plan_good Zring 99 [16; 16] (nshape pk33) [sa; sb].
Proof.
  split; [reflexivity|]. split; [reflexivity|]. split; [repeat constructor; cbn; lia|].
  split; [intros [|[|[|k]]]; vm_compute; congruence|].
  split; [repeat constructor; cbn; intuition discriminate|].
  intros s [<-|[<-|[]]]; (split; [|vm_compute; congruence]); (split; [cbn; lia|]); (split; [apply pr_wf; exact zbank2_pr|]);
    (split; [vm_compute; congruence|]); split; vm_compute; congruence.
Qed.
Lemma pg22 : plan_good Zring 99 [16; 16] (nshape pk22) [sa; sb].
Proof.
  split; [reflexivity|]. split; [reflexivity|]. split; [repeat constructor; cbn; lia|].
  split; [intros [|[|[|k]]]; vm_compute; congruence|].
  split; [repeat constructor; cbn; intuition discriminate|].
  intros s [<-|[<-|[]]]; (split; [|vm_compute; congruence]); (split; [cbn; lia|]); (split; [apply pr_wf; exact zbank2_pr|]);
    (split; [vm_compute; congruence|]); split; vm_compute; congruence.
Qed.

(** Level 0 in frequency order is empty. *)
Lemma level0_freq : exists (data : nd Zring) w m axis h0 h,
  packet1 99 jk (Some data) w None axis = Ok (0, h0) /\ pr_wavelet w /\ nd_wf data /\
  get_level (wp1 99 jk w m 0) 5 0 0 true true h0 = (h, Ok []) /\
  get_level (wp1 99 jk w m 0) 5 0 0 false true h0 = (h, Ok [0%nat]).
Proof.
  exists pk5, zbank2, SYMMETRIC, 0. eexists. eexists. split; [vm_compute; reflexivity|]. split; [exact zbank2_pr|]. split; [exact pk5_wf|].
  split; vm_compute; reflexivity.
Qed.

(** Reading "d" replaces the node the user stored under "a". *)
Lemma read_overwrites : exists (data X : nd Zring) w m axis h0,
  packet1 99 jk (Some data) w None axis = Ok (0, h0) /\ pr_wavelet w /\ nd_wf data /\ nd_wf X /\
  let K := wp1 99 jk w m 0 in
  data_at K "a" (run K h0 [OSet 0 "a" X]) = Some X /\
  data_at K "a" (run K h0 [OSet 0 "a" X; OGet 0 "d"]) <> Some X /\
  data_at K "a" (run K h0 [OSet 0 "a" X; OGet 0 "d"]) <> None.
Proof.
  exists pk5, (pk [7; 7; 7]), zbank2, SYMMETRIC, 0. eexists. split; [vm_compute; reflexivity|]. split; [exact zbank2_pr|]. split; [exact pk5_wf|].
  split; [split; [repeat constructor; cbn; lia|reflexivity]|]. cbv zeta. split; [vm_compute; reflexivity|]. split; vm_compute; congruence.
Qed.

(** WaveletPacketND does not trim: odd sizes are not reconstructed. *)
Lemma packetn_odd : exists (data : nd Zring) w m h0,
  packetn 99 jk (Some data) w None None = Ok ([0], h0) /\ pr_wavelet w /\ nd_wf data /\ levels_ok m (dec_len w) 1 (nthz 0 (nshape data)) /\
  let K := wpn 99 jk w m [0] in
  snd (root_reconstruct K (Some (nshape data)) 0 false (run K h0 [OGet 0 "a"])) = Err IndexError.
Proof.
  exists (pk [3; 1; 4]), zbank2, SYMMETRIC. eexists. split; [vm_compute; reflexivity|]. split; [exact zbank2_pr|].
  split; [split; [repeat constructor; cbn; lia|reflexivity]|]. split; [apply levels_ok_intro; cbn; lia|]. cbv zeta. vm_compute. reflexivity.
Qed.

(** Rebuilding from leaves fails if a size on the way is odd. *)
Definition tree1 : ptree := PSplit (fun p => if String.eqb p "a" then PSplit (fun _ => PLeaf) else PLeaf).
Definition tree2 : ptree := PSplit (fun _ => PSplit (fun _ => PLeaf)).
Lemma rebuild_odd : exists (data : nd Zring) w m T1 T2 r,
  pr_wavelet w /\ nd_wf data /\ levels_ok m (dec_len w) 2 (nthz 0 (nshape data)) /\ depth_le ["a"; "d"] T1 2 /\ depth_le ["a"; "d"] T2 2 /\
  let K := wp1 99 jk w m 0 in
  let build T := run K [root_node K None (Some 2)] (map (fun s => OSet 0 s (packet_data 0 m w s data)) (leaf_paths ["a"; "d"] T)) in
  snd (root_reconstruct K None 0 false (build T1)) = Err ValueError /\
  snd (root_reconstruct K None 0 false (build T2)) = Ok (Some r) /\ nshape r <> nshape data.
Proof.
  exists (pk [3; 1; 4; 1; 5; 9]), zbank2, SYMMETRIC, tree1, tree2. eexists. split; [exact zbank2_pr|].
  split; [split; [repeat constructor; cbn; lia|reflexivity]|]. split; [apply levels_ok_intro; cbn; lia|].
  split; [cbn; intros p [<-|[<-|[]]]; cbn; auto|]. split; [cbn; intros p [<-|[<-|[]]]; cbn; auto|].
  cbv zeta. split; [vm_compute; reflexivity|]. split; [vm_compute; reflexivity|]. vm_compute. congruence.
Qed.
