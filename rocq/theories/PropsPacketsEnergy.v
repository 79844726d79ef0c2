(** Property theorems for inner products of wavelet packets (C120). *)
From Coq Require Import QArith Qcanon String Ascii.
From Verif Require Import Base BaseLemmas CConv Spec Instances Lengths Dwt DwtProofs Multilevel MultilevelProofs Nd NdSpec Axis AxisProofs Multidim MultidimProofs Facts1 ExBanks CyclicMain CyclicNd ParsevalNd
  Packets PacketsInv PacketsRead PacketsRebuild PacketsRebuild2 PacketsFacts2 PacketsEnergy PacketsEnergyNd ExDenoiseQ ExDenoiseNd ExPacketsEnergy.
Import ListNotations.
Open Scope string_scope. Open Scope list_scope. Open Scope Z_scope.

(** Two packets, each after any history of reading; [T] any complete tree, its
    leaves a basis. *)
Theorem C120_packet : forall (C : CRing) fuel (junk : Z -> C) (x y : nd C) w M axis (ax : nat) hx hy opsx opsy T,
  let K := wp1 fuel junk w PERIODIZATION (Z.of_nat ax) in let n := nthz ax (nshape x) in
  orthonormal w -> nd_wf x -> nd_wf y -> nshape y = nshape x -> zlen (nshape x) <= 64 -> 0 <= M -> 1 <= n -> (2 ^ M | n) ->
  packet1 fuel junk (Some x) w (Some M) axis = Ok (Z.of_nat ax, hx) -> packet1 fuel junk (Some y) w (Some M) axis = Ok (Z.of_nat ax, hy) ->
  resources fuel n (dec_len w) -> prodZ (setn ax (2 * Z.max n (dec_len w)) (nshape x)) < max_alloc ->
  forallb analysing opsx = true -> forallb analysing opsy = true -> depth_le ["a"; "d"] T (Z.to_nat M) ->
  exists X Y, (forall s, In s (leaf_paths ["a"; "d"] T) -> node_data K (run K hx opsx) s (X s) /\ node_data K (run K hy opsy) s (Y s)) /\
    lsum C (map (fun s => ndinner C (X s) (Y s)) (leaf_paths ["a"; "d"] T)) = ndinner C x y.
Proof. exact packet1_inner. Qed.
Print Assumptions C120_packet.
Example C120_packet_ex : orthonormal qbank /\ nd_wf ex8 /\ (2 ^ 2 | nthz 0 (nshape ex8)) /\
  packet1 99 ej (Some ex8) qbank (Some 2) (-1) = Ok (0, [root_node (wp1 99 ej qbank PERIODIZATION 0) (Some ex8) (Some 2)]) /\
  resources 99 8 (dec_len qbank) /\ leaf_paths ["a"; "d"] etree = ["aa"; "ad"; "d"] /\ depth_le ["a"; "d"] etree 2 /\ this_of (ndinner Qcring ex8 ex8) = (173 # 1)%Q /\
  map en1 ["aa"; "ad"; "d"] = [18271124 # 3570125; 134935826 # 3570125; 109923 # 845]%Q /\ ((18271124 # 3570125) + (134935826 # 3570125) + (109923 # 845) == 173 # 1)%Q.
Proof.
  split; [exact (conj qbank_pr (conj eq_refl eq_refl))|]. split; [exact ex8_wf|]. split; [exists 2; reflexivity|]. split; [reflexivity|]. split; [vm_compute; repeat split; congruence|].
  split; [reflexivity|]. split; [intros p [<-|[<-|[]]]; cbn; auto|]. split; [vm_compute; reflexivity|]. split; vm_compute; reflexivity.
Qed.

Theorem C120_packet_2d : forall (C : CRing) fuel (junk : Z -> C) (x y : nd C) w M axes1 axes2 s1 s2 B hx hy opsx opsy T,
  let K := wp2 fuel junk w PERIODIZATION [axes1; axes2] in
  orthonormal w -> nd_wf x -> nd_wf y -> nshape y = nshape x -> zlen (nshape x) <= 64 -> 0 <= M ->
  packet2 fuel junk (Some x) w (Some M) [axes1; axes2] = Ok hx -> packet2 fuel junk (Some y) w (Some M) [axes1; axes2] = Ok hy ->
  resolves C (zlen (nshape x)) (One w) (One PERIODIZATION) [axes1; axes2] [s1; s2] -> plan_good C fuel B (nshape x) [s1; s2] ->
  (forall s, In s [s1; s2] -> 1 <= nthz (st_ax C s) (nshape x) /\ (2 ^ M | nthz (st_ax C s) (nshape x))) ->
  forallb analysing opsx = true -> forallb analysing opsy = true -> depth_le ["a"; "h"; "v"; "d"] T (Z.to_nat M) ->
  exists X Y, (forall s, In s (leaf_paths ["a"; "h"; "v"; "d"] T) -> node_data K (run K hx opsx) s (X s) /\ node_data K (run K hy opsy) s (Y s)) /\
    lsum C (map (fun s => ndinner C (X s) (Y s)) (leaf_paths ["a"; "h"; "v"; "d"] T)) = ndinner C x y.
Proof. exact packet2_inner. Qed.
Print Assumptions C120_packet_2d.
Example C120_packet_2d_ex : orthonormal qbank /\ nd_wf ex44 /\ plan_good Qcring 99 [16; 16] (nshape ex44) oplan /\ resolves Qcring 2 ow om [0; 1] oplan /\
  packet2 99 ej (Some ex44) qbank (Some 2) [0; 1] = Ok [root_node (wp2 99 ej qbank PERIODIZATION [0; 1]) (Some ex44) (Some 2)] /\
  leaf_paths ["a"; "h"; "v"; "d"] etree = ["aa"; "ah"; "av"; "ad"; "h"; "v"; "d"] /\ depth_le ["a"; "h"; "v"; "d"] etree 2 /\
  this_of (ndinner Qcring ex44 ex44) = (425 # 1)%Q /\ map en2 ["h"; "v"; "d"] = [217781142 # 17850625; 1636671342 # 17850625; 4744413758 # 17850625]%Q /\
  (fold_right Qplus 0 (map en2 (leaf_paths ["a"; "h"; "v"; "d"] etree)) == 425 # 1)%Q.
Proof.
  split; [exact (conj qbank_pr (conj eq_refl eq_refl))|]. split; [exact ex44_wf|]. split; [exact oplan_good|]. split; [exact oplan_resolves|]. split; [reflexivity|].
  split; [reflexivity|]. split; [intros p [<-|[<-|[<-|[<-|[]]]]]; cbn; auto|]. split; [vm_compute; reflexivity|]. split; vm_compute; reflexivity.
Qed.

Theorem C120_packet_nd : forall (C : CRing) fuel (junk : Z -> C) (x y : nd C) w M axes0 axes plan B hx hy opsx opsy T,
  let K := wpn fuel junk w PERIODIZATION axes in
  orthonormal w -> nd_wf x -> nd_wf y -> nshape y = nshape x -> zlen (nshape x) <= 64 -> 0 <= M ->
  packetn fuel junk (Some x) w (Some M) axes0 = Ok (axes, hx) -> packetn fuel junk (Some y) w (Some M) axes0 = Ok (axes, hy) -> plan <> [] ->
  resolves C (zlen (nshape x)) (One w) (One PERIODIZATION) axes plan -> plan_good C fuel B (nshape x) plan ->
  (forall s, In s plan -> 1 <= nthz (st_ax C s) (nshape x) /\ (2 ^ M | nthz (st_ax C s) (nshape x))) ->
  forallb analysing opsx = true -> forallb analysing opsy = true -> depth_le (ad_keys (List.length axes)) T (Z.to_nat M) ->
  exists X Y, (forall s, In s (leaf_paths (ad_keys (List.length axes)) T) -> node_data K (run K hx opsx) s (X s) /\ node_data K (run K hy opsy) s (Y s)) /\
    lsum C (map (fun s => ndinner C (X s) (Y s)) (leaf_paths (ad_keys (List.length axes)) T)) = ndinner C x y.
Proof. exact packetn_inner. Qed.
Print Assumptions C120_packet_nd.
Example C120_packet_nd_ex : orthonormal qbank /\ nd_wf ex44 /\ plan_good Qcring 99 [16; 16] (nshape ex44) oplan /\ resolves Qcring 2 ow om [0; 1] oplan /\
  packetn 99 ej (Some ex44) qbank (Some 2) (Some [0; 1]) = Ok ([0; 1], [root_node (wpn 99 ej qbank PERIODIZATION [0; 1]) (Some ex44) (Some 2)]) /\
  leaf_paths (ad_keys 2) etree2 = ["aa"; "ad"; "daaa"; "daad"; "dada"; "dadd"; "dd"] /\ depth_le (ad_keys 2) etree2 2.
Proof.
  split; [exact (conj qbank_pr (conj eq_refl eq_refl))|]. split; [exact ex44_wf|]. split; [exact oplan_good|]. split; [exact oplan_resolves|]. split; [reflexivity|].
  split; [reflexivity|]. intros p [<-|[<-|[<-|[<-|[]]]]]; cbn; auto.
Qed.
