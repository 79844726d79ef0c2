(** Property theorems for the walks over packet trees. *)
From Coq Require Import Ascii String.
From Verif Require Import Base BaseLemmas CConv Spec Instances Lengths Dwt DwtProofs Multilevel MultilevelProofs Swt Nd NdSpec Axis AxisProofs Multidim MultidimProofs MultidimFacts MultilevelNd MultilevelNdProofs SwtNd.
From Verif Require Import Packets PacketsInv PacketsPath PacketsRead PacketsSpec PacketsLevel PacketsClasses PacketsFacts PacketsFacts2 PacketsFacts3 PacketsRebuild PacketsRebuild2 ExBanks ExNd ExPackets.
From Verif Require Import PacketsWalk PacketsWalkSpec PacketsWalkMain PacketsNdRead.
Open Scope string_scope. Open Scope list_scope. Open Scope Z_scope.

(** C106. [ops] is any sequence of operations; [q] tells for which paths the
    function returns True. Nothing is decomposed. *)
Theorem C106_existing_nodes : forall (C : CRing) fuel (junk : Z -> C) K, packet_class fuel junk K -> forall M data ops f n x,
  0 <= M -> let h := run K [root_node K data (Some M)] ops in nth_error h n = Some x -> (Z.to_nat M < f)%nat ->
  (forall q, exists r, walk_visits K f q false n h = (h, Ok r) /\ preorder (parts K) h q n r) /\
  (exists s, walk_depth_visits K f false n h = (h, Ok s) /\ postorder (parts K) h n s /\ forall e, In e s <-> exists p, at_path h n p e).
Proof. exact @packet_walk_nodes. Qed.
Print Assumptions C106_existing_nodes.
Example C106_existing_nodes_ex : packet_class 99 jk K5 /\ let h := run K5 [root_node K5 (Some pk5) (Some 2)] [OGet 0 "da"; ODel 0 "dd"] in
  walk_visits K5 9 (fun p => negb (String.eqb p "a")) false 0 h = (h, Ok [0; 1; 2; 3]%nat) /\ walk_depth_visits K5 9 false 0 h = (h, Ok [1; 3; 2; 0]%nat) /\
  paths h [1; 3; 2; 0]%nat = map Some ["a"; "da"; "d"; ""].
Proof. split; [constructor|]. vm_compute. repeat split. Qed.

Theorem C106_order : forall (C : CRing) fuel (junk : Z -> C) K, packet_class fuel junk K -> forall M d ops f q,
  0 <= M -> forallb reading ops = true -> let h0 := run K [root_node K (Some d) (Some M)] ops in
  (forall h r, walk_visits K f q true 0 h0 = (h, Ok r) -> paths h r = map Some (words_pre (parts K) q "" (Z.to_nat M))) /\
  (forall h r, walk_depth_visits K f true 0 h0 = (h, Ok r) -> paths h r = map Some (words_post (parts K) (Z.to_nat M))).
Proof. exact @packet_walk_all. Qed.
Print Assumptions C106_order.
Example C106_order_ex : packet_class 99 jk K33 /\ let h0 := run K33 [root_node K33 (Some pk33) (Some 1)] [OGet 0 "v"] in
  (exists h, walk_visits K33 9 (fun _ => true) true 0 h0 = (h, Ok [0; 1; 3; 2; 4]%nat)) /\ words_pre (parts K33) (fun _ => true) "" 1 = [""; "a"; "h"; "v"; "d"] /\
  words_post (parts K33) 1 = ["a"; "h"; "v"; "d"; ""].
Proof. split; [constructor|]. cbv zeta. split; [eexists; vm_compute; reflexivity|]. split; vm_compute; reflexivity. Qed.

Theorem C106_packet : forall (C : CRing) fuel (junk : Z -> C) (data : nd C) w m maxl axis (ax : nat) h0 ops f,
  let K := wp1 fuel junk w m (Z.of_nat ax) in
  let n := nthz ax (nshape data) in
  let M := match maxl with Some M => M | None => dwt_max_level_c n (dec_len w) end in
  pr_wavelet w -> nd_wf data -> zlen (nshape data) <= 64 -> packet1 fuel junk (Some data) w maxl axis = Ok (Z.of_nat ax, h0) ->
  (forall M, maxl = Some M -> 0 <= M /\ levels_ok m (dec_len w) (Z.to_nat M) n) ->
  resources fuel n (dec_len w) -> prodZ (setn ax (2 * Z.max n (dec_len w)) (nshape data)) < max_alloc ->
  forallb reading ops = true -> (Z.to_nat M < f)%nat ->
  (forall q, exists h r, walk_visits K f q true 0 (run K h0 ops) = (h, Ok r) /\ paths h r = map Some (words_pre ["a"; "d"] q "" (Z.to_nat M)) /\ same_data (run K h0 ops) h) /\
  exists h r, walk_depth_visits K f true 0 (run K h0 ops) = (h, Ok r) /\ paths h r = map Some (words_post ["a"; "d"] (Z.to_nat M)) /\ same_data (run K h0 ops) h.
Proof. exact packet1_walk. Qed.
Print Assumptions C106_packet.
Example C106_packet_ex : pr_wavelet zbank2 /\ nd_wf pk5 /\ levels_ok SYMMETRIC (dec_len zbank2) 2 5 /\
  exists h0, packet1 99 jk (Some pk5) zbank2 (Some 2) (-1) = Ok (0, h0) /\ resources 99 5 (dec_len zbank2) /\
  words_pre ["a"; "d"] (fun _ => true) "" 2 = [""; "a"; "aa"; "ad"; "d"; "da"; "dd"] /\
  words_pre ["a"; "d"] (fun p => negb (String.eqb p "a")) "" 2 = [""; "a"; "d"; "da"; "dd"] /\
  words_post ["a"; "d"] 2 = ["aa"; "ad"; "a"; "da"; "dd"; "d"; ""] /\
  exists h, walk_depth_visits K5 9 true 0 (run K5 h0 [OGet 0 "da"]) = (h, Ok [5; 6; 1; 3; 4; 2; 0]%nat).
Proof.
  split; [exact zbank2_pr|]. split; [exact pk5_wf|]. split; [apply levels_ok_intro; cbn; lia|].
  eexists. split; [vm_compute; reflexivity|]. split; [split; vm_compute; congruence|]. do 3 (split; [vm_compute; reflexivity|]). eexists. vm_compute. reflexivity.
Qed.

Theorem C106_packet_2d : forall (C : CRing) fuel (junk : Z -> C) (data : nd C) w m maxl axes1 axes2 s1 s2 B h0 ops,
  let K := wp2 fuel junk w m [axes1; axes2] in
  pr_wavelet w -> nd_wf data -> zlen (nshape data) <= 64 -> packet2 fuel junk (Some data) w maxl [axes1; axes2] = Ok h0 ->
  resolves C (zlen (nshape data)) (One w) (One m) [axes1; axes2] [s1; s2] -> plan_good C fuel B (nshape data) [s1; s2] ->
  (forall l, maxl = Some l -> 0 <= l /\ forall s, In s [s1; s2] -> levels_ok m (dec_len w) (Z.to_nat l) (nthz (st_ax C s) (nshape data))) ->
  forallb reading ops = true ->
  exists M, (forall l, maxl = Some l -> M = l) /\ h0 = [root_node K (Some data) (Some M)] /\ forall f, (Z.to_nat M < f)%nat ->
  (forall q, exists h r, walk_visits K f q true 0 (run K h0 ops) = (h, Ok r) /\ paths h r = map Some (words_pre ["a"; "h"; "v"; "d"] q "" (Z.to_nat M)) /\ same_data (run K h0 ops) h) /\
  exists h r, walk_depth_visits K f true 0 (run K h0 ops) = (h, Ok r) /\ paths h r = map Some (words_post ["a"; "h"; "v"; "d"] (Z.to_nat M)) /\ same_data (run K h0 ops) h.
Proof. exact packet2_walk. Qed.
Print Assumptions C106_packet_2d.
Example C106_packet_2d_ex : pr_wavelet zbank2 /\ nd_wf pk33 /\ plan_good Zring 99 [16; 16] (nshape pk33) [sa; sb] /\
  exists h0, packet2 99 jk (Some pk33) zbank2 (Some 1) [0; 1] = Ok h0 /\ resolves Zring 2 (One zbank2) (One SYMMETRIC) [0; 1] [sa; sb] /\
  levels_ok SYMMETRIC (dec_len zbank2) 1 3 /\ (exists h, walk_depth_visits K33 9 true 0 (run K33 h0 [OGet 0 "v"]) = (h, Ok [1; 3; 2; 4; 0]%nat)) /\
  words_post ["a"; "h"; "v"; "d"] 1 = ["a"; "h"; "v"; "d"; ""].
Proof.
  split; [exact zbank2_pr|]. split; [exact pk33_wf|]. split; [exact pg33|]. eexists. split; [vm_compute; reflexivity|].
  split; [split; [|split]; reflexivity|]. split; [apply levels_ok_intro; cbn; lia|]. split; [eexists; vm_compute; reflexivity|vm_compute; reflexivity].
Qed.

Theorem C106_packet_nd : forall (C : CRing) fuel (junk : Z -> C) (data : nd C) w m maxl axes0 axes plan B h0 ops,
  let K := wpn fuel junk w m axes in
  pr_wavelet w -> nd_wf data -> zlen (nshape data) <= 64 -> packetn fuel junk (Some data) w maxl axes0 = Ok (axes, h0) -> plan <> [] ->
  resolves C (zlen (nshape data)) (One w) (One m) axes plan -> plan_good C fuel B (nshape data) plan ->
  (forall l, maxl = Some l -> 0 <= l /\ forall s, In s plan -> levels_ok m (dec_len w) (Z.to_nat l) (nthz (st_ax C s) (nshape data))) ->
  forallb reading ops = true ->
  exists M, (forall l, maxl = Some l -> M = l) /\ h0 = [root_node K (Some data) (Some M)] /\ forall f, (Z.to_nat M < f)%nat ->
  (forall q, exists h r, walk_visits K f q true 0 (run K h0 ops) = (h, Ok r) /\ paths h r = map Some (words_pre (ad_keys (List.length axes)) q "" (Z.to_nat M)) /\ same_data (run K h0 ops) h) /\
  exists h r, walk_depth_visits K f true 0 (run K h0 ops) = (h, Ok r) /\ paths h r = map Some (words_post (ad_keys (List.length axes)) (Z.to_nat M)) /\ same_data (run K h0 ops) h.
Proof. exact packetn_walk. Qed.
Print Assumptions C106_packet_nd.
Example C106_packet_nd_ex : let K := wpn 99 jk zbank2 SYMMETRIC [0; 1] in
  pr_wavelet zbank2 /\ nd_wf pk33 /\ plan_good Zring 99 [16; 16] (nshape pk33) [sa; sb] /\
  exists h0, packetn 99 jk (Some pk33) zbank2 (Some 1) (Some [0; 1]) = Ok ([0; 1], h0) /\ resolves Zring 2 (One zbank2) (One SYMMETRIC) [0; 1] [sa; sb] /\
  levels_ok SYMMETRIC (dec_len zbank2) 1 3 /\ (exists h, walk_depth_visits K 9 true 0 (run K h0 [OGet 0 "da"]) = (h, Ok [1; 2; 3; 4; 0]%nat)) /\
  words_post (ad_keys 2) 1 = ["aa"; "ad"; "da"; "dd"; ""] /\ words_pre (ad_keys 2) (fun _ => true) "" 1 = [""; "aa"; "ad"; "da"; "dd"].
Proof.
  split; [exact zbank2_pr|]. split; [exact pk33_wf|]. split; [exact pg33|]. eexists. split; [vm_compute; reflexivity|].
  split; [split; [|split]; reflexivity|]. split; [apply levels_ok_intro; cbn; lia|]. split; [eexists; vm_compute; reflexivity|]. split; vm_compute; reflexivity.
Qed.
