(** Property theorems for maxlevel (C75) and the 2-D and n-D get_level (C76). *)
From Coq Require Import Ascii String.
From Verif Require Import Base BaseLemmas CConv Spec Instances Lengths Dwt DwtProofs Multilevel MultilevelProofs Swt Nd NdSpec Axis AxisProofs Multidim MultidimProofs MultidimFacts MultilevelNd MultilevelNdProofs SwtNd.
From Verif Require Import Packets PacketsInv PacketsPath PacketsRead PacketsSpec PacketsLevel PacketsMax PacketsClasses PacketsFacts PacketsFacts2 PacketsFacts3 PacketsLevel2 PacketsLevel3 PacketsNdRead ExBanks ExNd ExPackets ExPackets2.
Open Scope string_scope. Open Scope list_scope. Open Scope Z_scope.

Ltac ex := repeat split; try (vm_compute; congruence); try (intros; vm_compute; congruence).

(** C75. [above h n a]: [a] is the closest to [n], going upwards from [n]
    itself, that records a maximum level or has data. [known y v]: [y] records
    [v], or its level plus the maximum level of its data is [v]. The node
    remembers the answer, nothing else changes. *)
Theorem C75_from_above : forall (C : CRing) fuel (junk : Z -> C) K, packet_class fuel junk K -> forall data maxl ops n x a y v,
  let h := run K [root_node K data maxl] ops in
  nth_error h n = Some x -> above h n a -> nth_error h a = Some y -> known K y v ->
  maxlevel K n h = (set_nth n (set_max x (Some v)) h, Ok (Some v)).
Proof. exact @packet_max_above. Qed.
Print Assumptions C75_from_above.
Example C75_from_above_ex : packet_class 99 jk K5 /\ above hm 2 2 /\ snd (maxlevel K5 2 hm) = Ok (Some (2 + 2)) /\
  above hm2 2 0 /\ (exists y, nth_error hm2 0 = Some y /\ known K5 y (0 + 2)) /\ snd (maxlevel K5 2 hm2) = Ok (Some 2).
Proof.
  split; [constructor|]. split; [exact hm_above|]. split; [vm_compute; reflexivity|]. split; [exact hm2_above|]. split; [|vm_compute; reflexivity].
  eexists; split; [vm_compute; reflexivity|]. eapply known_data; vm_compute; reflexivity.
Qed.

(** Otherwise the first node below, depth first in the order of the parts. *)
Theorem C75_from_below : forall (C : CRing) fuel (junk : Z -> C) K, packet_class fuel junk K -> forall data maxl ops n x a y v,
  let h := run K [root_node K data maxl] ops in
  nth_error h n = Some x -> none_above h n -> below K h n a -> nth_error h a = Some y -> known K y v ->
  maxlevel K n h = (set_nth n (set_max x (Some v)) h, Ok (Some v)).
Proof. exact @packet_max_below. Qed.
Print Assumptions C75_from_below.
Example C75_from_below_ex : none_above hm 1 /\ below K5 hm 1 2 /\ snd (maxlevel K5 1 hm) = Ok (Some 4) /\
  option_map nmaxl (nth_error (fst (maxlevel K5 1 hm)) 1) = Some (Some 4).
Proof. split; [exact hm_none|]. split; [exact hm_below|]. split; vm_compute; reflexivity. Qed.

Theorem C75_nowhere : forall (C : CRing) fuel (junk : Z -> C) K, packet_class fuel junk K -> forall data maxl ops n,
  let h := run K [root_node K data maxl] ops in
  none_above h n -> none_below K h n -> maxlevel K n h = (h, Ok None).
Proof. exact @packet_max_nowhere. Qed.
Print Assumptions C75_nowhere.
Example C75_nowhere_ex : none_above hm0 1 /\ none_below K5 hm0 1 /\ snd (maxlevel K5 1 hm0) = Ok None.
Proof. split; [apply hm0_none|]. split; [apply hm0_none|]. vm_compute. reflexivity. Qed.

Theorem C75_cases : forall (C : CRing) fuel (junk : Z -> C) K, packet_class fuel junk K -> forall data maxl ops n x,
  let h := run K [root_node K data maxl] ops in nth_error h n = Some x ->
  ((exists a, above h n a) \/ none_above h n) /\ ((exists a, below K h n a) \/ none_below K h n).
Proof. exact @packet_max_cases. Qed.
Print Assumptions C75_cases.
Example C75_cases_ex : exists x, nth_error hm 1 = Some x /\ none_above hm 1 /\ below K5 hm 1 2.
Proof. eexists. split; [vm_compute; reflexivity|]. split; [exact hm_none|exact hm_below]. Qed.

(** A packet built from data: all nodes ever reached have the level of the packet. *)
Theorem C75_packet : forall (C : CRing) fuel (junk : Z -> C) K, packet_class fuel junk K -> forall d M ops n x,
  0 <= M -> forallb reading ops = true -> let h := run K [root_node K (Some d) (Some M)] ops in
  nth_error h n = Some x -> maxlevel K n h = (h, Ok (Some M)).
Proof. exact @packet_max_data. Qed.
Print Assumptions C75_packet.
Example C75_packet_ex : let h := run K33 [root_node K33 (Some pk33) (Some 2)] [OGet 0 "hv"; OLevel 9 0 1 true] in
  List.length h = 9%nat /\ snd (maxlevel K33 8 h) = Ok (Some 2).
Proof. ex. Qed.

(** C76. [f] bounds the recursion depth of the walk. The natural order is
    lexicographic with a < h < v < d. In frequency order, node (i, j) has the row
    letters of the i-th and the column letters of the j-th word of a Gray code. *)
Theorem C76_get_level_2d_partial : forall (C : CRing) fuel (junk : Z -> C) (data : nd C) w m maxl axes1 axes2 s1 s2 B h0 ops,
  let K := wp2 fuel junk w m [axes1; axes2] in
  pr_wavelet w -> nd_wf data -> zlen (nshape data) <= 64 -> packet2 fuel junk (Some data) w maxl [axes1; axes2] = Ok h0 ->
  resolves C (zlen (nshape data)) (One w) (One m) [axes1; axes2] [s1; s2] -> plan_good C fuel B (nshape data) [s1; s2] ->
  (forall l, maxl = Some l -> 0 <= l /\ forall s, In s [s1; s2] -> levels_ok m (dec_len w) (Z.to_nat l) (nthz (st_ax C s) (nshape data))) ->
  forallb reading ops = true ->
  exists M, (forall l, maxl = Some l -> M = l) /\ h0 = [root_node K (Some data) (Some M)] /\
  forall f L, 0 <= L <= M -> (Z.to_nat L < f)%nat ->
  exists h r ws, get_level K f 0 L false true (run K h0 ops) = (h, Ok r) /\
    paths h r = map Some ws /\ lexicographic4 (Z.to_nat L) ws /\ Z.of_nat (List.length ws) = 4 ^ L /\
    (1 <= L -> exists q g, get_level_2d_freq K f 0 L true (run K h0 ops) = (h, Ok q) /\
       (forall c, In c (concat q) <-> In c r) /\
       map (paths h) q = map (fun a => map (fun b => Some (path_of a b)) g) g /\
       NoDup g /\ (forall s, In s g <-> String.length s = Z.to_nat L /\ over "l" "h" s) /\
       chain one_letter g /\ hd_error g = Some (rep2 "l" (Z.to_nat L))).
Proof. exact packet2_levels. Qed.
Print Assumptions C76_get_level_2d_partial.
Example C76_get_level_2d_partial_ex : pr_wavelet zbank2 /\ nd_wf pk33 /\ plan_good Zring 99 [16; 16] (nshape pk33) [sa; sb] /\
  resolves Zring 2 (One zbank2) (One SYMMETRIC) [0; 1] [sa; sb] /\
  path_of "lhlh" "llhh" = "ahvd" /\ get_graycode_order 2 "l" "h" = ["ll"; "lh"; "hh"; "hl"] /\
  exists h q, get_level_2d_freq K33 5 0 1 true [root_node K33 (Some pk33) (Some 1)] = (h, Ok q) /\
  map (paths h) q = [[Some "a"; Some "v"]; [Some "h"; Some "d"]].
Proof.
  split; [exact zbank2_pr|]. split; [exact pk33_wf|]. split; [exact pg33|]. split; [ex|]. split; [reflexivity|]. split; [reflexivity|].
  eexists. eexists. split; vm_compute; reflexivity.
Qed.

Theorem C76_level_zero_refuted : exists (data : nd Zring) w m h0 h,
  packet2 99 jk (Some data) w None [0; 1] = Ok h0 /\ pr_wavelet w /\ nd_wf data /\
  get_level_2d_freq (wp2 99 jk w m [0; 1]) 5 0 0 true h0 = (h, Ok []) /\
  get_level (wp2 99 jk w m [0; 1]) 5 0 0 false true h0 = (h, Ok [0%nat]).
Proof. exact level0_freq2. Qed.
Print Assumptions C76_level_zero_refuted.
Example C76_level_zero_refuted_ex : get_graycode_order 0 "l" "h" = ["l"; "h"] /\ expand_2d "" = Ok ("", "").
Proof. ex. Qed.

(** n-D: the words of a level, [L] times the number of axes letters each. *)
Theorem C76_get_level_nd : forall (C : CRing) fuel (junk : Z -> C) (data : nd C) w m maxl axes0 axes plan B h0 ops,
  let K := wpn fuel junk w m axes in
  pr_wavelet w -> nd_wf data -> zlen (nshape data) <= 64 -> packetn fuel junk (Some data) w maxl axes0 = Ok (axes, h0) -> plan <> [] ->
  resolves C (zlen (nshape data)) (One w) (One m) axes plan -> plan_good C fuel B (nshape data) plan ->
  (forall l, maxl = Some l -> 0 <= l /\ forall s, In s plan -> levels_ok m (dec_len w) (Z.to_nat l) (nthz (st_ax C s) (nshape data))) ->
  forallb reading ops = true ->
  exists M, (forall l, maxl = Some l -> M = l) /\ h0 = [root_node K (Some data) (Some M)] /\
  forall f L, 0 <= L <= M -> (Z.to_nat L < f)%nat ->
  exists h r ws, get_level K f 0 L false true (run K h0 ops) = (h, Ok r) /\ paths h r = map Some ws /\
    lexicographic (List.length axes * Z.to_nat L) ws /\ Z.of_nat (List.length ws) = 2 ^ (zlen axes * L).
Proof. exact packetn_get_level. Qed.
Print Assumptions C76_get_level_nd.
Example C76_get_level_nd_ex : plan_good Zring 99 [16; 16] (nshape pk33) [sa; sb] /\ nshape pk33 = [3; 3] /\
  resolves Zring 2 (One zbank2) (One SYMMETRIC) [0; -1] [sa; sb] /\ levels_ok SYMMETRIC (dec_len zbank2) 1 3 /\
  exists h0 h r, packetn 99 jk (Some pk33) zbank2 (Some 1) (Some [0; -1]) = Ok ([0; -1], h0) /\
  get_level (wpn 99 jk zbank2 SYMMETRIC [0; -1]) 5 0 1 false true h0 = (h, Ok r) /\ paths h r = [Some "aa"; Some "ad"; Some "da"; Some "dd"].
Proof.
  split; [exact pg33|]. split; [reflexivity|]. split; [ex|]. split; [apply levels_ok_intro; cbn; lia|].
  do 3 eexists. split; [vm_compute; reflexivity|]. split; vm_compute; reflexivity.
Qed.
