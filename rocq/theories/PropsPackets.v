(** Property theorems for the wavelet packets. *)
From Coq Require Import Permutation Ascii String.
From Verif Require Import Base BaseLemmas CConv Spec Instances Lengths Dwt DwtProofs Multilevel MultilevelProofs Swt Nd NdSpec Axis AxisProofs Multidim MultidimProofs MultidimFacts MultilevelNd MultilevelNdProofs SwtNd.
From Verif Require Import Packets PacketsInv PacketsPath PacketsRead PacketsSpec PacketsLevel PacketsClasses PacketsFacts PacketsFacts2 PacketsFacts3 PacketsRebuild PacketsRebuild2 ExBanks ExNd ExPackets.
Open Scope string_scope. Open Scope list_scope. Open Scope Z_scope.

Ltac ex := repeat split; try (vm_compute; congruence); try (intros; vm_compute; congruence).

(** C36. [ops] is any sequence of accesses, decompositions, level and leaf
    listings and reconstructions, with or without update. *)
Theorem C36_packet : forall (C : CRing) fuel (junk : Z -> C) (data : nd C) w m maxl axis (ax : nat) h0 ops,
  let K := wp1 fuel junk w m (Z.of_nat ax) in
  let n := nthz ax (nshape data) in
  let M := match maxl with Some M => M | None => dwt_max_level_c n (dec_len w) end in
  pr_wavelet w -> nd_wf data -> zlen (nshape data) <= 64 -> packet1 fuel junk (Some data) w maxl axis = Ok (Z.of_nat ax, h0) ->
  (forall M, maxl = Some M -> 0 <= M /\ levels_ok m (dec_len w) (Z.to_nat M) n) ->
  resources fuel n (dec_len w) -> prodZ (setn ax (2 * Z.max n (dec_len w)) (nshape data)) < max_alloc ->
  forallb analysing ops = true ->
  (forall u, root_reconstruct K (Some (nshape data)) 0 u (run K h0 ops) = (run K h0 ops, Ok (Some data))) /\
  (forall k x u, nth_error (run K h0 ops) k = Some x -> exists d, ndat x = Some d /\ reconstruct K k u (run K h0 ops) = (run K h0 ops, Ok (Some d))) /\
  (forall path, over "a"%char "d"%char path -> Z.of_nat (String.length path) <= M ->
     exists h c x, getitem K 0 path (run K h0 ops) = (h, Ok c) /\ nth_error h c = Some x /\ npath x = path /\
       nlevel x = Z.of_nat (String.length path) /\ ndat x = Some (packet_data ax m w path data)).
Proof. exact packet1_spec. Qed.
Print Assumptions C36_packet.
Example C36_packet_ex : pr_wavelet zbank2 /\ nd_wf pk5 /\ levels_ok SYMMETRIC (dec_len zbank2) 2 5 /\
  exists h0, packet1 99 jk (Some pk5) zbank2 (Some 2) (-1) = Ok (0, h0) /\ resources 99 5 (dec_len zbank2) /\
  List.length (run K5 h0 [OGet 0 "da"; ODecompose 1; ODecompose 0; OReconstruct 1 true]) = 9%nat /\
  data_at K5 "da" h0 = Some (packet_data 0 SYMMETRIC zbank2 "da" pk5) /\ ndata (packet_data 0 SYMMETRIC zbank2 "da" pk5) = [14; 30] /\
  snd (root_reconstruct K5 (Some [5]) 0 false (run K5 h0 [OGet 0 "da"; ODecompose 1])) = Ok (Some pk5).
Proof.
  split; [exact zbank2_pr|]. split; [exact pk5_wf|]. split; [apply levels_ok_intro; cbn; lia|].
  eexists. split; [vm_compute; reflexivity|]. ex.
Qed.

Theorem C36_packet_2d : forall (C : CRing) fuel (junk : Z -> C) (data : nd C) w m maxl axes1 axes2 s1 s2 B h0 ops,
  let K := wp2 fuel junk w m [axes1; axes2] in
  pr_wavelet w -> nd_wf data -> zlen (nshape data) <= 64 -> packet2 fuel junk (Some data) w maxl [axes1; axes2] = Ok h0 ->
  resolves C (zlen (nshape data)) (One w) (One m) [axes1; axes2] [s1; s2] -> plan_good C fuel B (nshape data) [s1; s2] ->
  (forall l, maxl = Some l -> 0 <= l /\ forall s, In s [s1; s2] -> levels_ok m (dec_len w) (Z.to_nat l) (nthz (st_ax C s) (nshape data))) ->
  forallb analysing ops = true ->
  exists M, (forall l, maxl = Some l -> M = l) /\
  (forall u, root_reconstruct K (Some (nshape data)) 0 u (run K h0 ops) = (run K h0 ops, Ok (Some data))) /\
  (forall k x u, nth_error (run K h0 ops) k = Some x -> exists d, ndat x = Some d /\ reconstruct K k u (run K h0 ops) = (run K h0 ops, Ok (Some d))) /\
  (forall path, over4 path -> Z.of_nat (String.length path) <= M ->
     exists h c x, getitem K 0 path (run K h0 ops) = (h, Ok c) /\ nth_error h c = Some x /\ npath x = path /\
       nlevel x = Z.of_nat (String.length path) /\ ndat x = Some (packet_data2 (st_ax C s1) (st_ax C s2) m w path data)).
Proof. exact packet2_spec. Qed.
Print Assumptions C36_packet_2d.
Example C36_packet_2d_ex : pr_wavelet zbank2 /\ nd_wf pk33 /\ plan_good Zring 99 [16; 16] (nshape pk33) [sa; sb] /\
  resolves Zring 2 (One zbank2) (One SYMMETRIC) [0; -1] [sa; sb] /\
  exists h0, packet2 99 jk (Some pk33) zbank2 None [0; -1] = Ok h0 /\
  data_at K33 "h" h0 = Some (packet_data2 0 1 SYMMETRIC zbank2 "h" pk33) /\ ndata (packet_data2 0 1 SYMMETRIC zbank2 "h" pk33) = [19; 27; 46; 54] /\
  snd (root_reconstruct K33 (Some [3; 3]) 0 false (run K33 h0 [OGet 0 "v"])) = Ok (Some pk33).
Proof.
  split; [exact zbank2_pr|]. split; [exact pk33_wf|]. split; [exact pg33|]. split; [ex|].
  eexists. split; [vm_compute; reflexivity|]. ex.
Qed.

(** Any class, any tree. *)
Theorem C36_reconstruct_is_pure : forall (C : CRing) (K : wpclass (nd C)) size n h,
  fst (reconstruct K n false h) = h /\ fst (root_reconstruct K size n false h) = h.
Proof. exact @packet_recon_pure. Qed.
Print Assumptions C36_reconstruct_is_pure.
Example C36_reconstruct_is_pure_ex : exists h, nth_error h 0 = Some (root_node K5 (Some pk5) (Some 2)) /\
  snd (root_reconstruct K5 None 0 true (run K5 h [OGet 0 "a"; OData 1 (Some (pk [0; 0; 0]))])) = Ok (Some (pk [8; -4; 10; -5; 20])).
Proof. exists [root_node K5 (Some pk5) (Some 2)]. ex. Qed.

(** C37. Every class, every history. *)
Theorem C37_nodes : forall (C : CRing) fuel (junk : Z -> C) K, packet_class fuel junk K -> forall data maxl ops n x,
  let h := run K [root_node K data maxl] ops in nth_error h n = Some x ->
  0 <= nlevel x /\ Z.of_nat (String.length (npath x)) = nlevel x * Z.of_nat (plen K) /\ NoDup (map fst (nkids x)) /\
  (forall p, nparent x = Some p -> (p < n)%nat /\ exists y part, nth_error h p = Some y /\ In part (parts K) /\
     npath x = append (npath y) part /\ nlevel x = nlevel y + 1) /\
  (forall part c, dget (nkids x) part = Some c -> In part (parts K) /\ (n < c)%nat /\ exists y, nth_error h c = Some y /\
     nparent y = Some n /\ npath y = append (npath x) part /\ nlevel y = nlevel x + 1).
Proof. exact @packet_tree. Qed.
Print Assumptions C37_nodes.
Example C37_nodes_ex : packet_class 99 jk K22 /\ packet_class 99 jk K33 /\ packet_class 99 jk K5 /\
  map (fun x => (npath x, nlevel x, nparent x)) (run K5 [root_node K5 None None] [OSet 0 "ad" pk5; ODel 0 "a"; OSet 0 "a" pk5; OSubnode 3 "d" true])
  = [("", 0, None); ("a", 1, None); ("ad", 2, Some 1%nat); ("a", 1, Some 0%nat); ("aa", 2, Some 3%nat); ("ad", 2, Some 3%nat)].
Proof. split; [constructor; discriminate|]. split; [constructor|]. split; [constructor|]. ex. Qed.

(** [at_path h n s c]: following the subnodes named by [s] from [n] leads to [c]. *)
Theorem C37_lookup : forall (C : CRing) fuel (junk : Z -> C) K, packet_class fuel junk K -> forall data maxl ops n x path h' c,
  let h := run K [root_node K data maxl] ops in nth_error h n = Some x ->
  getitem K n path h = (h', Ok c) ->
  at_path h' n path c /\ (forall d, at_path h' n path d -> d = c) /\
  exists y, nth_error h' c = Some y /\ npath y = append (npath x) path.
Proof. exact @packet_lookup. Qed.
Print Assumptions C37_lookup.
Example C37_lookup_ex : packet_class 99 jk K5 /\ exists h', getitem K5 0 "dd" (run K5 [root_node K5 (Some pk5) (Some 2)] [OGet 0 "a"]) = (h', Ok 4%nat) /\
  option_map npath (nth_error h' 4) = Some "dd".
Proof. split; [constructor|]. eexists. split; vm_compute; reflexivity. Qed.

Theorem C37_found : forall (C : CRing) fuel (junk : Z -> C) K, packet_class fuel junk K -> forall data M ops n path c,
  0 <= M -> let h := run K [root_node K data (Some M)] ops in
  at_path h n path c -> getitem K n path h = (h, Ok c).
Proof. exact @packet_found. Qed.
Print Assumptions C37_found.
Example C37_found_ex : let h := run K5 [root_node K5 (Some pk5) (Some 2)] [OGet 0 "a"; OSet 0 "da" pk5] in
  at_path h 0 "da" 3 /\ getitem K5 0 "da" h = (h, Ok 3%nat).
Proof.
  cbv zeta. split; [|vm_compute; reflexivity]. change "da" with (append "d" (append "a" "")) at 2.
  eapply at_down; [vm_compute; reflexivity|vm_compute; reflexivity|]. eapply at_down; [vm_compute; reflexivity|vm_compute; reflexivity|].
  eapply at_here. vm_compute. reflexivity.
Qed.

Theorem C37_set : forall (C : CRing) fuel (junk : Z -> C) K, packet_class fuel junk K -> forall data maxl ops n path d h',
  let h := run K [root_node K data maxl] ops in setitem K n path d h = (h', Ok tt) ->
  (forall m s c, at_path h m s c -> at_path h' m s c) /\
  exists c, at_path h' n path c /\ (exists y, nth_error h' c = Some y /\ ndat y = Some d) /\
    forall k x, nth_error h k = Some x -> k <> c -> exists x', nth_error h' k = Some x' /\ ndat x' = ndat x.
Proof. exact @packet_set. Qed.
Print Assumptions C37_set.
Example C37_set_ex : exists h', setitem K33 0 "dv" pk33 (run K33 [root_node K33 None (Some 2)] [OSet 0 "a" pk33]) = (h', Ok tt) /\
  data_at K33 "dv" h' = Some pk33 /\ List.length h' = 4%nat.
Proof. eexists. split; [vm_compute; reflexivity|]. ex. Qed.

Theorem C37_del : forall (C : CRing) fuel (junk : Z -> C) K, packet_class fuel junk K -> forall data maxl ops n path h',
  let h := run K [root_node K data maxl] ops in path <> EmptyString ->
  delitem K n path h = (h', Ok tt) ->
  exists h1 c, getitem K n path h = (h1, Ok c) /\
  (forall d, ~ at_path h' n path d) /\
  (forall s d, at_path h1 n s d -> (forall t, s <> append path t) -> at_path h' n s d) /\
  (forall k x, nth_error h1 k = Some x -> exists x', nth_error h' k = Some x' /\ ndat x' = ndat x).
Proof. exact @packet_del. Qed.
Print Assumptions C37_del.
Example C37_del_ex : let h := run K5 [root_node K5 (Some pk5) (Some 2)] [OGet 0 "a"; OGet 0 "da"; ODel 0 "d"] in
  snd (delitem K5 0 "d" (run K5 [root_node K5 (Some pk5) (Some 2)] [OGet 0 "a"; OGet 0 "da"])) = Ok tt /\
  option_map (fun x => nkids x) (nth_error h 0) = Some [("a", 1%nat)] /\ option_map nparent (nth_error h 2) = Some None.
Proof. ex. Qed.

(** C38. [f] bounds the recursion depth of the walk. *)
Theorem C38_get_level_partial : forall (C : CRing) fuel (junk : Z -> C) (data : nd C) w m maxl axis (ax : nat) h0 ops f L,
  let K := wp1 fuel junk w m (Z.of_nat ax) in
  let n := nthz ax (nshape data) in
  let M := match maxl with Some M => M | None => dwt_max_level_c n (dec_len w) end in
  pr_wavelet w -> nd_wf data -> zlen (nshape data) <= 64 -> packet1 fuel junk (Some data) w maxl axis = Ok (Z.of_nat ax, h0) ->
  (forall M, maxl = Some M -> 0 <= M /\ levels_ok m (dec_len w) (Z.to_nat M) n) ->
  resources fuel n (dec_len w) -> prodZ (setn ax (2 * Z.max n (dec_len w)) (nshape data)) < max_alloc ->
  forallb reading ops = true -> 0 <= L <= M -> (Z.to_nat L < f)%nat ->
  exists h r ws, get_level K f 0 L false true (run K h0 ops) = (h, Ok r) /\
    paths h r = map Some ws /\ lexicographic (Z.to_nat L) ws /\ Z.of_nat (List.length ws) = 2 ^ L /\
    (1 <= L -> exists q g, get_level K f 0 L true true (run K h0 ops) = (h, Ok q) /\ Permutation q r /\
       paths h q = map Some g /\ Permutation g ws /\ chain one_letter g /\ hd_error g = Some (rep (Z.to_nat L))).
Proof. exact packet1_levels. Qed.
Print Assumptions C38_get_level_partial.
Example C38_get_level_partial_ex : exists h0 h r q, packet1 99 jk (Some pk5) zbank2 (Some 2) 0 = Ok (0, h0) /\
  get_level K5 9 0 2 false true (run K5 h0 [OGet 0 "da"]) = (h, Ok r) /\ paths h r = map Some ["aa"; "ad"; "da"; "dd"] /\
  get_level K5 9 0 2 true true (run K5 h0 [OGet 0 "da"]) = (h, Ok q) /\ paths h q = map Some ["aa"; "ad"; "dd"; "da"].
Proof. do 4 eexists. split; [vm_compute; reflexivity|]. split; [vm_compute; reflexivity|]. split; [vm_compute; reflexivity|]. split; vm_compute; reflexivity. Qed.

Theorem C38_level_zero_refuted : exists (data : nd Zring) w m axis h0 h,
  packet1 99 jk (Some data) w None axis = Ok (0, h0) /\ pr_wavelet w /\ nd_wf data /\
  get_level (wp1 99 jk w m 0) 5 0 0 true true h0 = (h, Ok []) /\
  get_level (wp1 99 jk w m 0) 5 0 0 false true h0 = (h, Ok [0%nat]).
Proof. exact level0_freq. Qed.
Print Assumptions C38_level_zero_refuted.
Example C38_level_zero_refuted_ex : get_graycode_order 0 "a" "d" = ["a"; "d"] /\ get_graycode_order 3 "a" "d" = ["aaa"; "aad"; "add"; "ada"; "dda"; "ddd"; "dad"; "daa"].
Proof. ex. Qed.

(** C39. *)
Theorem C39_read_refuted : exists (data X : nd Zring) w m axis h0,
  packet1 99 jk (Some data) w None axis = Ok (0, h0) /\ pr_wavelet w /\ nd_wf data /\ nd_wf X /\
  let K := wp1 99 jk w m 0 in
  data_at K "a" (run K h0 [OSet 0 "a" X]) = Some X /\
  data_at K "a" (run K h0 [OSet 0 "a" X; OGet 0 "d"]) <> Some X /\
  data_at K "a" (run K h0 [OSet 0 "a" X; OGet 0 "d"]) <> None.
Proof. exact read_overwrites. Qed.
Print Assumptions C39_read_refuted.
Example C39_read_refuted_ex : data_at K5 "a" (run K5 [root_node K5 (Some pk5) (Some 2)] [OGet 0 "d"; OSet 0 "a" pk5; OGet 0 "d"]) = Some pk5.
Proof. ex. Qed.

(** [full]: every node has all its subnodes or none. *)
Theorem C39_full_trees_partial : forall (C : CRing) fuel (junk : Z -> C) K, packet_class fuel junk K -> forall data M ops1 ops2 path c x,
  0 <= M -> forallb reading ops2 = true ->
  let h1 := run K [root_node K data (Some M)] ops1 in let h2 := run K [root_node K data (Some M)] (ops1 ++ ops2) in
  full K h1 -> at_path h1 0 path c -> nth_error h1 c = Some x ->
  at_path h2 0 path c /\ exists x', nth_error h2 c = Some x' /\ ndat x' = ndat x.
Proof. exact @packet_read_full. Qed.
Print Assumptions C39_full_trees_partial.
Example C39_full_trees_partial_ex : let h1 := run K5 [root_node K5 (Some pk5) (Some 2)] [OGet 0 "a"; OSet 0 "a" (pk [1; 2])] in
  full K5 h1 /\ data_at K5 "a" h1 = Some (pk [1; 2]) /\ data_at K5 "a" (run K5 h1 [OGet 0 "da"; OGet 0 "ad"]) = Some (pk [1; 2]).
Proof.
  cbv zeta. split; [|ex]. intros [|[|[|[|k]]]] x Hx; vm_compute in Hx; try discriminate; injection Hx as <-;
    [right; intros p [<-|[<-|[]]]; vm_compute; congruence|left; reflexivity|left; reflexivity].
Qed.
Theorem C39_reading_keeps_full_partial : forall (C : CRing) fuel (junk : Z -> C) K, packet_class fuel junk K -> forall data M ops,
  0 <= M -> forallb reading ops = true -> full K (run K [root_node K data (Some M)] ops).
Proof. exact @packet_stays_full. Qed.
Print Assumptions C39_reading_keeps_full_partial.
Example C39_reading_keeps_full_partial_ex : forallb (@reading (nd Zring)) [OGet 0 "a"; OLevel 9 0 2 true; ORoot None 0 false] = true /\
  List.length (run K5 [root_node K5 (Some pk5) (Some 2)] [OGet 0 "a"; OLevel 9 0 2 true; ORoot None 0 false]) = 7%nat.
Proof. ex. Qed.
(** The objects themselves keep their data in any tree; the refutation above is
    about the path leading to a new object. *)
Theorem C39_objects_partial : forall (C : CRing) fuel (junk : Z -> C) K, packet_class fuel junk K -> forall data M ops1 ops2,
  0 <= M -> forallb reading ops2 = true ->
  same_data (run K [root_node K data (Some M)] ops1) (run K [root_node K data (Some M)] (ops1 ++ ops2)).
Proof. exact @packet_read_objects. Qed.
Print Assumptions C39_objects_partial.
Example C39_objects_partial_ex : option_map ndat (nth_error (run K5 [root_node K5 (Some pk5) (Some 2)] [OSet 0 "a" (pk [1; 2]); OGet 0 "d"]) 1) = Some (Some (pk [1; 2])).
Proof. ex. Qed.

(** C62. *)
Theorem C62_odd_sizes_refuted : exists (data : nd Zring) w m h0,
  packetn 99 jk (Some data) w None None = Ok ([0], h0) /\ pr_wavelet w /\ nd_wf data /\ levels_ok m (dec_len w) 1 (nthz 0 (nshape data)) /\
  let K := wpn 99 jk w m [0] in
  snd (root_reconstruct K (Some (nshape data)) 0 false (run K h0 [OGet 0 "a"])) = Err IndexError.
Proof. exact packetn_odd. Qed.
Print Assumptions C62_odd_sizes_refuted.
Example C62_odd_sizes_refuted_ex : exists h0, packetn 99 jk (Some (pk [3; 1; 4])) zbank2 None None = Ok ([0], h0) /\
  option_map nmaxl (nth_error h0 0) = Some (Some 1).
Proof. eexists. split; vm_compute; reflexivity. Qed.

Theorem C62_even_sizes_partial : forall (C : CRing) fuel (junk : Z -> C) (data : nd C) w m maxl axes0 axes plan B h0 ops,
  let K := wpn fuel junk w m axes in
  pr_wavelet w -> nd_wf data -> zlen (nshape data) <= 64 -> packetn fuel junk (Some data) w maxl axes0 = Ok (axes, h0) -> plan <> [] ->
  resolves C (zlen (nshape data)) (One w) (One m) axes plan -> plan_good C fuel B (nshape data) plan ->
  (forall l, maxl = Some l -> 0 <= l /\ forall s, In s plan -> levels_ok m (dec_len w) (Z.to_nat l) (nthz (st_ax C s) (nshape data))) ->
  forallb analysing ops = true ->
  exists M, (forall l, maxl = Some l -> M = l) /\ h0 = [root_node K (Some data) (Some M)] /\
  ((forall s j, In s plan -> (j < Z.to_nat M)%nat -> approx_len m (dec_len w) j (nthz (st_ax C s) (nshape data)) mod 2 = 0) ->
  (forall u, root_reconstruct K (Some (nshape data)) 0 u (run K h0 ops) = (run K h0 ops, Ok (Some data))) /\
  (forall k x u, nth_error (run K h0 ops) k = Some x -> exists d, ndat x = Some d /\ reconstruct K k u (run K h0 ops) = (run K h0 ops, Ok (Some d))) /\
  (forall path k, In path (words K k) -> Z.of_nat k <= M ->
     exists h c x ps, getitem K 0 path (run K h0 ops) = (h, Ok c) /\ nth_error h c = Some x /\ npath x = path /\ nlevel x = Z.of_nat k /\
       path = List.fold_right append EmptyString ps /\ (forall p, In p ps -> String.length p = List.length axes) /\
       ndat x = Some (List.fold_left (fun d p => band C p plan d) ps data))).
Proof. exact packetn_spec. Qed.
Print Assumptions C62_even_sizes_partial.
Example C62_even_sizes_partial_ex : plan_good Zring 99 [16; 16] (nshape pk22) [sa; sb] /\
  resolves Zring 2 (One zbank2) (One SYMMETRIC) [0; -1] [sa; sb] /\
  exists h0, packetn 99 jk (Some pk22) zbank2 (Some 1) (Some [0; -1]) = Ok ([0; -1], h0) /\
  option_map ndata (data_at K22 "da" h0) = Some [16] /\ ndata (band Zring "da" [sa; sb] pk22) = [16] /\
  snd (root_reconstruct K22 (Some [2; 2]) 0 true (run K22 h0 [OGet 0 "da"])) = Ok (Some pk22).
Proof. split; [exact pg22|]. split; [ex|]. eexists. split; [vm_compute; reflexivity|]. ex. Qed.

(** C63. *)
Theorem C63_odd_sizes_refuted : exists (data : nd Zring) w m T1 T2 r,
  pr_wavelet w /\ nd_wf data /\ levels_ok m (dec_len w) 2 (nthz 0 (nshape data)) /\ depth_le ["a"; "d"] T1 2 /\ depth_le ["a"; "d"] T2 2 /\
  let K := wp1 99 jk w m 0 in
  let build T := run K [root_node K None (Some 2)] (map (fun s => OSet 0 s (packet_data 0 m w s data)) (leaf_paths ["a"; "d"] T)) in
  snd (root_reconstruct K None 0 false (build T1)) = Err ValueError /\
  snd (root_reconstruct K None 0 false (build T2)) = Ok (Some r) /\ nshape r <> nshape data.
Proof. exact rebuild_odd. Qed.
Print Assumptions C63_odd_sizes_refuted.
Example C63_odd_sizes_refuted_ex : leaf_paths ["a"; "d"] tree1 = ["aa"; "ad"; "d"] /\ leaf_paths ["a"; "d"] tree2 = ["aa"; "ad"; "da"; "dd"].
Proof. ex. Qed.

(** [T] is any complete tree, [ps] its leaves in any order. *)
Theorem C63_rebuild_partial : forall (C : CRing) fuel (junk : Z -> C) (data : nd C) w m M axis (ax : nat) h0 T ps u,
  let K := wp1 fuel junk w m (Z.of_nat ax) in
  let n := nthz ax (nshape data) in
  pr_wavelet w -> nd_wf data -> zlen (nshape data) <= 64 -> packet1 fuel junk (Some data) w (Some M) axis = Ok (Z.of_nat ax, h0) ->
  0 <= M -> levels_ok m (dec_len w) (Z.to_nat M) n -> stays_even m (dec_len w) M n ->
  resources fuel n (dec_len w) -> prodZ (setn ax (2 * Z.max n (dec_len w)) (nshape data)) < max_alloc ->
  depth_le ["a"; "d"] T (Z.to_nat M) -> Permutation ps (leaf_paths ["a"; "d"] T) ->
  let h := run K [root_node K None (Some M)] (map (fun s => OSet 0 s (packet_data ax m w s data)) ps) in
  snd (root_reconstruct K None 0 u h) = Ok (Some data).
Proof. exact packet1_rebuild. Qed.
Print Assumptions C63_rebuild_partial.
Example C63_rebuild_partial_ex : stays_even SYMMETRIC (dec_len zbank2) 2 8 /\ levels_ok SYMMETRIC (dec_len zbank2) 2 8 /\
  let data := pk [3; 1; 4; 1; 5; 9; 2; 6] in
  map (fun s => ndata (packet_data 0 SYMMETRIC zbank2 s data)) ["d"; "ad"; "aa"] = [[4; 5; 14; 8]; [11; 37]; [17; 51]] /\
  snd (root_reconstruct K5 None 0 true (run K5 [root_node K5 None (Some 2)] (map (fun s => OSet 0 s (packet_data 0 SYMMETRIC zbank2 s data)) ["d"; "ad"; "aa"])))
    = Ok (Some data).
Proof.
  split; [intros [|[|j]] Hj; [reflexivity|reflexivity|cbn in Hj; lia]|]. split; [apply levels_ok_intro; cbn; lia|]. cbv zeta. ex.
Qed.

Theorem C63_rebuild_2d_partial : forall (C : CRing) fuel (junk : Z -> C) (data : nd C) w m M ax1 ax2 s1 s2 B T ps u,
  let K := wp2 fuel junk w m [ax1; ax2] in
  pr_wavelet w -> nd_wf data -> 2 <= zlen (nshape data) <= 64 ->
  resolves C (zlen (nshape data)) (One w) (One m) [ax1; ax2] [s1; s2] -> plan_good C fuel B (nshape data) [s1; s2] ->
  0 <= M -> (forall s, In s [s1; s2] -> levels_ok m (dec_len w) (Z.to_nat M) (nthz (st_ax C s) (nshape data)) /\
     stays_even m (dec_len w) M (nthz (st_ax C s) (nshape data))) ->
  depth_le ["a"; "h"; "v"; "d"] T (Z.to_nat M) -> Permutation ps (leaf_paths ["a"; "h"; "v"; "d"] T) ->
  let h := run K [root_node K None (Some M)] (map (fun s => OSet 0 s (packet_data2 (st_ax C s1) (st_ax C s2) m w s data)) ps) in
  snd (root_reconstruct K None 0 u h) = Ok (Some data).
Proof. exact packet2_rebuild. Qed.
Print Assumptions C63_rebuild_2d_partial.
Example C63_rebuild_2d_partial_ex : plan_good Zring 99 [16; 16] (nshape pk22) [sa; sb] /\ stays_even SYMMETRIC (dec_len zbank2) 1 2 /\
  snd (root_reconstruct K33 None 0 true (run K33 [root_node K33 None (Some 1)] (map (fun s => OSet 0 s (packet_data2 0 1 SYMMETRIC zbank2 s pk22)) ["v"; "a"; "d"; "h"])))
    = Ok (Some pk22).
Proof. split; [exact pg22|]. split; [intros [|j] Hj; [reflexivity|cbn in Hj; lia]|]. ex. Qed.
