(** Example data for inner products of packets. *)
From Coq Require Import QArith Qcanon String Ascii.
From Verif Require Import Base BaseLemmas CConv Spec Instances Lengths Dwt DwtProofs Multilevel MultilevelProofs Nd NdSpec Axis AxisProofs Multidim MultidimProofs Facts1 ExBanks CyclicMain CyclicNd ParsevalNd Packets PacketsRebuild PacketsRebuild2 PacketsFacts2 PacketsEnergy ExDenoiseQ ExDenoiseNd.
Import ListNotations.
Open Scope list_scope. Open Scope Z_scope.

Definition ej (_ : Z) : Qcring := qc 7 1.
Definition ex8 : nd Qcring := mkNd (C := Qcring) [8] (map (fun z => qc z 1) [3; 1; 4; 1; 5; 9; 2; 6]).
(** Only the low pass part is split again. *)
Definition etree : ptree := PSplit (fun p => if String.eqb p "a" then PSplit (fun _ => PLeaf) else PLeaf).
Lemma ex8_wf : nd_wf ex8.
Proof. split; [repeat constructor; lia|reflexivity]. Qed.
Definition en1 (s : string) : Q := let d := packet_data 0 PERIODIZATION qbank s ex8 in this_of (ndinner Qcring d d).

Definition ex44 : nd Qcring := mkNd (C := Qcring) [4; 4] (map (fun z => qc z 1) [1; 2; 3; 4; 5; 6; 7; 8; 9; 1; 2; 3; 4; 5; 6; 7]).
Lemma ex44_wf : nd_wf ex44.
Proof. split; [repeat constructor; lia|reflexivity]. Qed.
Definition en2 (s : string) : Q := let d := packet_data2 0 1 PERIODIZATION qbank s ex44 in this_of (ndinner Qcring d d).
(** Two axes: only the part "da" is split again. *)
Definition etree2 : ptree := PSplit (fun p => if String.eqb p "da" then PSplit (fun _ => PLeaf) else PLeaf).
