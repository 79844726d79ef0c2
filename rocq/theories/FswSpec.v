(** Specification of the fully separable transform: along each axis, all
    coefficients of a multilevel decomposition one after the other. *)
From Verif Require Import Base CConv Spec Dwt Nd.

Definition sum_of (l : list Z) : Z := fold_right Z.add 0 l.

(** Lengths of [cA_n; cD_n; ...; cD_1]. *)
Definition multi_lens (m : mode) (F : Z) (n : nat) (N : Z) : list Z :=
  approx_len m F n N :: map (fun j => approx_len m F (S j) N) (rev (seq 0 n)).

Section FswSpec.
Context {C : CRing}.
Definition stacked (m : mode) (w : wavelet C) (n : nat) (x : list C) : list C :=
  List.concat (multi_analysis m (dec_lo w) (dec_hi w) n x).

(** One transformed axis: index, number of levels, wavelet, mode. *)
Record fstep : Type := mkFstep { fs_ax : nat; fs_lev : nat; fs_w : wavelet C; fs_m : mode }.
Definition fs_lens (s : fstep) (sh : list Z) : list Z :=
  multi_lens (fs_m s) (dec_len (fs_w s)) (fs_lev s) (nthz (fs_ax s) sh).
Definition stack_ax (s : fstep) (x : nd C) : nd C :=
  along (fs_ax s) (sum_of (fs_lens s (nshape x))) (stacked (fs_m s) (fs_w s) (fs_lev s)) x.
Definition stack_all (plan : list fstep) (x : nd C) : nd C := fold_left (fun y s => stack_ax s y) plan x.

(** The sub-band [j] along one axis: 0 is the approximation, [j] >= 1 the
    details of level [n + 1 - j]; and the sub-band of a tuple of them. *)
Definition sub_ax (s : fstep) (j : Z) (x : nd C) : nd C :=
  along (fs_ax s) (nth (Z.to_nat j) (fs_lens s (nshape x)) 0)
    (fun v => nth (Z.to_nat j) (multi_analysis (fs_m s) (dec_lo (fs_w s)) (dec_hi (fs_w s)) (fs_lev s) v) []) x.
Definition sub_all (plan : list fstep) (key : list Z) (x : nd C) : nd C :=
  fold_left (fun y sj => sub_ax (fst sj) (snd sj) y) (combine plan key) x.
Definition is_key (plan : list fstep) (key : list Z) : Prop := Forall2 (fun s j => 0 <= j <= Z.of_nat (fs_lev s)) plan key.

(** The shape after a round trip: axes with at least one level grow to an even
    size. *)
Definition grown (s : fstep) (sh : list Z) : list Z :=
  let N := nthz (fs_ax s) sh in
  match fs_lev s with O => sh | S _ => setn (fs_ax s) (N + N mod 2) sh end.
Definition grown_all (plan : list fstep) (sh : list Z) : list Z := fold_left (fun t s => grown s t) plan sh.
End FswSpec.
