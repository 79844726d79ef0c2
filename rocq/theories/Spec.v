(** Specifications, independent of the model of the code: the infinite signal
    extensions named by the documentation of the modes
    (pywt/_extensions/c/common.h lines 68-96, doc/source/ref/signal-extension-modes.rst),
    analysis and synthesis sums, and perfect-reconstruction filter banks. *)
From Verif Require Import Base.
From Verif Require Export CConv.

Section Spec.
Context {C : CRing}.

(** Periodic extension of [x] padded at its end with [pad] copies of the last
    sample. *)
Definition pext (pad : Z) (x : list C) (n : Z) : C :=
  let N := zlen x in
  gz x (Z.min (n mod (N + pad)) (N - 1)).

(** Infinite extension of the finite signal [x] in each mode. *)
Definition ext (m : mode) (x : list C) (n : Z) : C :=
  let N := zlen x in
  match m with
  | ZEROPAD => if (0 <=? n) && (n <? N) then gz x n else r0
  | CONSTANT_EDGE => gz x (Z.max 0 (Z.min n (N - 1)))
  | SYMMETRIC =>
      let r := n mod (2 * N) in if r <? N then gz x r else gz x (2 * N - 1 - r)
  | ANTISYMMETRIC =>
      let r := n mod (2 * N) in if r <? N then gz x r else [--] gz x (2 * N - 1 - r)
  | REFLECT =>
      let L := N - 1 in
      let r := n mod (2 * L) in if r <=? L then gz x r else gz x (2 * L - r)
  | ANTIREFLECT =>
      let L := N - 1 in
      let r := n mod (2 * L) in
      let base := if r <=? L then gz x r else (gz x L [+] gz x L) [-] gz x (2 * L - r) in
      base [+] rz (2 * (n / (2 * L))) [*] (gz x L [-] gz x 0)
  | SMOOTH =>
      if N <? 2 then gz x 0
      else if n <? 0 then gz x 0 [+] rz (- n) [*] (gz x 0 [-] gz x 1)
      else if n <? N then gz x n
      else gz x (N - 1) [+] rz (n - (N - 1)) [*] (gz x (N - 1) [-] gz x (N - 2))
  | PERIODIC => gz x (n mod N)
  | PERIODIZATION => pext (N mod 2) x n
  end.

(** Shortest signal on which the extension is defined. *)
Definition min_len (m : mode) : Z := match m with REFLECT | ANTIREFLECT => 2 | _ => 1 end.

(** Convolution of filter [h] with the doubly infinite signal [e] at [i]. *)
Definition conv (h : list C) (e : Z -> C) (i : Z) : C :=
  sumZ 0 (zlen h) (fun j => gz h j [*] e (i - j)).

(** First sample used by a mode: the coefficient of index k is centred at
    [2k + first_pos]. *)
Definition first_pos (m : mode) (F : Z) : Z := match m with PERIODIZATION => F / 2 | _ => 1 end.

Definition coeff_len (m : mode) (N F : Z) : Z :=
  match m with PERIODIZATION => (N + 1) / 2 | _ => (N + F - 1) / 2 end.

(** One level of analysis. *)
Definition analysis (m : mode) (h x : list C) : list C :=
  tab (coeff_len m (zlen x) (zlen h)) (fun k => conv h (ext m x) (2 * k + first_pos m (zlen h))).

(** One branch of synthesis: insert zeros between the coefficients [c]
    (a doubly infinite sequence), then filter with [g]: value at position [n].
    Only taps whose parity matches that of [n] contribute. *)
Definition up_conv (g : list C) (c : Z -> C) (n : Z) : C :=
  sumZ 0 (zlen g) (fun m => if (n - m) mod 2 =? 0 then gz g m [*] c ((n - m) / 2) else r0).

Definition rec_len (m : mode) (n F : Z) : Z :=
  match m with PERIODIZATION => 2 * n | _ => 2 * n - F + 2 end.

(** One level of synthesis from one coefficient array. *)
Definition synthesis (m : mode) (g c : list C) : list C :=
  match m with
  | PERIODIZATION =>
      tab (2 * zlen c) (fun n => up_conv g (fun k => gz c (k mod zlen c)) (n + zlen g / 2 - 1))
  | _ =>
      tab (2 * zlen c - zlen g + 2) (fun n => up_conv g (gz c) (n + zlen g - 2))
  end.

Definition vadd (a b : list C) : list C := map (fun '(x, y) => x [+] y) (combine a b).
Definition vscal (s : C) (a : list C) : list C := map (fun x => s [*] x) a.

(** The [n]-fold iterated approximation, and the multilevel decomposition
    [cA_n; cD_n; ...; cD_1]. *)
Fixpoint approx (m : mode) (h : list C) (n : nat) (x : list C) : list C :=
  match n with O => x | S n' => analysis m h (approx m h n' x) end.
Definition multi_analysis (m : mode) (h0 h1 : list C) (n : nat) (x : list C) : list (list C) :=
  approx m h0 n x :: map (fun j => analysis m h1 (approx m h0 j x)) (rev (seq 0 n)).

(** Length of the [n]-fold approximation of a signal of length [N]. *)
Fixpoint approx_len (m : mode) (F : Z) (n : nat) (N : Z) : Z :=
  match n with O => N | S n' => coeff_len m (approx_len m F n' N) F end.

(** Perfect-reconstruction identities of a two-channel filter bank with
    filters of the common even length F: the total impulse response from the
    input to the output, seen at either parity, is a pure delay by F-1. *)
Definition pr_bank (h0 h1 g0 g1 : list C) : Prop :=
  let F := zlen h0 in
  zlen h1 = F /\ zlen g0 = F /\ zlen g1 = F /\ F mod 2 = 0 /\ 2 <= F /\
  forall p s, p = 0 \/ p = 1 ->
    sumZ 0 F (fun m => if m mod 2 =? p
                       then gz g0 m [*] gz h0 (s - m) [+] gz g1 m [*] gz h1 (s - m)
                       else r0)
    = if s =? F - 1 then r1 else r0.

End Spec.
