(** Model of central_frequency, scale2frequency and frequency2scale
    (pywt/_functions.py lines 121-204), over the rationals.

    The wavelet function approximation and its discrete Fourier transform are
    not modelled: the number of samples, the position of the maximum of
    |fft(psi)[1:]| and the width of the domain are parameters. *)
From Coq Require Import QArith Lia Lqa ZArith.
Open Scope Z_scope.

(** Lines 149-156: [len] samples, [k] the value of argmax (0 <= k < len-1),
    [domain] = x[-1] - x[0]. The test [index > len(psi) / 2] is in floating
    point. *)
Definition freq_index (len k : Z) : Z :=
  let index := k + 2 in
  if len <? 2 * index then len - index + 2 else index.
(** Line 159. *)
Definition central_frequency (len k : Z) (domain : Q) : Q :=
  (1 / (domain / inject_Z (freq_index len k - 1)))%Q.

(** Lines 162-183 and 185-204; [c] is the central frequency. *)
Definition scale2frequency (c scale : Q) : Q := (c / scale)%Q.
Definition frequency2scale (c freq : Q) : Q := (c / freq)%Q.

Lemma freq_index_range len k : 0 <= k < len - 1 -> 2 <= freq_index len k <= len.
Proof.
  intros H. unfold freq_index. cbv zeta. destruct (Z.ltb_spec len (2 * (k + 2))) as [E|E]; lia.
Qed.

Theorem central_frequency_value len k domain : 0 <= k < len - 1 -> (0 < domain)%Q ->
  (central_frequency len k domain == inject_Z (freq_index len k - 1) / domain)%Q /\ (0 < central_frequency len k domain)%Q.
Proof.
  intros Hk Hd. pose proof (freq_index_range len k Hk) as Hr. unfold central_frequency.
  assert (P : (0 < inject_Z (freq_index len k - 1))%Q) by (rewrite <- (Zlt_Qlt 0); lia).
  assert (E : (1 / (domain / inject_Z (freq_index len k - 1)) == inject_Z (freq_index len k - 1) / domain)%Q) by (field; split; lra).
  split; [exact E|]. rewrite E. apply Qlt_shift_div_l; [exact Hd|]. lra.
Qed.

Theorem scale_frequency_inverse c s : ~ (c == 0)%Q -> ~ (s == 0)%Q ->
  (frequency2scale c (scale2frequency c s) == s)%Q /\ (scale2frequency c (frequency2scale c s) == s)%Q.
Proof. intros Hc Hs. unfold frequency2scale, scale2frequency. split; field; auto. Qed.

(** For a wavelet: no condition on the central frequency is needed. *)
Theorem wavelet_scale_frequency len k domain s : 0 <= k < len - 1 -> (0 < domain)%Q -> (0 < s)%Q ->
  let c := central_frequency len k domain in
  (frequency2scale c (scale2frequency c s) == s)%Q /\ (scale2frequency c (frequency2scale c s) == s)%Q /\
  (0 < scale2frequency c s)%Q.
Proof.
  intros Hk Hd Hs c. destruct (central_frequency_value len k domain Hk Hd) as (_ & P). fold c in P.
  destruct (scale_frequency_inverse c s) as (A & B); [lra|lra|]. split; [exact A|]. split; [exact B|].
  unfold scale2frequency. apply Qlt_shift_div_l; [exact Hs|]. lra.
Qed.

From Verif Require Import Base.
(** The two conversions over any field, in particular the reals: [inv] is only
    assumed to invert the non-zero elements. *)
Section Field.
Variable C : CRing.
Add Ring C_ring_fr : (rth C).
Variable inv : C -> C.
Hypothesis inv_ok : forall x : C, x <> r0 -> inv x [*] x = r1.
Definition fdiv (a b : C) : C := a [*] inv b.

Theorem field_inverse (c s : C) : c <> r0 -> s <> r0 -> fdiv c (fdiv c s) = s.
Proof.
  intros Hc Hs. unfold fdiv. set (k := c [*] inv s).
  assert (Ek : k [*] s = c) by (unfold k; transitivity (c [*] (inv s [*] s)); [ring|rewrite inv_ok by auto; ring]).
  assert (Hk : k <> r0) by (intros E; rewrite E in Ek; apply Hc; rewrite <- Ek; ring).
  rewrite <- Ek at 1. transitivity ((inv k [*] k) [*] s); [ring|]. rewrite inv_ok by auto. ring.
Qed.
End Field.
