(** The values of the demo signals, as functions of the number of the sample. *)
From Coq Require Import String ZArith List Reals.
Import ListNotations.
From Verif Require Import Base DemoSpec.
Open Scope R_scope.

(** The m-th of [N] samples, counted from 1, is [g m]. *)
Definition samples (f : list (option R)) (N : Z) (g : Z -> R) : Prop :=
  zlen f = N /\ forall m, (1 <= m <= N)%Z -> nth (Z.to_nat (m - 1)) f None = Some (g m).

(** Peaks: place, height and width. A peak has its height at its place and a
    sixteenth of it one width away. *)
Definition peaks : list (R * R * R) :=
  [(1 / 10, 4, 1 / 200); (13 / 100, 5, 1 / 200); (15 / 100, 3, 6 / 1000); (23 / 100, 4, 1 / 100); (25 / 100, 5, 1 / 100); (4 / 10, 42 / 10, 3 / 100);
   (44 / 100, 21 / 10, 1 / 100); (65 / 100, 43 / 10, 1 / 100); (76 / 100, 31 / 10, 1 / 200); (78 / 100, 51 / 10, 8 / 1000); (81 / 100, 42 / 10, 1 / 200)].
Definition peak (t : R) (p : R * R * R) : R := let '(p, h, w) := p in h * (w / (w + Rabs (t - p))) ^ 4.
Definition peaks_at (t : R) : R := sum (map (peak t) peaks).

(** A sine that changes by [f] half turns from one sample to the next, and
    sweeps: the phase after m samples is that of [m^2 / n], [m^3 / n^2]. *)
Definition tone (f : R) (m : Z) : R := sin (PI * f * IZR m).
Definition sweep2 (f n : R) (m : Z) : R := sin (PI * f * IZR m ^ 2 / n).
Definition sweep3 (f n : R) (m : Z) : R := sin (PI * f * IZR m ^ 3 / n ^ 2).
Definition value (name : string) (n : R) (m : Z) : option R :=
  let is s := String.eqb name s in
  if is "bumps"%string then Some (peaks_at (IZR m / n))
  else if is "hisine"%string then Some (tone (6902 / 10000) m)
  else if is "losine"%string then Some (tone (3333 / 10000) m)
  else if is "linchirp"%string then Some (sweep2 (1 / 2) n m)
  else if is "twochirp"%string then Some (sweep2 1 n m + sweep2 (1 / 3) n m)
  else if is "quadchirp"%string then Some (sweep3 (1 / 3) n m)
  else if is "mishmash"%string then Some (sweep3 (1 / 3) n m + tone (6902 / 10000) m + sweep2 (1 / 8) n m)
  else if is "wernersorrows"%string then Some (sweep3 (1 / 2) n m + tone (6902 / 10000) m + sweep2 1 n m + peaks_at (IZR m / n))
  else None.

(** The envelope of [L] samples: one, except for the first and the last [p]. *)
Definition fade (p e : Z) : R := sin (PI * IZR e / (2 * IZR (p - 1))) ^ 2.
Definition envelope (L p e : Z) : R := if (e <? p)%Z then fade p e else if (L - p <=? e)%Z then fade p (L - 1 - e) else 1.
Definition outside (L e : Z) : Prop := (e < 0 \/ L <= e)%Z.

(** The sum of the two hyperbolic chirps at [t]; each is heard in an interval. *)
Definition within (a b t : R) : R := if Rlt_dec a t then if Rlt_dec t b then 1 else 0 else 0.
Definition hyperbolas (n t : R) : R :=
  sin (PI * n * (15 / 1024) / (8 / 10 - t)) * within (1 / 10) (68 / 100) t + sin (PI * n * (5 / 1024) / (8 / 10 - t)) * within (1 / 10) (75 / 100) t.
(** Four chirps: two sweeps, one of them backwards, and two short tones. *)
Definition bell (n : R) (e : R) : R := exp (- (25 / 16 * e ^ 2 / n)).
Definition four_chirps (n m : Z) : R :=
  let N := IZR n in let M := IZR m in
  cos (25 / 256 * PI ^ 2 * M ^ 2 / N) + cos (15 / 512 * PI ^ 3 * (N + 1 - M) ^ 3 / N ^ 2)
  + bell N (M - 1 - N / 2) * cos (25 / 512 * PI * M) + bell N (M - 1 - 7 / 8 * N) * cos (175 / 512 * PI * M).
Definition lin_chirps (n m : Z) : R :=
  let N := IZR n in let M := IZR m in
  sqrt ((M - 1) * (N - M)) / N * (cos (125 / 512 * PI * M ^ 2 / N) + cos (25 / 256 * PI * M + 125 / 512 * PI * M ^ 2 / N)).
Definition gabors (m : Z) : R * R :=
  let b c := 3 * exp (- (20 * (5 / 512 * (IZR m - 1 - c)) ^ 2)) in
  (b 256 * cos (PI * IZR m / 16) + b 384 * cos (PI * IZR m / 4), b 256 * sin (PI * IZR m / 16) + b 384 * sin (PI * IZR m / 4)).
Definition one_over (m : Z) : R := if (m =? 512)%Z then sin 153450 else sin (15345 / 10 / (IZR m - 512)).

(** The pieces of Piece-Polynomial before the mean is removed; k counts from 0
    and [q] is the length of a piece. *)
Definition poly_base (q k : Z) : R :=
  if (k <? q)%Z then let t := IZR (k + 1) / IZR q in 20 * t ^ 3 + 20 * t ^ 2 + 80
  else if (k <? 2 * q)%Z then let t := IZR (2 * q - k) / IZR q in 10 * t ^ 3 + 45
  else if (k <? 3 * q)%Z then let t := IZR (k - 2 * q + 1) / IZR q in 80 * t ^ 3 + 40 * t + 100
  else if (k <? 4 * q)%Z then let t := IZR (k - 3 * q + 1) / IZR q in 16 * t ^ 2 + 8 * t + 16
  else let t := IZR (5 * q - k) / IZR q in 20 * t + 80.
Definition poly_pieces (n k : Z) : R :=
  if ((n - n / 10 <=? k) && (k <? n - n / 10 + n / 20))%Z%bool then 150
  else if ((n / 20 <=? k) && (k <? n / 20 + n / 10))%Z%bool then 10
  else poly_base (n / 5) (if (5 * (n / 5) <=? k)%Z then n - 1 - k else k).
(** Likewise for Piece-Regular, with the opposite sign. *)
Definition hump (n k : Z) : R := 70 * exp (- (200 / 9 * (IZR (k + 1) / IZR (n / 3) - 1 / 2) ^ 2)).
Definition regular_base (n k : Z) : R :=
  let a := (n / 2)%Z in let b := (n / 12)%Z in let c := (n / 20)%Z in let d := (n / 7)%Z in
  if ((a + 2 * b + 3 * c <=? k) && (k <? a + 2 * b + 3 * c + d))%Z%bool then exp 4 - exp (4 * (IZR (k - (a + 2 * b + 3 * c) + 1) / IZR d))
  else if ((a + 2 * b + c <=? k) && (k <? a + 2 * b + 3 * c))%Z%bool then 25
  else if ((a + b <=? k) && (k <? a + 2 * b))%Z%bool then exp (4 * (IZR (a + 2 * b - k) / IZR b))
  else if ((a <=? k) && (k <? a + b))%Z%bool then exp (4 * (IZR (k - a + 1) / IZR b))
  else if (a <=? k)%Z then 0
  else if (n / 3 <=? k)%Z then 15 * peaks_at (IZR (k + 1) / IZR n)
  else if (n / 5 <=? k)%Z then hump n k
  else if (d <=? k)%Z then hump n k / 2
  else hump n k.
Definition regular_pieces (n k : Z) : R := regular_base n (if (5 * (n / 5) <=? k)%Z then n - 1 - k else k).
(** The mean of [N] values. *)
Definition mean (N : Z) (g : Z -> R) : R := sum (map (fun k => g (Z.of_nat k)) (seq 0 (Z.to_nat N))) / IZR N.
(** The sum of the waves of the frequencies j^2 - 1, with the weights 1/j. *)
Definition riemann_sum (s N m : Z) : R := sum (map (fun j => cos (2 * PI * IZR ((Z.of_nat j ^ 2 - 1) * m) / IZR N) / INR j) (seq 1 (Z.to_nat s))) / IZR N.
