(** Model of demo_signal (pywt/data/_wavelab_signals.py).

    Samples are real numbers, [None] stands for NaN. Arithmetic is exact, except
    for the number of elements of the two calls of numpy.arange with floats,
    which are parameters: [tcount n] for np.arange(1/n, 1 + 1/n, 1/n) and
    [hcount n] for np.arange(1.001, n + .001 + 1). In exact arithmetic both are n;
    [tcount64] and [hcount64] below are their values in double precision.

    Simplifications: n is an int or None; the roundings int(np.fix(n / 12)),
    int(np.round(0.65 * n)) and so on are those of the exact quotients; infinite
    values do not arise (the divisors that can be zero divide a zero). *)
From Coq Require Import Ascii String QArith Qround ZArith List Reals.
Import ListNotations.
From Verif Require Import Base CConv Dwt Swt Names CwtReal.
Open Scope Z_scope.

(** ** Double precision *)

(** a / b rounded to an integer, ties to even. *)
Definition rne (a b : Z) : Z :=
  let q := a / b in let r := a mod b in
  if 2 * r <? b then q else if b <? 2 * r then q + 1 else if Z.even q then q else q + 1.
(** The double nearest to a number >= 0 (53 bits, ties to even; subnormal and
    huge numbers do not occur). *)
Definition rnd64 (q : Q) : Q :=
  let n := Qnum q in let d := Zpos (Qden q) in
  if n =? 0 then 0%Q else
  let k := Z.log2 n - Z.log2 d in
  let k := if (if 0 <=? k then d * 2 ^ k <=? n else d <=? n * 2 ^ (- k)) then k else k - 1 in
  let e := k - 52 in
  if 0 <=? e then inject_Z (rne n (d * 2 ^ e) * 2 ^ e) else Qmake (rne (n * 2 ^ (- e)) d) (Z.to_pos (2 ^ (- e))).
(** The length of numpy.arange(a, b, s): ceil((b - a) / s). *)
Definition arange_len64 (a b s : Q) : Z := Z.max 0 (Qceiling (rnd64 (rnd64 (b - a) / s))).
(** Line 84. *)
Definition tcount64 (n : Z) : Z := let s := rnd64 (1 / inject_Z n) in arange_len64 s (rnd64 (1 + s)) s.
(** Line 142; the step is 1. *)
Definition hcount64 (n : Z) : Z :=
  let c := rnd64 (1 # 1000) in arange_len64 (rnd64 (1001 # 1000)) (rnd64 (rnd64 (inject_Z n + c) + 1)) 1.

(** ** Arrays *)
Section A.
Context {A : Type}.
(** f[a:b], 0 <= a, b. *)
Definition cut_ (f : list A) (a b : Z) : list A := firstn (Z.to_nat (b - a)) (skipn (Z.to_nat a) f).
(** The value of an assignment to [L] places: of the same length, or of length 1. *)
Definition spread (L : Z) (v : list A) : res (list A) :=
  if zlen v =? L then Ok v else match v with [x] => Ok (repeat x (Z.to_nat L)) | _ => Err ValueError end.
(** f[a:b] = v, 0 <= a, b. *)
Definition put (f : list A) (a b : Z) (v : list A) : res (list A) :=
  let a := Z.min a (zlen f) in let b := Z.max a (Z.min b (zlen f)) in
  v <- spread (b - a) v ;; Ok (firstn (Z.to_nat a) f ++ v ++ skipn (Z.to_nat b) f).
(** The bounds of a slice with step -1. *)
Definition down (n i : Z) : Z := if i <? 0 then Z.max (-1) (i + n) else Z.min i (n - 1).
(** f[i::-1]. *)
Definition from_down (f : list A) (i : Z) : list A := rev (firstn (Z.to_nat (down (zlen f) i + 1)) f).
(** f[i:j:-1] = v. *)
Definition put_down (f : list A) (i j : Z) (v : list A) : res (list A) :=
  let i := down (zlen f) i in let j := down (zlen f) j in
  if i <=? j then v <- spread 0 v ;; Ok f
  else v <- spread (i - j) v ;; Ok (firstn (Z.to_nat (j + 1)) f ++ rev v ++ skipn (Z.to_nat (i + 1)) f).
End A.
(** a * b for arrays of one axis. *)
Definition times (a b : list (option R)) : res (list (option R)) :=
  let mul x y := match x, y with Some x, Some y => Some (x * y)%R | _, _ => None end in
  if zlen a =? zlen b then Ok (map (fun '(x, y) => mul x y) (combine a b))
  else match a, b with
       | [x], _ => Ok (map (mul x) b)
       | _, [y] => Ok (map (fun x => mul x y) a)
       | _, _ => Err ValueError
       end.

Open Scope R_scope.
Definition sgn (x : R) : R := if Rlt_dec x 0 then -1 else if Rlt_dec 0 x then 1 else 0.
Definition ind (P : bool) : R := if P then 1 else 0.
Definition rlt (x y : R) : bool := if Rlt_dec x y then true else false.
Definition rsum (l : list R) : R := fold_right Rplus 0 l.
(** np.sqrt. *)
Definition nsqrt (x : R) : option R := if Rlt_dec x 0 then None else Some (sqrt x).

Definition positions : list R := [0.1; 0.13; 0.15; 0.23; 0.25; 0.4; 0.44; 0.65; 0.76; 0.78; 0.81].

(** ** The signals of the grid t (lines 97-138), as functions of t. *)
(** Lines 97-102. *)
Definition blocks (t : R) : R :=
  rsum (map (fun '(t0, h) => h * (1 + sgn (t - t0)) / 2) (combine positions [4; -5; 3; -4; 5; -4.2; 2.1; 4.3; -3.1; 2.1; -4.2])).
(** Lines 103-109. *)
Definition bumps (t : R) : R :=
  rsum (map (fun '(t0, (h, w)) => h / (1 + Rabs ((t - t0) / w)) ^ 4)
    (combine positions (combine [4; 5; 3; 4; 5; 4.2; 2.1; 4.3; 3.1; 5.1; 4.2] [0.005; 0.005; 0.006; 0.01; 0.01; 0.03; 0.01; 0.01; 0.005; 0.008; 0.005]))).
(** Lines 110-111. *)
Definition heavisine (t : R) : R := 4 * sin (4 * PI * t) - sgn (t - 0.3) - sgn (0.72 - t).
(** Lines 112-113. *)
Definition doppler (t : R) : option R := match nsqrt (t * (1 - t)) with Some a => Some (a * sin (2 * PI * 1.05 / (t + 0.05))) | None => None end.
(** Lines 114-115. *)
Definition ramp (t : R) : R := t - ind (negb (rlt t 0.37)).
(** Lines 116-138; [n] is the length. *)
Definition hisine (n t : R) : R := sin (PI * (n * 0.6902) * t).
Definition losine (n t : R) : R := sin (PI * (n * 0.3333) * t).
Definition linchirp (n t : R) : R := sin (PI * t * ((n * 0.5) * t)).
Definition twochirp (n t : R) : R := sin (PI * t * (n * t)) + sin ((PI / 3) * t * (n * t)).
Definition quadchirp (n t : R) : R := sin ((PI / 3) * t * (n * t ^ 2)).
Definition mishmash (n t : R) : R := sin ((PI / 3) * t * (n * t ^ 2)) + sin (PI * (n * 0.6902) * t) + sin (PI * t * (n * 0.125 * t)).
Definition wernersorrows (n t : R) : R :=
  sin (PI * t * (n / 2 * t ^ 2)) + sin (PI * (n * 0.6902) * t) + sin (PI * t * (n * t)) + bumps t.

(** The rising cutoff: (1 + sin(-pi/2 + k / d * pi)) / 2 for 0 <= k < p. *)
Definition rising (p : Z) (d : R) (zero : bool) : list (option R) :=
  tab p (fun k => if zero then None else Some ((1 + sin (- PI / 2 + IZR k / d * PI)) / 2)).

Section Signals.
Variables tcount hcount : Z -> Z.

(** Line 84: the grid t. *)
Definition tgrid (n : Z) : list R := tab (tcount n) (fun k => (IZR k + 1) / IZR n).

(** Lines 139-156. *)
Definition hypchirps (n : Z) : res (list (option R)) :=
  let alpha := 15 * IZR n * PI / 1024 in let beta := 5 * IZR n * PI / 1024 in
  let t := tab (hcount n) (fun k => (IZR k + 1.001) / IZR n) in
  let f12 := map (fun t => sin (alpha / (0.8 - t)) * ind (rlt 0.1 t) * ind (rlt t 0.68) + sin (beta / (0.8 - t)) * ind (rlt 0.1 t) * ind (rlt t 0.75)) t in
  let m := rne (13 * n) 20 in let p := (m / 4)%Z in
  envelope <- put (repeat (Some 1) (Z.to_nat m)) 0 p (rising p (IZR (p - 1)) (p =? 1)%Z) ;;
  envelope <- put envelope (m - p) m (rev (cut_ envelope 0 p)) ;;
  let c := ((n + 9) / 10)%Z in
  env <- put (repeat (Some 0) (Z.to_nat n)) (c - 1) (m + c - 1) (cut_ envelope 0 m) ;;
  times (map Some f12) env.

(** Lines 157-162. *)
Definition linchirps (n : Z) : list (option R) :=
  let b := 100 * IZR n * PI / 1024 in let a := 250 * IZR n * PI / 1024 in
  tab n (fun k => let t := (IZR k + 1) / IZR n in
    match nsqrt ((t - 1 / IZR n) * (1 - t)) with Some s => Some (s * (cos (a * t ^ 2) + cos (b * t + a * t ^ 2))) | None => None end).

(** Lines 163-183. *)
Definition chirps (n : Z) : res (list (option R)) :=
  let f1 := tab n (fun k => cos (((IZR k + 1) / IZR n * 10 * PI) ^ 2 * IZR n / 1024)) in
  let f2 := rev (tab n (fun k => cos (30 * IZR n / 1024 * ((IZR k + 1) / IZR n * PI) ^ 3))) in
  let g := tab (2 * n + 1) (fun k => exp (- (IZR (k - n) / IZR n * 20) ^ 2 * 4 * IZR n / 1024)) in
  let wave c := tab n (fun k => cos (c * PI * ((IZR k + 1) / IZR n) * IZR n / 1024)) in
  f3 <- times (map Some (cut_ g (n / 2) (n / 2 + n))) (map Some (wave 50)) ;;
  f4 <- times (map Some (cut_ g (n / 8) (n / 8 + n))) (map Some (wave 350)) ;;
  let plus a b := map (fun '(x, y) => match x, y with Some x, Some y => Some (x + y) | _, _ => None end) (combine a b) in
  let f := plus (plus (plus (map Some f1) (map Some f2)) f3) f4 in
  envelope <- put (repeat (Some 1) (Z.to_nat n)) 0 (n / 8) (rising (n / 8) (IZR n / 8 - 1) (n =? 8)%Z) ;;
  envelope <- put envelope (7 * n / 8) n (rev (cut_ envelope 0 (n / 8))) ;;
  times f envelope.

(** Lines 184-193; n = 512. *)
Definition gabor : list (R * R) :=
  let n := 512%Z in
  let g := tab (2 * n + 1) (fun k => exp (- (IZR (k - n) * 5 / IZR n) ^ 2 * 20)) in
  let wave c := tab n (fun k => let x := IZR c * PI * ((IZR k + 1) / IZR n) in (cos x, sin x)) in
  let part a c := map (fun '(u, (x, y)) => (3 * u * x, 3 * u * y)) (combine (cut_ g a (a + n)) (wave c)) in
  map (fun '((x, y), (x', y')) => (x + x', y + y')) (combine (part (2 * n / 4)%Z (n / 16)%Z) (part (n / 4)%Z (n / 4)%Z)).

(** Lines 194-200; n = 1024. *)
Definition sineoneoverx : list R :=
  let n := 1024%Z in
  cut_ (tab (2 * n) (fun k => let i := (k - n + 1)%Z in sin (1.5 / ((if (i =? 0)%Z then 1 / 100 else IZR i) / IZR (n - 1))))) 512 1536.

(** Lines 201-231. *)
Definition piece_regular (n : Z) : res (list R) :=
  let f := repeat 0 (Z.to_nat n) in
  let n12 := (n / 12)%Z in let n7 := (n / 7)%Z in let n5 := (n / 5)%Z in let n3 := (n / 3)%Z in let n2 := (n / 2)%Z in let n20 := (n / 20)%Z in
  let f1 := map (fun t => -15 * bumps t) (tgrid n) in
  let f2 := tab n12 (fun k => - exp (4 * ((IZR k + 1) / IZR n12))) in
  let f5 := tab n7 (fun k => exp (4 * ((IZR k + 1) / IZR n7)) - exp 4) in
  let f6 := tab n3 (fun k => let t := (IZR k + 1) / IZR n3 in -70 * exp (- ((t - 0.5) * (t - 0.5)) / (2 * (6 / 40) ^ 2))) in
  f <- put f 0 n7 (cut_ f6 0 n7) ;;
  f <- put f n7 n5 (map (Rmult 0.5) (cut_ f6 n7 n5)) ;;
  f <- put f n5 n3 (cut_ f6 n5 n3) ;;
  f <- put f n3 n2 (cut_ f1 n3 n2) ;;
  f <- put f n2 (n2 + n12) f2 ;;
  f <- put_down f (n2 + 2 * n12 - 1) (n2 + n12 - 1) f2 ;;
  f <- put f (n2 + 2 * n12 + n20) (n2 + 2 * n12 + 3 * n20) (repeat (-25) (Z.to_nat (n2 + 2 * n12 + 3 * n20 - n2 - 2 * n12 - n20))) ;;
  let k := (n2 + 2 * n12 + 3 * n20)%Z in
  f <- put f k (k + n7) f5 ;;
  let diff := (n - 5 * n5)%Z in
  f <- put f (5 * n5) n (from_down f (diff - 1)) ;;
  let bias := rsum f / IZR n in
  Ok (map (fun x => bias - x) f).

(** Lines 232-255. *)
Definition piece_polynomial (n : Z) : res (list R) :=
  let f := repeat 0 (Z.to_nat n) in
  let n5 := (n / 5)%Z in let n10 := (n / 10)%Z in let n20 := (n / 20)%Z in
  let poly g := tab n5 (fun k => g ((IZR k + 1) / IZR n5)) in
  let f1 := poly (fun t => 20 * (t ^ 3 + t ^ 2 + 4)) in
  let f3 := poly (fun t => 40 * (2 * t ^ 3 + t) + 100) in
  let f2 := poly (fun t => 10 * t ^ 3 + 45) in
  let f4 := poly (fun t => 16 * t ^ 2 + 8 * t + 16) in
  let f5 := poly (fun t => 20 * (t + 4)) in
  f <- put f 0 n5 f1 ;;
  f <- put_down f (2 * n5 - 1) (n5 - 1) f2 ;;
  f <- put f (2 * n5) (3 * n5) f3 ;;
  f <- put f (3 * n5) (4 * n5) f4 ;;
  f <- put f (4 * n5) (5 * n5) (from_down f5 n5) ;;
  let diff := (n - 5 * n5)%Z in
  f <- put f (5 * n5) n (from_down f (diff - 1)) ;;
  f <- put f n20 (n20 + n10) (repeat 10 (Z.to_nat n10)) ;;
  f <- put f (n - n10) (n + n20 - n10) (repeat 150 (Z.to_nat n20)) ;;
  let bias := rsum f / IZR n in
  Ok (map (fun x => x - bias) f).

(** int(np.round(np.sqrt(n))). *)
Definition round_sqrt (n : Z) : Z := let s := Z.sqrt n in if (n <=? s * s + s)%Z then s else (s + 1)%Z.
(** Lines 256-263: the real part of the inverse DFT. *)
Definition riemann (n : Z) : res (list R) :=
  let sqn := round_sqrt n in
  let idx := tab sqn (fun k => ((k + 1) * (k + 1) - 1)%Z) in
  f <- scatter (C := Rring) (repeat 0 (Z.to_nat (tcount n))) idx (tab sqn (fun k => 1 / (IZR k + 1))) ;;
  let N := zlen f in
  Ok (tab N (fun j => rsum (map (fun '(m, v) => v * cos (2 * PI * IZR (Z.of_nat m) * IZR j / IZR N)) (combine (seq 0 (List.length f)) f)) / IZR N)).
End Signals.

(** Lines 6-26. *)
Open Scope string_scope.
Definition implemented : list string :=
  ["Blocks"; "Bumps"; "HeaviSine"; "Doppler"; "Ramp"; "HiSine"; "LoSine"; "LinChirp"; "TwoChirp"; "QuadChirp"; "MishMash"; "WernerSorrows"; "HypChirps"; "LinChirps";
   "Chirps"; "Gabor"; "sineoneoverx"; "Piece-Regular"; "Piece-Polynomial"; "Riemann"].

Inductive demo := DNames (l : list string) | DReal (f : list (option R)) | DComplex (f : list (R * R)).

(** Lines 29-267. *)
Definition demo_signal (tcount hcount : Z -> Z) (name : string) (n : option Z) : res demo :=
  let name := lower name in
  if String.eqb name "list" then Ok (DNames implemented) else
  if match n with Some n => (n <? 1)%Z | None => false end then Err ValueError else
  match n with
  | None => if String.eqb name "gabor" then Ok (DComplex gabor)
            else if String.eqb name "sineoneoverx" then Ok (DReal (map Some sineoneoverx)) else Err ValueError
  | Some n =>
      if String.eqb name "gabor" || String.eqb name "sineoneoverx" then Err ValueError else
      let t := tgrid tcount n in
      let of_t f := Ok (DReal (map (fun t => Some (f t)) t)) in
      let real (r : res (list R)) := f <- r ;; Ok (DReal (map Some f)) in
      if String.eqb name "blocks" then of_t blocks
      else if String.eqb name "bumps" then of_t bumps
      else if String.eqb name "heavisine" then of_t heavisine
      else if String.eqb name "doppler" then Ok (DReal (map doppler t))
      else if String.eqb name "ramp" then of_t ramp
      else if String.eqb name "hisine" then of_t (hisine (IZR n))
      else if String.eqb name "losine" then of_t (losine (IZR n))
      else if String.eqb name "linchirp" then of_t (linchirp (IZR n))
      else if String.eqb name "twochirp" then of_t (twochirp (IZR n))
      else if String.eqb name "quadchirp" then of_t (quadchirp (IZR n))
      else if String.eqb name "mishmash" then of_t (mishmash (IZR n))
      else if String.eqb name "wernersorrows" then of_t (wernersorrows (IZR n))
      else if String.eqb name "hypchirps" then f <- hypchirps hcount n ;; Ok (DReal f)
      else if String.eqb name "linchirps" then Ok (DReal (linchirps n))
      else if String.eqb name "chirps" then f <- chirps n ;; Ok (DReal f)
      else if String.eqb name "piece-regular" then real (piece_regular tcount n)
      else if String.eqb name "piece-polynomial" then real (piece_polynomial n)
      else if String.eqb name "riemann" then real (riemann tcount n)
      else Err ValueError
  end.
