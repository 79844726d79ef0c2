(** Model of pywt/_extensions/c/convolution.template.c and of the MODE enum of
    pywt/_extensions/c/common.h.

    Simplifications common to the whole file: the sample type TYPE and the
    filter type REAL_TYPE are the same exact commutative ring (no rounding);
    buffer lengths N and F are the lengths of the lists; size_t index
    arithmetic is over Z (a negative index is an out-of-bounds access); loops
    run on [fuel], a run out of fuel being reported as [Fuel]. *)
From Verif Require Import Base.

(** common.h lines 68-96 (enum MODE). MODE_INVALID and MODE_MAX are markers
    only and are not represented. *)
Inductive mode : Set :=
| ZEROPAD | SYMMETRIC | CONSTANT_EDGE | SMOOTH | PERIODIC | PERIODIZATION
| REFLECT | ANTISYMMETRIC | ANTIREFLECT.

(** common.h lines 68-96: integer codes of the enum. *)
Definition mode_code (m : mode) : Z :=
  match m with
  | ZEROPAD => 0 | SYMMETRIC => 1 | CONSTANT_EDGE => 2 | SMOOTH => 3 | PERIODIC => 4
  | PERIODIZATION => 5 | REFLECT => 6 | ANTISYMMETRIC => 7 | ANTIREFLECT => 8
  end.

Section Kernels.
Context {C : CRing}.
Variable fuel : nat.

(** [sum += filter[fi] * input[ii]] (convolution.template.c, passim). *)
Definition acc (flt inp : list C) (fi ii : Z) (s : C) : res C :=
  f <- rd flt fi ;; x <- rd inp ii ;; Ok (s [+] f [*] x).

(** [sum -= filter[fi] * input[ii]] (lines 167, 257, 331, 407). *)
Definition acc_neg (flt inp : list C) (fi ii : Z) (s : C) : res C :=
  f <- rd flt fi ;; x <- rd inp ii ;; Ok (s [-] f [*] x).

(** The inner loops [for (k = k0; k < kmax && more(j); k += d, j += d) upd]. *)
Definition seg {A} (d k0 kmax : Z) (more : Z -> bool) (upd : Z -> Z -> A -> res A)
    (js : Z * A) : res (Z * A) :=
  '(k, j, s) <- while fuel (fun '(k, j, s) => (k <? kmax) && more j)
                  (fun '(k, j, s) => s' <- upd j k s ;; Ok (k + d, j + d, s'))
                  (k0, fst js, snd js) ;;
  Ok (j, s).

(** The loops [for (; more(j); j += d) upd]. *)
Definition forj {A} (d : Z) (more : Z -> bool) (upd : Z -> A -> res A) (js : Z * A) : res (Z * A) :=
  while fuel (fun '(j, s) => more j)
    (fun '(j, s) => s' <- upd j s ;; Ok (j + d, s')) js.

(** ** downsampling_convolution_periodization, lines 44-124 *)

(** lines 60-66 and 96-102: the filter sticks out on the left. *)
Definition per_left (inp flt : list C) (padding fstep k_start : Z) (js : Z * C) : res (Z * C) :=
  let N := zlen inp in let F := zlen flt in
  while fuel (fun '(j, s) => j <? F)
    (fun js =>
       js <- seg fstep k_start padding (fun j => j <? F)
               (fun j k s => acc flt inp j (N - 1) s) js ;;
       seg fstep k_start N (fun j => j <? F)
         (fun j k s => acc flt inp j (N - 1 - k) s) js) js.

(** lines 82-89 and 109-116: the filter sticks out on the right. *)
Definition per_right (inp flt : list C) (padding i : Z) (js : Z * C) : res (Z * C) :=
  let N := zlen inp in
  while fuel (fun '(j, s) => N <=? i - j)
    (fun js =>
       js <- seg 1 0 padding (fun j => N <=? i - j)
               (fun j k s => acc flt inp (i - N - j) (N - 1) s) js ;;
       seg 1 0 N (fun j => N <=? i - j)
         (fun j k s => acc flt inp (i - N - j) k s) js) js.

Definition downsampling_convolution_periodization
    (inp flt out : list C) (step fstep : Z) : res (list C) :=
  let N := zlen inp in let F := zlen flt in
  let padding := (step - N mod step) mod step in                       (* line 50 *)
  (* lines 52-68 *)
  st <- while fuel (fun '(i, o, out) => (i <? F) && (i <? N))
    (fun '(i, o, out) =>
       '(j, s) <- forj fstep (fun j => j <=? i) (fun j s => acc flt inp j (i - j) s) (0, r0) ;;
       let k_start := if 1 <? fstep then j - (i + 1) else 0 in
       '(j, s) <- per_left inp flt padding fstep k_start (j, s) ;;
       out <- wr out o s ;; Ok (i + step, o + 1, out)) (F / 2, 0, out) ;;
  (* lines 70-76 *)
  st <- while fuel (fun '(i, o, out) => i <? N)
    (fun '(i, o, out) =>
       '(j, s) <- forj fstep (fun j => j <? F) (fun j s => acc flt inp j (i - j) s) (0, r0) ;;
       out <- wr out o s ;; Ok (i + step, o + 1, out)) st ;;
  (* lines 78-104 *)
  st <- while fuel (fun '(i, o, out) => (i <? F) && (i <? N + F / 2))
    (fun '(i, o, out) =>
       '(j, s) <- per_right inp flt padding i (0, r0) ;;
       let j := if 1 <? fstep then j + (fstep - j mod fstep) mod fstep else j in
       '(j, s) <- forj fstep (fun j => j <=? i) (fun j s => acc flt inp j (i - j) s) (j, s) ;;
       let k_start := if 1 <? fstep then j - (i + 1) else 0 in
       '(j, s) <- per_left inp flt padding fstep k_start (j, s) ;;
       out <- wr out o s ;; Ok (i + step, o + 1, out)) st ;;
  (* lines 106-122 *)
  '(_, _, out) <- while fuel (fun '(i, o, out) => i <? N + F / 2)
    (fun '(i, o, out) =>
       '(j, s) <- per_right inp flt padding i (0, r0) ;;
       let j := if 1 <? fstep then j + (fstep - j mod fstep) mod fstep else j in
       '(j, s) <- forj fstep (fun j => j <? F) (fun j s => acc flt inp j (i - j) s) (j, s) ;;
       out <- wr out o s ;; Ok (i + step, o + 1, out)) st ;;
  Ok out.

(** ** downsampling_convolution, lines 127-470 *)

(** The switch over the mode for filter taps left of the data: lines 152-220,
    repeated verbatim at lines 316-384. *)
Definition left_ext (m : mode) (inp flt : list C) (js : Z * C) : res (Z * C) :=
  let N := zlen inp in let F := zlen flt in
  let more := fun j => j <? F in
  match m with
  | SYMMETRIC =>                                             (* 153-161 *)
      while fuel (fun '(j, s) => more j)
        (fun js =>
           js <- seg 1 0 N more (fun j k s => acc flt inp j k s) js ;;
           seg 1 0 N more (fun j k s => acc flt inp j (N - 1 - k) s) js) js
  | ANTISYMMETRIC =>                                         (* 162-171 *)
      while fuel (fun '(j, s) => more j)
        (fun js =>
           js <- seg 1 0 N more (fun j k s => acc_neg flt inp j k s) js ;;
           seg 1 0 N more (fun j k s => acc flt inp j (N - 1 - k) s) js) js
  | REFLECT =>                                               (* 172-180 *)
      while fuel (fun '(j, s) => more j)
        (fun js =>
           js <- seg 1 1 N more (fun j k s => acc flt inp j k s) js ;;
           seg 1 1 N more (fun j k s => acc flt inp j (N - 1 - k) s) js) js
  | ANTIREFLECT =>                                           (* 181-199 *)
      le <- rd inp 0 ;;
      '(j, s, le, tmp) <- while fuel (fun '(j, s, le, tmp) => more j)
        (fun '(j, s, le, tmp) =>
           '(j, (s, tmp)) <- seg 1 1 N more
              (fun j k '(s, tmp) =>
                 xk <- rd inp k ;; x0 <- rd inp 0 ;;
                 let tmp := le [-] (xk [-] x0) in
                 f <- rd flt j ;; Ok (s [+] f [*] tmp, tmp)) (j, (s, tmp)) ;;
           let le := tmp in
           '(j, (s, tmp)) <- seg 1 1 N more
              (fun j k '(s, tmp) =>
                 xk <- rd inp (N - 1 - k) ;; xl <- rd inp (N - 1) ;;
                 let tmp := le [+] (xk [-] xl) in
                 f <- rd flt j ;; Ok (s [+] f [*] tmp, tmp)) (j, (s, tmp)) ;;
           let le := tmp in
           Ok (j, s, le, tmp)) (fst js, snd js, le, r0) ;;
      Ok (j, s)
  | CONSTANT_EDGE =>                                         (* 200-203 *)
      forj 1 more (fun j s => acc flt inp j 0 s) js
  | SMOOTH =>                                                (* 204-209 *)
      '(k, j, s) <- while fuel (fun '(k, j, s) => more j)
        (fun '(k, j, s) =>
           f <- rd flt j ;; x0 <- rd inp 0 ;; x1 <- rd inp 1 ;;
           Ok (k + 1, j + 1, s [+] f [*] (x0 [+] rz k [*] (x0 [-] x1))))
        (1, fst js, snd js) ;;
      Ok (j, s)
  | PERIODIC =>                                              (* 210-216 *)
      while fuel (fun '(j, s) => more j)
        (fun js => seg 1 0 N more (fun j k s => acc flt inp j (N - 1 - k) s) js) js
  | ZEROPAD | PERIODIZATION => Ok js                         (* 217-219 *)
  end.

(** The switch over the mode for filter taps right of the data: lines 238-311,
    repeated verbatim at lines 392-464. Starts with j = 0, sum = 0. *)
Definition right_ext (m : mode) (inp flt : list C) (i : Z) (js : Z * C) : res (Z * C) :=
  let N := zlen inp in
  let more := fun j => N <=? i - j in
  match m with
  | SYMMETRIC =>                                             (* 239-251 *)
      while fuel (fun '(j, s) => more j)
        (fun js =>
           js <- seg 1 0 N more (fun j k s => acc flt inp (i - N - j) (N - 1 - k) s) js ;;
           seg 1 0 N more (fun j k s => acc flt inp (i - N - j) k s) js) js
  | ANTISYMMETRIC =>                                         (* 252-261 *)
      while fuel (fun '(j, s) => more j)
        (fun js =>
           js <- seg 1 0 N more (fun j k s => acc_neg flt inp (i - N - j) (N - 1 - k) s) js ;;
           seg 1 0 N more (fun j k s => acc flt inp (i - N - j) k s) js) js
  | REFLECT =>                                               (* 262-270 *)
      while fuel (fun '(j, s) => more j)
        (fun js =>
           js <- seg 1 1 N more (fun j k s => acc flt inp (i - N - j) (N - 1 - k) s) js ;;
           seg 1 1 N more (fun j k s => acc flt inp (i - N - j) k s) js) js
  | ANTIREFLECT =>                                           (* 271-289 *)
      re <- rd inp (N - 1) ;;
      '(j, s, re, tmp) <- while fuel (fun '(j, s, re, tmp) => more j)
        (fun '(j, s, re, tmp) =>
           '(j, (s, tmp)) <- seg 1 1 N more
              (fun j k '(s, tmp) =>
                 xk <- rd inp (N - 1 - k) ;; xl <- rd inp (N - 1) ;;
                 let tmp := re [-] (xk [-] xl) in
                 f <- rd flt (i - N - j) ;; Ok (s [+] f [*] tmp, tmp)) (j, (s, tmp)) ;;
           let re := tmp in
           '(j, (s, tmp)) <- seg 1 1 N more
              (fun j k '(s, tmp) =>
                 xk <- rd inp k ;; x0 <- rd inp 0 ;;
                 let tmp := re [+] (xk [-] x0) in
                 f <- rd flt (i - N - j) ;; Ok (s [+] f [*] tmp, tmp)) (j, (s, tmp)) ;;
           let re := tmp in
           Ok (j, s, re, tmp)) (fst js, snd js, re, r0) ;;
      Ok (j, s)
  | CONSTANT_EDGE =>                                         (* 290-293 *)
      forj 1 more (fun j s => acc flt inp j (N - 1) s) js
  | SMOOTH =>                                                (* 294-299 *)
      '(k, j, s) <- while fuel (fun '(k, j, s) => more j)
        (fun '(k, j, s) =>
           f <- rd flt j ;; xl <- rd inp (N - 1) ;; xp <- rd inp (N - 2) ;;
           Ok (k - 1, j + 1, s [+] f [*] (xl [+] rz k [*] (xl [-] xp))))
        (i - N + 1, fst js, snd js) ;;
      Ok (j, s)
  | PERIODIC =>                                              (* 300-306 *)
      while fuel (fun '(j, s) => more j)
        (fun js => seg 1 0 N more (fun j k s => acc flt inp (i - N - j) k s) js) js
  | ZEROPAD | PERIODIZATION => Ok (i - N + 1, snd js)        (* 307-310 *)
  end.

Definition downsampling_convolution (inp flt out : list C) (step : Z) (m : mode) : res (list C) :=
  let N := zlen inp in let F := zlen flt in
  match m with
  | PERIODIZATION => downsampling_convolution_periodization inp flt out step 1   (* 139-140 *)
  | _ =>
  (* lines 142-143 *)
  let m := match m with SMOOTH => if N <? 2 then CONSTANT_EDGE else SMOOTH | _ => m end in
  (* lines 145-222: left boundary overhang *)
  st <- while fuel (fun '(i, o, out) => (i <? F) && (i <? N))
    (fun '(i, o, out) =>
       '(j, s) <- forj 1 (fun j => j <=? i) (fun j s => acc flt inp j (i - j) s) (0, r0) ;;
       '(j, s) <- left_ext m inp flt (j, s) ;;
       out <- wr out o s ;; Ok (i + step, o + 1, out)) (step - 1, 0, out) ;;
  (* lines 224-231: centre, N >= F *)
  st <- while fuel (fun '(i, o, out) => i <? N)
    (fun '(i, o, out) =>
       '(j, s) <- forj 1 (fun j => j <? F) (fun j s => acc flt inp j (i - j) s) (0, r0) ;;
       out <- wr out o s ;; Ok (i + step, o + 1, out)) st ;;
  (* lines 233-386: centre, F > N *)
  st <- while fuel (fun '(i, o, out) => i <? F)
    (fun '(i, o, out) =>
       '(j, s) <- right_ext m inp flt i (0, r0) ;;
       '(j, s) <- forj 1 (fun j => j <=? i) (fun j s => acc flt inp j (i - j) s) (j, s) ;;
       '(j, s) <- left_ext m inp flt (j, s) ;;
       out <- wr out o s ;; Ok (i + step, o + 1, out)) st ;;
  (* lines 388-468: right boundary overhang *)
  '(_, _, out) <- while fuel (fun '(i, o, out) => i <? N + F - 1)
    (fun '(i, o, out) =>
       '(j, s) <- right_ext m inp flt i (0, r0) ;;
       '(j, s) <- forj 1 (fun j => j <? F) (fun j s => acc flt inp j (i - j) s) (j, s) ;;
       out <- wr out o s ;; Ok (i + step, o + 1, out)) st ;;
  Ok out
  end.

(** ** Upsampling kernels *)

(** [output[oi] += filter[fi] * input[ii]]. *)
Definition add_to (flt inp out : list C) (oi fi ii : Z) : res (list C) :=
  f <- rd flt fi ;; x <- rd inp ii ;; y <- rd out oi ;; wr out oi (y [+] f [*] x).

(** The pair of statements [output[o0] += filter[2*fj] * input[ii];
    output[o1] += filter[2*fj+1] * input[ii]] (e.g. lines 495-496, 570-571). *)
Definition add_pair (flt inp : list C) (o0 o1 fj ii : Z) (out : list C) : res (list C) :=
  out <- add_to flt inp out o0 (2 * fj) ii ;;
  add_to flt inp out o1 (2 * fj + 1) ii.

(** upsampling_convolution_full, lines 472-524. The parameter O is unused in C. *)
Definition upsampling_convolution_full (inp flt out : list C) : res (list C) :=
  let N := zlen inp in let F := zlen flt in
  if F <? 2 then Err (-1)                                              (* 487 *)
  else if negb (F mod 2 =? 0) then Err (-3)                            (* 489 *)
  else
  (* 492-498 *)
  st <- while fuel (fun '(i, o, out) => (i <? N) && (i <? F / 2))
    (fun '(i, o, out) =>
       '(_, out) <- forj 1 (fun j => j <=? i) (fun j out => add_pair flt inp o (o + 1) j (i - j) out) (0, out) ;;
       Ok (i + 1, o + 2, out)) (0, 0, out) ;;
  (* 500-506 *)
  st <- while fuel (fun '(i, o, out) => i <? N)
    (fun '(i, o, out) =>
       '(_, out) <- forj 1 (fun j => j <? F / 2) (fun j out => add_pair flt inp o (o + 1) j (i - j) out) (0, out) ;;
       Ok (i + 1, o + 2, out)) st ;;
  (* 508-514 *)
  st <- while fuel (fun '(i, o, out) => i <? F / 2)
    (fun '(i, o, out) =>
       '(_, out) <- forj 1 (fun j => j <=? i) (fun j out => add_pair flt inp o (o + 1) j (i - j) out) (i - (N - 1), out) ;;
       Ok (i + 1, o + 2, out)) st ;;
  (* 516-522 *)
  '(_, _, out) <- while fuel (fun '(i, o, out) => i <? N + F / 2)
    (fun '(i, o, out) =>
       '(_, out) <- forj 1 (fun j => j <? F / 2) (fun j out => add_pair flt inp o (o + 1) j (i - j) out) (i - (N - 1), out) ;;
       Ok (i + 1, o + 2, out)) st ;;
  Ok out.

(** Wrap-around loops of upsampling_convolution_valid_sf_periodization for the
    taps left of the coefficients (lines 556-562, 573-579, 603-609). *)
Definition uper_left (inp flt : list C) (o0 o1 : Z) (js : Z * list C) : res (Z * list C) :=
  let N := zlen inp in let F := zlen flt in
  while fuel (fun '(j, out) => j <? F / 2)
    (fun js => seg 1 0 N (fun j => j <? F / 2)
                 (fun j k out => add_pair flt inp o0 o1 j (N - 1 - k) out) js) js.

(** Wrap-around loops for the taps right of the coefficients (lines 592-598,
    614-620). *)
Definition uper_right (inp flt : list C) (o0 o1 i : Z) (js : Z * list C) : res (Z * list C) :=
  let N := zlen inp in
  while fuel (fun '(j, out) => N <=? i - j)
    (fun js => seg 1 0 N (fun j => N <=? i - j)
                 (fun j k out => add_pair flt inp o0 o1 (i - N - j) k out) js) js.

(** upsampling_convolution_valid_sf_periodization, lines 527-628. *)
Definition upsampling_convolution_valid_sf_periodization (inp flt out : list C) : res (list C) :=
  let N := zlen inp in let F := zlen flt in
  let start := F / 4 in
  let end_ := N + start - (if negb ((F / 2) mod 2 =? 0) then 0 else 1) in
  if negb (F mod 2 =? 0) then Err (-3)                                 (* 538 *)
  else
  (* 540-565 *)
  '(o, out) <-
    (if (F / 2) mod 2 =? 0 then
       '(j, out) <- while fuel (fun '(j, out) => j <=? start - 1)
          (fun js => seg 1 0 N (fun j => j <=? start - 1)
                       (fun j k out => add_pair flt inp (2 * N - 1) 0 (start - 1 - j) k out) js) (0, out) ;;
       '(j, out) <- forj 1 (fun j => (j <=? N + start - 1) && (j <? F / 2))
          (fun j out => add_pair flt inp (2 * N - 1) 0 j (N + start - 1 - j) out) (j, out) ;;
       '(j, out) <- uper_left inp flt (2 * N - 1) 0 (j, out) ;;
       Ok (1, out)
     else Ok (0, out)) ;;
  (* 567-580 *)
  st <- while fuel (fun '(i, o, out) => (i <? F / 2) && (i <? N))
    (fun '(i, o, out) =>
       '(j, out) <- forj 1 (fun j => j <=? i) (fun j out => add_pair flt inp o (o + 1) j (i - j) out) (0, out) ;;
       '(j, out) <- uper_left inp flt o (o + 1) (j, out) ;;
       Ok (i + 1, o + 2, out)) (start, o, out) ;;
  (* 582-588 *)
  st <- while fuel (fun '(i, o, out) => i <? N)
    (fun '(i, o, out) =>
       '(j, out) <- forj 1 (fun j => j <? F / 2) (fun j out => add_pair flt inp o (o + 1) j (i - j) out) (0, out) ;;
       Ok (i + 1, o + 2, out)) st ;;
  (* 590-610 *)
  st <- while fuel (fun '(i, o, out) => (i <? F / 2) && (i <? end_))
    (fun '(i, o, out) =>
       '(j, out) <- uper_right inp flt o (o + 1) i (0, out) ;;
       '(j, out) <- forj 1 (fun j => (j <=? i) && (j <? F / 2))
          (fun j out => add_pair flt inp o (o + 1) j (i - j) out) (j, out) ;;
       '(j, out) <- uper_left inp flt o (o + 1) (j, out) ;;
       Ok (i + 1, o + 2, out)) st ;;
  (* 612-625 *)
  '(_, _, out) <- while fuel (fun '(i, o, out) => i <? end_)
    (fun '(i, o, out) =>
       '(j, out) <- uper_right inp flt o (o + 1) i (0, out) ;;
       '(j, out) <- forj 1 (fun j => (j <=? i) && (j <? F / 2))
          (fun j out => add_pair flt inp o (o + 1) j (i - j) out) (j, out) ;;
       Ok (i + 1, o + 2, out)) st ;;
  Ok out.

(** upsampling_convolution_valid_sf, lines 639-668. *)
Definition upsampling_convolution_valid_sf (inp flt out : list C) (m : mode) : res (list C) :=
  let N := zlen inp in let F := zlen flt in
  match m with
  | PERIODIZATION => upsampling_convolution_valid_sf_periodization inp flt out
  | _ =>
    if negb (F mod 2 =? 0) || (N <? F / 2) then Err (-1)               (* 649-650 *)
    else
    '(_, _, out) <- while fuel (fun '(o, i, out) => i <? N)
      (fun '(o, i, out) =>
         '(_, (se, so)) <- forj 1 (fun j => j <? F / 2)
            (fun j '(se, so) =>
               se <- acc flt inp (j * 2) (i - j) se ;;
               so <- acc flt inp (j * 2 + 1) (i - j) so ;;
               Ok (se, so)) (0, (r0, r0)) ;;
         y0 <- rd out o ;; out <- wr out o (y0 [+] se) ;;
         y1 <- rd out (o + 1) ;; out <- wr out (o + 1) (y1 [+] so) ;;
         Ok (o + 2, i + 1, out)) (0, F / 2 - 1, out) ;;
    Ok out
  end.

End Kernels.
