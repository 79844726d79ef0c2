(** The kernels of CConv.v once more, over arithmetic without laws: addition,
    subtraction and multiplication are arbitrary functions, so that rounded
    arithmetic can be put in. The text is that of CConv.v; the lemmas at the end
    show that over a ring both agree by computation. *)
From Verif Require Import Base CConv Lengths Dwt.

(** Arithmetic: a type with operations, no laws. [oz k] is the conversion of a
    counter to the sample type. *)
Record Ops : Type := mkOps {
  ocar :> Type; o0 : ocar; oadd : ocar -> ocar -> ocar; omul : ocar -> ocar -> ocar; osub : ocar -> ocar -> ocar; oz : Z -> ocar }.
Arguments o0 {_}. Arguments oadd {_} _ _. Arguments omul {_} _ _. Arguments osub {_} _ _. Arguments oz {_} _.
Definition ops_of (C : CRing) : Ops := mkOps C r0 radd rmul rsub rz.

Section Kernels.
Context {O : Ops}.
Variable fuel : nat.
Local Notation "x [+] y" := (oadd x y) (at level 50, left associativity).
Local Notation "x [-] y" := (osub x y) (at level 50, left associativity).
Local Notation "x [*] y" := (omul x y) (at level 40, left associativity).

(** [sum += filter[fi] * input[ii]] (convolution.template.c, passim). *)
Definition o_acc (flt inp : list O) (fi ii : Z) (s : O) : res O :=
  f <- rd flt fi ;; x <- rd inp ii ;; Ok (s [+] f [*] x).

(** [sum -= filter[fi] * input[ii]] (lines 167, 257, 331, 407). *)
Definition o_acc_neg (flt inp : list O) (fi ii : Z) (s : O) : res O :=
  f <- rd flt fi ;; x <- rd inp ii ;; Ok (s [-] f [*] x).

(** ** downsampling_convolution_periodization, lines 44-124 *)

(** lines 60-66 and 96-102: the filter sticks out on the left. *)
Definition o_per_left (inp flt : list O) (padding fstep k_start : Z) (js : Z * O) : res (Z * O) :=
  let N := zlen inp in let F := zlen flt in
  while fuel (fun '(j, s) => j <? F)
    (fun js =>
       js <- seg fuel fstep k_start padding (fun j => j <? F)
               (fun j k s => o_acc flt inp j (N - 1) s) js ;;
       seg fuel fstep k_start N (fun j => j <? F)
         (fun j k s => o_acc flt inp j (N - 1 - k) s) js) js.

(** lines 82-89 and 109-116: the filter sticks out on the right. *)
Definition o_per_right (inp flt : list O) (padding i : Z) (js : Z * O) : res (Z * O) :=
  let N := zlen inp in
  while fuel (fun '(j, s) => N <=? i - j)
    (fun js =>
       js <- seg fuel 1 0 padding (fun j => N <=? i - j)
               (fun j k s => o_acc flt inp (i - N - j) (N - 1) s) js ;;
       seg fuel 1 0 N (fun j => N <=? i - j)
         (fun j k s => o_acc flt inp (i - N - j) k s) js) js.

Definition o_downsampling_convolution_periodization
    (inp flt out : list O) (step fstep : Z) : res (list O) :=
  let N := zlen inp in let F := zlen flt in
  let padding := (step - N mod step) mod step in                       (* line 50 *)
  (* lines 52-68 *)
  st <- while fuel (fun '(i, o, out) => (i <? F) && (i <? N))
    (fun '(i, o, out) =>
       '(j, s) <- forj fuel fstep (fun j => j <=? i) (fun j s => o_acc flt inp j (i - j) s) (0, o0) ;;
       let k_start := if 1 <? fstep then j - (i + 1) else 0 in
       '(j, s) <- o_per_left inp flt padding fstep k_start (j, s) ;;
       out <- wr out o s ;; Ok (i + step, o + 1, out)) (F / 2, 0, out) ;;
  (* lines 70-76 *)
  st <- while fuel (fun '(i, o, out) => i <? N)
    (fun '(i, o, out) =>
       '(j, s) <- forj fuel fstep (fun j => j <? F) (fun j s => o_acc flt inp j (i - j) s) (0, o0) ;;
       out <- wr out o s ;; Ok (i + step, o + 1, out)) st ;;
  (* lines 78-104 *)
  st <- while fuel (fun '(i, o, out) => (i <? F) && (i <? N + F / 2))
    (fun '(i, o, out) =>
       '(j, s) <- o_per_right inp flt padding i (0, o0) ;;
       let j := if 1 <? fstep then j + (fstep - j mod fstep) mod fstep else j in
       '(j, s) <- forj fuel fstep (fun j => j <=? i) (fun j s => o_acc flt inp j (i - j) s) (j, s) ;;
       let k_start := if 1 <? fstep then j - (i + 1) else 0 in
       '(j, s) <- o_per_left inp flt padding fstep k_start (j, s) ;;
       out <- wr out o s ;; Ok (i + step, o + 1, out)) st ;;
  (* lines 106-122 *)
  '(_, _, out) <- while fuel (fun '(i, o, out) => i <? N + F / 2)
    (fun '(i, o, out) =>
       '(j, s) <- o_per_right inp flt padding i (0, o0) ;;
       let j := if 1 <? fstep then j + (fstep - j mod fstep) mod fstep else j in
       '(j, s) <- forj fuel fstep (fun j => j <? F) (fun j s => o_acc flt inp j (i - j) s) (j, s) ;;
       out <- wr out o s ;; Ok (i + step, o + 1, out)) st ;;
  Ok out.

(** ** downsampling_convolution, lines 127-470 *)

(** The switch over the mode for filter taps left of the data: lines 152-220,
    repeated verbatim at lines 316-384. *)
Definition o_left_ext (m : mode) (inp flt : list O) (js : Z * O) : res (Z * O) :=
  let N := zlen inp in let F := zlen flt in
  let more := fun j => j <? F in
  match m with
  | SYMMETRIC =>                                             (* 153-161 *)
      while fuel (fun '(j, s) => more j)
        (fun js =>
           js <- seg fuel 1 0 N more (fun j k s => o_acc flt inp j k s) js ;;
           seg fuel 1 0 N more (fun j k s => o_acc flt inp j (N - 1 - k) s) js) js
  | ANTISYMMETRIC =>                                         (* 162-171 *)
      while fuel (fun '(j, s) => more j)
        (fun js =>
           js <- seg fuel 1 0 N more (fun j k s => o_acc_neg flt inp j k s) js ;;
           seg fuel 1 0 N more (fun j k s => o_acc flt inp j (N - 1 - k) s) js) js
  | REFLECT =>                                               (* 172-180 *)
      while fuel (fun '(j, s) => more j)
        (fun js =>
           js <- seg fuel 1 1 N more (fun j k s => o_acc flt inp j k s) js ;;
           seg fuel 1 1 N more (fun j k s => o_acc flt inp j (N - 1 - k) s) js) js
  | ANTIREFLECT =>                                           (* 181-199 *)
      le <- rd inp 0 ;;
      '(j, s, le, tmp) <- while fuel (fun '(j, s, le, tmp) => more j)
        (fun '(j, s, le, tmp) =>
           '(j, (s, tmp)) <- seg fuel 1 1 N more
              (fun j k '(s, tmp) =>
                 xk <- rd inp k ;; x0 <- rd inp 0 ;;
                 let tmp := le [-] (xk [-] x0) in
                 f <- rd flt j ;; Ok (s [+] f [*] tmp, tmp)) (j, (s, tmp)) ;;
           let le := tmp in
           '(j, (s, tmp)) <- seg fuel 1 1 N more
              (fun j k '(s, tmp) =>
                 xk <- rd inp (N - 1 - k) ;; xl <- rd inp (N - 1) ;;
                 let tmp := le [+] (xk [-] xl) in
                 f <- rd flt j ;; Ok (s [+] f [*] tmp, tmp)) (j, (s, tmp)) ;;
           let le := tmp in
           Ok (j, s, le, tmp)) (fst js, snd js, le, o0) ;;
      Ok (j, s)
  | CONSTANT_EDGE =>                                         (* 200-203 *)
      forj fuel 1 more (fun j s => o_acc flt inp j 0 s) js
  | SMOOTH =>                                                (* 204-209 *)
      '(k, j, s) <- while fuel (fun '(k, j, s) => more j)
        (fun '(k, j, s) =>
           f <- rd flt j ;; x0 <- rd inp 0 ;; x1 <- rd inp 1 ;;
           Ok (k + 1, j + 1, s [+] f [*] (x0 [+] oz k [*] (x0 [-] x1))))
        (1, fst js, snd js) ;;
      Ok (j, s)
  | PERIODIC =>                                              (* 210-216 *)
      while fuel (fun '(j, s) => more j)
        (fun js => seg fuel 1 0 N more (fun j k s => o_acc flt inp j (N - 1 - k) s) js) js
  | ZEROPAD | PERIODIZATION => Ok js                         (* 217-219 *)
  end.

(** The switch over the mode for filter taps right of the data: lines 238-311,
    repeated verbatim at lines 392-464. Starts with j = 0, sum = 0. *)
Definition o_right_ext (m : mode) (inp flt : list O) (i : Z) (js : Z * O) : res (Z * O) :=
  let N := zlen inp in
  let more := fun j => N <=? i - j in
  match m with
  | SYMMETRIC =>                                             (* 239-251 *)
      while fuel (fun '(j, s) => more j)
        (fun js =>
           js <- seg fuel 1 0 N more (fun j k s => o_acc flt inp (i - N - j) (N - 1 - k) s) js ;;
           seg fuel 1 0 N more (fun j k s => o_acc flt inp (i - N - j) k s) js) js
  | ANTISYMMETRIC =>                                         (* 252-261 *)
      while fuel (fun '(j, s) => more j)
        (fun js =>
           js <- seg fuel 1 0 N more (fun j k s => o_acc_neg flt inp (i - N - j) (N - 1 - k) s) js ;;
           seg fuel 1 0 N more (fun j k s => o_acc flt inp (i - N - j) k s) js) js
  | REFLECT =>                                               (* 262-270 *)
      while fuel (fun '(j, s) => more j)
        (fun js =>
           js <- seg fuel 1 1 N more (fun j k s => o_acc flt inp (i - N - j) (N - 1 - k) s) js ;;
           seg fuel 1 1 N more (fun j k s => o_acc flt inp (i - N - j) k s) js) js
  | ANTIREFLECT =>                                           (* 271-289 *)
      re <- rd inp (N - 1) ;;
      '(j, s, re, tmp) <- while fuel (fun '(j, s, re, tmp) => more j)
        (fun '(j, s, re, tmp) =>
           '(j, (s, tmp)) <- seg fuel 1 1 N more
              (fun j k '(s, tmp) =>
                 xk <- rd inp (N - 1 - k) ;; xl <- rd inp (N - 1) ;;
                 let tmp := re [-] (xk [-] xl) in
                 f <- rd flt (i - N - j) ;; Ok (s [+] f [*] tmp, tmp)) (j, (s, tmp)) ;;
           let re := tmp in
           '(j, (s, tmp)) <- seg fuel 1 1 N more
              (fun j k '(s, tmp) =>
                 xk <- rd inp k ;; x0 <- rd inp 0 ;;
                 let tmp := re [+] (xk [-] x0) in
                 f <- rd flt (i - N - j) ;; Ok (s [+] f [*] tmp, tmp)) (j, (s, tmp)) ;;
           let re := tmp in
           Ok (j, s, re, tmp)) (fst js, snd js, re, o0) ;;
      Ok (j, s)
  | CONSTANT_EDGE =>                                         (* 290-293 *)
      forj fuel 1 more (fun j s => o_acc flt inp j (N - 1) s) js
  | SMOOTH =>                                                (* 294-299 *)
      '(k, j, s) <- while fuel (fun '(k, j, s) => more j)
        (fun '(k, j, s) =>
           f <- rd flt j ;; xl <- rd inp (N - 1) ;; xp <- rd inp (N - 2) ;;
           Ok (k - 1, j + 1, s [+] f [*] (xl [+] oz k [*] (xl [-] xp))))
        (i - N + 1, fst js, snd js) ;;
      Ok (j, s)
  | PERIODIC =>                                              (* 300-306 *)
      while fuel (fun '(j, s) => more j)
        (fun js => seg fuel 1 0 N more (fun j k s => o_acc flt inp (i - N - j) k s) js) js
  | ZEROPAD | PERIODIZATION => Ok (i - N + 1, snd js)        (* 307-310 *)
  end.

Definition o_downsampling_convolution (inp flt out : list O) (step : Z) (m : mode) : res (list O) :=
  let N := zlen inp in let F := zlen flt in
  match m with
  | PERIODIZATION => o_downsampling_convolution_periodization inp flt out step 1   (* 139-140 *)
  | _ =>
  (* lines 142-143 *)
  let m := match m with SMOOTH => if N <? 2 then CONSTANT_EDGE else SMOOTH | _ => m end in
  (* lines 145-222: left boundary overhang *)
  st <- while fuel (fun '(i, o, out) => (i <? F) && (i <? N))
    (fun '(i, o, out) =>
       '(j, s) <- forj fuel 1 (fun j => j <=? i) (fun j s => o_acc flt inp j (i - j) s) (0, o0) ;;
       '(j, s) <- o_left_ext m inp flt (j, s) ;;
       out <- wr out o s ;; Ok (i + step, o + 1, out)) (step - 1, 0, out) ;;
  (* lines 224-231: centre, N >= F *)
  st <- while fuel (fun '(i, o, out) => i <? N)
    (fun '(i, o, out) =>
       '(j, s) <- forj fuel 1 (fun j => j <? F) (fun j s => o_acc flt inp j (i - j) s) (0, o0) ;;
       out <- wr out o s ;; Ok (i + step, o + 1, out)) st ;;
  (* lines 233-386: centre, F > N *)
  st <- while fuel (fun '(i, o, out) => i <? F)
    (fun '(i, o, out) =>
       '(j, s) <- o_right_ext m inp flt i (0, o0) ;;
       '(j, s) <- forj fuel 1 (fun j => j <=? i) (fun j s => o_acc flt inp j (i - j) s) (j, s) ;;
       '(j, s) <- o_left_ext m inp flt (j, s) ;;
       out <- wr out o s ;; Ok (i + step, o + 1, out)) st ;;
  (* lines 388-468: right boundary overhang *)
  '(_, _, out) <- while fuel (fun '(i, o, out) => i <? N + F - 1)
    (fun '(i, o, out) =>
       '(j, s) <- o_right_ext m inp flt i (0, o0) ;;
       '(j, s) <- forj fuel 1 (fun j => j <? F) (fun j s => o_acc flt inp j (i - j) s) (j, s) ;;
       out <- wr out o s ;; Ok (i + step, o + 1, out)) st ;;
  Ok out
  end.

(** ** Upsampling kernels *)

(** [output[oi] += filter[fi] * input[ii]]. *)
Definition o_add_to (flt inp out : list O) (oi fi ii : Z) : res (list O) :=
  f <- rd flt fi ;; x <- rd inp ii ;; y <- rd out oi ;; wr out oi (y [+] f [*] x).

(** The pair of statements [output[o0] += filter[2*fj] * input[ii];
    output[o1] += filter[2*fj+1] * input[ii]] (e.g. lines 495-496, 570-571). *)
Definition o_add_pair (flt inp : list O) (o0 o1 fj ii : Z) (out : list O) : res (list O) :=
  out <- o_add_to flt inp out o0 (2 * fj) ii ;;
  o_add_to flt inp out o1 (2 * fj + 1) ii.

(** upsampling_convolution_full, lines 472-524. The parameter O is unused in C. *)
Definition o_upsampling_convolution_full (inp flt out : list O) : res (list O) :=
  let N := zlen inp in let F := zlen flt in
  if F <? 2 then Err (-1)                                              (* 487 *)
  else if negb (F mod 2 =? 0) then Err (-3)                            (* 489 *)
  else
  (* 492-498 *)
  st <- while fuel (fun '(i, o, out) => (i <? N) && (i <? F / 2))
    (fun '(i, o, out) =>
       '(_, out) <- forj fuel 1 (fun j => j <=? i) (fun j out => o_add_pair flt inp o (o + 1) j (i - j) out) (0, out) ;;
       Ok (i + 1, o + 2, out)) (0, 0, out) ;;
  (* 500-506 *)
  st <- while fuel (fun '(i, o, out) => i <? N)
    (fun '(i, o, out) =>
       '(_, out) <- forj fuel 1 (fun j => j <? F / 2) (fun j out => o_add_pair flt inp o (o + 1) j (i - j) out) (0, out) ;;
       Ok (i + 1, o + 2, out)) st ;;
  (* 508-514 *)
  st <- while fuel (fun '(i, o, out) => i <? F / 2)
    (fun '(i, o, out) =>
       '(_, out) <- forj fuel 1 (fun j => j <=? i) (fun j out => o_add_pair flt inp o (o + 1) j (i - j) out) (i - (N - 1), out) ;;
       Ok (i + 1, o + 2, out)) st ;;
  (* 516-522 *)
  '(_, _, out) <- while fuel (fun '(i, o, out) => i <? N + F / 2)
    (fun '(i, o, out) =>
       '(_, out) <- forj fuel 1 (fun j => j <? F / 2) (fun j out => o_add_pair flt inp o (o + 1) j (i - j) out) (i - (N - 1), out) ;;
       Ok (i + 1, o + 2, out)) st ;;
  Ok out.

(** Wrap-around loops of upsampling_convolution_valid_sf_periodization for the
    taps left of the coefficients (lines 556-562, 573-579, 603-609). *)
Definition o_uper_left (inp flt : list O) (o0 o1 : Z) (js : Z * list O) : res (Z * list O) :=
  let N := zlen inp in let F := zlen flt in
  while fuel (fun '(j, out) => j <? F / 2)
    (fun js => seg fuel 1 0 N (fun j => j <? F / 2)
                 (fun j k out => o_add_pair flt inp o0 o1 j (N - 1 - k) out) js) js.

(** Wrap-around loops for the taps right of the coefficients (lines 592-598,
    614-620). *)
Definition o_uper_right (inp flt : list O) (o0 o1 i : Z) (js : Z * list O) : res (Z * list O) :=
  let N := zlen inp in
  while fuel (fun '(j, out) => N <=? i - j)
    (fun js => seg fuel 1 0 N (fun j => N <=? i - j)
                 (fun j k out => o_add_pair flt inp o0 o1 (i - N - j) k out) js) js.

(** upsampling_convolution_valid_sf_periodization, lines 527-628. *)
Definition o_upsampling_convolution_valid_sf_periodization (inp flt out : list O) : res (list O) :=
  let N := zlen inp in let F := zlen flt in
  let start := F / 4 in
  let end_ := N + start - (if negb ((F / 2) mod 2 =? 0) then 0 else 1) in
  if negb (F mod 2 =? 0) then Err (-3)                                 (* 538 *)
  else
  (* 540-565 *)
  '(o, out) <-
    (if (F / 2) mod 2 =? 0 then
       '(j, out) <- while fuel (fun '(j, out) => j <=? start - 1)
          (fun js => seg fuel 1 0 N (fun j => j <=? start - 1)
                       (fun j k out => o_add_pair flt inp (2 * N - 1) 0 (start - 1 - j) k out) js) (0, out) ;;
       '(j, out) <- forj fuel 1 (fun j => (j <=? N + start - 1) && (j <? F / 2))
          (fun j out => o_add_pair flt inp (2 * N - 1) 0 j (N + start - 1 - j) out) (j, out) ;;
       '(j, out) <- o_uper_left inp flt (2 * N - 1) 0 (j, out) ;;
       Ok (1, out)
     else Ok (0, out)) ;;
  (* 567-580 *)
  st <- while fuel (fun '(i, o, out) => (i <? F / 2) && (i <? N))
    (fun '(i, o, out) =>
       '(j, out) <- forj fuel 1 (fun j => j <=? i) (fun j out => o_add_pair flt inp o (o + 1) j (i - j) out) (0, out) ;;
       '(j, out) <- o_uper_left inp flt o (o + 1) (j, out) ;;
       Ok (i + 1, o + 2, out)) (start, o, out) ;;
  (* 582-588 *)
  st <- while fuel (fun '(i, o, out) => i <? N)
    (fun '(i, o, out) =>
       '(j, out) <- forj fuel 1 (fun j => j <? F / 2) (fun j out => o_add_pair flt inp o (o + 1) j (i - j) out) (0, out) ;;
       Ok (i + 1, o + 2, out)) st ;;
  (* 590-610 *)
  st <- while fuel (fun '(i, o, out) => (i <? F / 2) && (i <? end_))
    (fun '(i, o, out) =>
       '(j, out) <- o_uper_right inp flt o (o + 1) i (0, out) ;;
       '(j, out) <- forj fuel 1 (fun j => (j <=? i) && (j <? F / 2))
          (fun j out => o_add_pair flt inp o (o + 1) j (i - j) out) (j, out) ;;
       '(j, out) <- o_uper_left inp flt o (o + 1) (j, out) ;;
       Ok (i + 1, o + 2, out)) st ;;
  (* 612-625 *)
  '(_, _, out) <- while fuel (fun '(i, o, out) => i <? end_)
    (fun '(i, o, out) =>
       '(j, out) <- o_uper_right inp flt o (o + 1) i (0, out) ;;
       '(j, out) <- forj fuel 1 (fun j => (j <=? i) && (j <? F / 2))
          (fun j out => o_add_pair flt inp o (o + 1) j (i - j) out) (j, out) ;;
       Ok (i + 1, o + 2, out)) st ;;
  Ok out.

(** upsampling_convolution_valid_sf, lines 639-668. *)
Definition o_upsampling_convolution_valid_sf (inp flt out : list O) (m : mode) : res (list O) :=
  let N := zlen inp in let F := zlen flt in
  match m with
  | PERIODIZATION => o_upsampling_convolution_valid_sf_periodization inp flt out
  | _ =>
    if negb (F mod 2 =? 0) || (N <? F / 2) then Err (-1)               (* 649-650 *)
    else
    '(_, _, out) <- while fuel (fun '(o, i, out) => i <? N)
      (fun '(o, i, out) =>
         '(_, (se, so)) <- forj fuel 1 (fun j => j <? F / 2)
            (fun j '(se, so) =>
               se <- o_acc flt inp (j * 2) (i - j) se ;;
               so <- o_acc flt inp (j * 2 + 1) (i - j) so ;;
               Ok (se, so)) (0, (o0, o0)) ;;
         y0 <- rd out o ;; out <- wr out o (y0 [+] se) ;;
         y1 <- rd out (o + 1) ;; out <- wr out (o + 1) (y1 [+] so) ;;
         Ok (o + 2, i + 1, out)) (0, F / 2 - 1, out) ;;
    Ok out
  end.

End Kernels.

(** Over a ring these are the kernels of CConv.v. *)
Lemma o_down_ring (C : CRing) fuel (inp flt out : list C) step m :
  o_downsampling_convolution (O := ops_of C) fuel inp flt out step m = downsampling_convolution fuel inp flt out step m.
Proof. reflexivity. Qed.
Lemma o_down_per_ring (C : CRing) fuel (inp flt out : list C) step fstep :
  o_downsampling_convolution_periodization (O := ops_of C) fuel inp flt out step fstep = downsampling_convolution_periodization fuel inp flt out step fstep.
Proof. reflexivity. Qed.
Lemma o_full_ring (C : CRing) fuel (inp flt out : list C) :
  o_upsampling_convolution_full (O := ops_of C) fuel inp flt out = upsampling_convolution_full fuel inp flt out.
Proof. reflexivity. Qed.
Lemma o_valid_ring (C : CRing) fuel (inp flt out : list C) m :
  o_upsampling_convolution_valid_sf (O := ops_of C) fuel inp flt out m = upsampling_convolution_valid_sf fuel inp flt out m.
Proof. reflexivity. Qed.

(** The transforms of Dwt.v and Multilevel.v over such arithmetic. *)
Record owavelet (O : Ops) : Type := mkOwavelet { odec_lo : list O; odec_hi : list O; orec_lo : list O; orec_hi : list O }.
Arguments mkOwavelet {O}. Arguments odec_lo {O}. Arguments odec_hi {O}. Arguments orec_lo {O}. Arguments orec_hi {O}.

Section Dwt.
Context {O : Ops}.
Variable fuel : nat.
Implicit Types w : owavelet O.

Definition odec_len w : Z := zlen (odec_lo w).
Definition orec_flen w : Z := zlen (orec_lo w).

(** np.zeros, as in Dwt.v. *)
Definition o_np_zeros (n : Z) : res (list O) :=
  if n <? max_alloc then Ok (repeat o0 (Z.to_nat n)) else Err MemoryError.

(** wt.template.c lines 318-332 (dec_a). *)
Definition o_dec_a (x : list O) w (out : list O) (m : mode) : res (list O) :=
  if zlen out =? dwt_buffer_length (zlen x) (odec_len w) m
  then o_downsampling_convolution fuel x (odec_lo w) out 2 m
  else Err (-1).
(** wt.template.c lines 337-350 (dec_d). *)
Definition o_dec_d (x : list O) w (out : list O) (m : mode) : res (list O) :=
  if zlen out =? dwt_buffer_length (zlen x) (odec_len w) m
  then o_downsampling_convolution fuel x (odec_hi w) out 2 m
  else Err (-1).

(** wt.template.c lines 393-445 (idwt), both coefficient arrays given. *)
Definition o_idwt (a d : list O) (out : list O) w (m : mode) : res (list O) :=
  if negb (zlen a =? zlen d) then Err (-1) else
  if negb (zlen out =? idwt_buffer_length (zlen a) (orec_flen w) m) then Err (-1) else
  out <- o_upsampling_convolution_valid_sf fuel a (orec_lo w) out m ;;
  o_upsampling_convolution_valid_sf fuel d (orec_hi w) out m.

(** _dwt.pyx lines 26-82 (dwt_single). *)
Definition o_dwt_single (x : list O) w (m : mode) : res (list O * list O) :=
  output_len <- dwt_coeff_len (zlen x) (odec_len w) m ;;
  if output_len <? 1 then Err RuntimeError else
  if (zlen x =? 1) && (match m with REFLECT | ANTIREFLECT => true | _ => false end)
  then Err ValueError else
  cA <- o_np_zeros output_len ;;
  cD <- o_np_zeros output_len ;;
  cA <- as_runtime (o_dec_a x w cA m) ;;
  cD <- as_runtime (o_dec_d x w cD m) ;;
  Ok (cA, cD).

(** _dwt.pyx lines 182-243 (idwt_single). *)
Definition o_idwt_single (cA cD : list O) w (m : mode) : res (list O) :=
  if negb (zlen cA =? zlen cD) then Err ValueError else
  let rec_len := idwt_buffer_length (zlen cA) (orec_flen w) m in
  if rec_len <? 1 then Err ValueError else
  out <- o_np_zeros rec_len ;;
  as_runtime (o_idwt cA cD out w m).

(** _multilevel.py lines 100-107. *)
Fixpoint o_wavedec_loop (a : list O) w (m : mode) (n : nat) (acc : list (list O)) : res (list (list O)) :=
  match n with
  | Datatypes.O => Ok (rev (acc ++ [a]))
  | S n' => ad <- o_dwt_single a w m ;; o_wavedec_loop (fst ad) w m n' (acc ++ [snd ad])
  end.

(** _multilevel.py lines 158-174, all coefficient arrays given. *)
Definition o_waverec_step (a d : list O) w (m : mode) : res (list O) :=
  a <- (if zlen a =? zlen d + 1 then Ok (firstn (length d) a)
        else if negb (zlen a =? zlen d) then Err ValueError else Ok a) ;;
  o_idwt_single a d w m.
Fixpoint o_waverec_loop (a : list O) (ds : list (list O)) w (m : mode) : res (list O) :=
  match ds with
  | [] => Ok a
  | d :: ds' => y <- o_waverec_step a d w m ;; o_waverec_loop y ds' w m
  end.
End Dwt.

Definition raw_wavelet {C : CRing} (w : wavelet C) : owavelet (ops_of C) :=
  mkOwavelet (O := ops_of C) (dec_lo w) (dec_hi w) (rec_lo w) (rec_hi w).
Lemma o_dwt_ring (C : CRing) fuel (x : list C) w m :
  o_dwt_single (O := ops_of C) fuel x (raw_wavelet w) m = dwt_single fuel x w m.
Proof. reflexivity. Qed.
Lemma o_idwt_ring (C : CRing) fuel (cA cD : list C) w m :
  o_idwt_single (O := ops_of C) fuel cA cD (raw_wavelet w) m = idwt_single fuel cA cD w m.
Proof.
  unfold o_idwt_single, idwt_single, o_idwt, c_idwt, orec_flen, rec_flen. cbn [raw_wavelet orec_lo orec_hi].
  change (ocar (ops_of C)) with (car C). destruct (zlen cA =? zlen cD) eqn:E; cbn [negb bind]; reflexivity.
Qed.

(** Modes whose extension copies samples, up to the sign (all but smooth and
    antireflect, which compute new values); the mode that extends the absolute
    values of the samples. *)
Definition copying (m : mode) : bool := match m with SMOOTH | ANTIREFLECT => false | _ => true end.
Definition abs_mode (m : mode) : mode := match m with ANTISYMMETRIC => SYMMETRIC | _ => m end.
