(** Model of the 1-D stationary wavelet transform: swt_, swt_a, swt_d of
    pywt/_extensions/c/wt.template.c, swt of pywt/_extensions/_swt.pyx, and swt
    and iswt of pywt/_swt.py (1-D branches). *)
From Verif Require Import Base CConv Lengths Dwt.

(** An element of the list returned by swt: a pair (cA, cD), or a bare array
    when trim_approx is set. *)
Inductive swt_item (A : Type) : Type := SPair (a d : A) | SArr (d : A).
Arguments SPair {A}. Arguments SArr {A}.

(** [for x in l: s = f(s, x)] with early exit on an exception. *)
Fixpoint foldM {A S : Type} (f : S -> A -> res S) (s : S) (l : list A) : res S :=
  match l with [] => Ok s | x :: t => s' <- f s x ;; foldM f s' t end.

(** numpy.arange(a, b, step), 1 <= step. *)
Definition arange (a b step : Z) : list Z := tab ((b - a + step - 1) / step) (fun k => a + step * k).

(** l[0::2] and l[1::2]. *)
Fixpoint every_other {A} (l : list A) : list A :=
  match l with a :: _ :: t => a :: every_other t | [a] => [a] | [] => [] end.
Definition evens {A} (l : list A) : list A := every_other l.
Definition odds {A} (l : list A) : list A := every_other (tl l).

Section Swt.
Context {C : CRing}.
Variable fuel : nat.

(** wt.template.c lines 446-494 (swt_). [fstep = 1 << (level - 1)] is computed
    in int: undefined for level > 31, reported as OOB. *)
Definition c_swt (x h out : list C) (level : Z) : res (list C) :=
  if level <? 1 then Err (-1) else
  maxl <- swt_max_level_c (zlen x) ;;
  if maxl <? level then Err (-2) else
  if negb (zlen out =? swt_buffer_length (zlen x)) then Err (-1) else
  if 1 <? level then
    let e_len := zlen h * 2 ^ (level - 1) in
    e <- (if e_len <? max_alloc then Ok (repeat r0 (Z.to_nat e_len)) else Err (-3)) ;;
    if 31 <? level then OOB else
    let fstep := 2 ^ (level - 1) in
    '(_, e) <- while fuel (fun '(i, e) => i <? zlen h)
        (fun '(i, e) => v <- rd h i ;; e <- wr e (i * 2 ^ (level - 1)) v ;; Ok (i + 1, e)) (0, e) ;;
    downsampling_convolution_periodization fuel x e out 1 fstep
  else downsampling_convolution_periodization fuel x h out 1 1.

(** wt.template.c lines 500-515 (swt_a, swt_d). *)
Definition swt_a (x : list C) (w : wavelet C) (out : list C) (level : Z) := c_swt x (dec_lo w) out level.
Definition swt_d (x : list C) (w : wavelet C) (out : list C) (level : Z) := c_swt x (dec_hi w) out level.

(** _swt.pyx lines 84-152: the loop over levels; [i] is the current level,
    [n] the number of levels left, [ret] the list built so far. *)
Fixpoint swt_loop (data : list C) (w : wavelet C) (i : Z) (n : nat) (trim : bool) (ret : list (swt_item (list C)))
    : res (list (swt_item (list C)) * list C) :=
  match n with
  | O => Ok (ret, data)
  | S n' =>
      cD <- np_zeros (swt_buffer_length (zlen data)) ;;
      cD <- as_runtime (swt_d data w cD i) ;;
      cA <- np_zeros (swt_buffer_length (zlen data)) ;;
      cA <- as_runtime (swt_a data w cA i) ;;
      swt_loop cA w (i + 1) n' trim (ret ++ [if trim then SArr cD else SPair cA cD])
  end.

(** _swt.pyx lines 54-158 (swt). Negative levels, which Cython refuses to
    convert to size_t, are reported as ValueError too. *)
Definition swt_single (data : list C) (w : wavelet C) (level start_level : Z) (trim : bool)
    : res (list (swt_item (list C))) :=
  if negb (zlen data mod 2 =? 0) then Err ValueError else
  if zlen data <? 1 then Err ValueError else
  if level <? 1 then Err ValueError else
  if start_level <? 0 then Err ValueError else
  maxl <- swt_max_level_c (zlen data) ;;
  if maxl <=? start_level then Err ValueError else
  if maxl <? start_level + level then Err ValueError else
  '(ret, cA) <- swt_loop data w (start_level + 1) (Z.to_nat level) trim [] ;;
  Ok (rev (if trim then ret ++ [SArr cA] else ret)).

(** _swt.py lines 18-25 (_rescale_wavelet_filterbank). *)
Definition rescale (sf : C) (w : wavelet C) : wavelet C :=
  mkWavelet (map (fun f => f [*] sf) (dec_lo w)) (map (fun f => f [*] sf) (dec_hi w))
            (map (fun f => f [*] sf) (rec_lo w)) (map (fun f => f [*] sf) (rec_hi w)).

(** _swt.pyx lines 18-51 (swt_max_level, Python level). *)
Definition swt_max_level (n : Z) : res Z := if n <? 1 then Err ValueError else swt_max_level_c n.

(** _swt.py lines 112-153 (swt), 1-D data. [norm] carries the value of
    1/sqrt(2) when norm=True. *)
Definition swt (data : list C) (w : wavelet C) (level : option Z) (start_level : Z) (trim : bool) (norm : option C)
    : res (list (swt_item (list C))) :=
  let w := match norm with Some isq2 => rescale isq2 w | None => w end in
  level <- match level with Some l => Ok l | None => swt_max_level (zlen data) end ;;
  swt_single data w level start_level trim.

(** numpy fancy indexing a[idx] and assignment a[idx] = v (_swt.py lines
    252-267). *)
Definition np_get (a : list C) (i : Z) : res C :=
  match rd a i with OOB => Err IndexError | r => r end.
Fixpoint gather (a : list C) (idx : list Z) : res (list C) :=
  match idx with [] => Ok [] | i :: t => v <- np_get a i ;; r <- gather a t ;; Ok (v :: r) end.
Definition scatter (a : list C) (idx : list Z) (v : list C) : res (list C) :=
  if negb (zlen idx =? zlen v) then Err ValueError else
  foldM (fun a '(i, v) => match wr a i v with OOB => Err IndexError | r => r end) a (combine idx v).

(** numpy.roll(x, 1). *)
Definition roll1 (x : list C) : list C := match rev x with [] => [] | l :: r => l :: rev r end.

(** _swt.py lines 243-267: the body of the loop over [first]. [half] is the
    value of 1/2. *)
Definition iswt_first (half : C) (w : wavelet C) (cD : list C) (step : Z) (output : list C) (first : Z) : res (list C) :=
  let indices := arange first (zlen cD) step in
  let even_indices := evens indices in
  let odd_indices := odds indices in
  oe <- gather output even_indices ;;
  de <- gather cD even_indices ;;
  x1 <- idwt_single fuel oe de w PERIODIZATION ;;
  oo <- gather output odd_indices ;;
  do_ <- gather cD odd_indices ;;
  x2 <- idwt_single fuel oo do_ w PERIODIZATION ;;
  let x2 := roll1 x2 in
  if negb (zlen x1 =? zlen x2) then Err ValueError else
  scatter output indices (map (fun '(a, b) => (a [+] b) [*] half) (combine x1 x2)).

(** _swt.py lines 226-269: the loop [for j in range(num_levels, 0, -1)];
    [cs] are the details from level [length cs] down to level 1. *)
Fixpoint iswt_loop (half : C) (w : wavelet C) (output : list C) (cs : list (list C)) : res (list C) :=
  match cs with
  | [] => Ok output
  | cD :: cs' =>
      let step := 2 ^ zlen cs' in
      output <- foldM (iswt_first half w cD step) output (tab step (fun k => k)) ;;
      iswt_loop half w output cs'
  end.

Definition item_detail (trim : bool) (it : swt_item (list C)) : res (list C) :=
  match it, trim with
  | SPair _ d, false => Ok d
  | SArr d, true => Ok d
  | _, _ => Err ValueError
  end.
Fixpoint mapM {A B} (f : A -> res B) (l : list A) : res (list B) :=
  match l with [] => Ok [] | x :: t => y <- f x ;; r <- mapM f t ;; Ok (y :: r) end.

(** _swt.py lines 156-269 (iswt), 1-D data; [norm] carries sqrt(2). A list
    mixing tuples and arrays is reported as ValueError. *)
Definition iswt (half : C) (coeffs : list (swt_item (list C))) (w : wavelet C) (norm : option C) : res (list C) :=
  let w := match norm with Some sq2 => rescale sq2 w | None => w end in
  match coeffs with
  | [] => Err IndexError
  | SArr cA :: rest => ds <- mapM (item_detail true) rest ;; iswt_loop half w cA ds
  | (SPair cA _ :: _) as all => ds <- mapM (item_detail false) all ;; iswt_loop half w cA ds
  end.

End Swt.
