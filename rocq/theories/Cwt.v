(** Model of the continuous wavelet transform (pywt/_cwt.py lines 18-195) and of
    the integration it uses (pywt/_functions.py lines 28-31, 102-107).

    Parameters: the samples psi and the grid x returned by
    ContinuousWavelet.wavefun(10) (the special functions are not modelled), the
    central frequency, np.sqrt, and for method='fft' the roots of unity.
    Simplifications: no rounding; numbers of the grid and scales are rationals
    and are embedded into the ring by [inj]; the sample type of the data is the
    ring, in which the real numbers are the fixed points of [re]; log2 is exact. *)
From Coq Require Import QArith Qround.
From Verif Require Import Base Dwt Nd Swt Multidim SwtNd.
Open Scope Z_scope.

(** What cwt needs of a wavelet object: for a ContinuousWavelet complex_cwt and
    wavefun(10); a discrete Wavelet object has no attribute complex_cwt
    (_extensions/_pywt.pyx, only lines 812-817). *)
Inductive cwav (C : CRing) := WContinuous (cplx : bool) (psi : list C) (x : list Q) | WDiscrete.
Arguments WContinuous {C}. Arguments WDiscrete {C}.
Inductive cwt_method := MConv | MFft | MOther.

Section Cwt.
Context {C : CRing}.
Variable inj : Q -> C.          (* a rational as a sample *)
Variable root : Q -> C.         (* np.sqrt *)
Variables conj re : C -> C.     (* np.conj, .real *)
Variables w v ninv : Z -> C.    (* for a length n: exp(-2 pi i / n), exp(2 pi i / n), 1 / n *)

(** _functions.py lines 28-31: np.cumsum times the step. *)
Fixpoint cumsum (acc : C) (l : list C) : list C :=
  match l with [] => [] | a :: t => (acc [+] a) :: cumsum (acc [+] a) t end.
Definition integrate (psi : list C) (step : C) : list C := map (fun a => a [*] step) (cumsum r0 psi).

(** x[1] - x[0] and x[-1] - x[0] *)
Definition grid_step (x : list Q) : Q := (nth 1 x 0 - nth 0 x 0)%Q.
Definition grid_width (x : list Q) : Q := (nth (List.length x - 1) x 0 - nth 0 x 0)%Q.

(** ndarray.astype(int): towards zero. *)
Definition trunc (q : Q) : Z := if Qle_bool 0 q then Qfloor q else Qceiling q.
(** _cwt.py lines 142-146: the indices into the integrated wavelet; [n] is
    int_psi.size. np.arange(stop) has ceil(stop) elements. *)
Definition scale_index (x : list Q) (s : Q) (n : Z) : res (list Z) :=
  let m := Qceiling (s * grid_width x + 1) in
  let j := tab m (fun i => trunc (inject_Z i / (s * grid_step x))) in
  match rev j with
  | [] => Err IndexError
  | l :: _ => Ok (if n <=? l then filter (fun i => i <? n) j else j)
  end.
(** int_psi[j], negative indices counting from the end. *)
Definition take (p : list C) (j : list Z) : res (list C) :=
  mapM (fun i => let n := zlen p in
    if (i <? - n) || (n <=? i) then Err IndexError else Ok (gz p (if i <? 0 then i + n else i))) j.
(** Line 147. *)
Definition scaled_psi (p : list C) (x : list Q) (s : Q) : res (list C) :=
  j <- scale_index x s (zlen p) ;; t <- take p j ;; Ok (rev t).

(** np.convolve, mode 'full' *)
Definition convolve (a b : list C) : res (list C) :=
  if (zlen a =? 0) || (zlen b =? 0) then Err ValueError else
  Ok (tab (zlen a + zlen b - 1) (fun k => sumZ 0 (zlen a) (fun i => gz a i [*] gz b (k - i)))).

(** np.fft.fft(a, n) and np.fft.ifft(a) of length n *)
Fixpoint pw (a : C) (n : nat) : C := match n with O => r1 | S n' => a [*] pw a n' end.
Definition fft (a : list C) (n : Z) : list C :=
  tab n (fun k => sumZ 0 n (fun j => gz a j [*] pw (w n) (Z.to_nat (j * k)))).
Definition ifft (a : list C) : list C :=
  let n := zlen a in
  tab n (fun k => sumZ 0 n (fun j => gz a j [*] pw (v n) (Z.to_nat (j * k))) [*] ninv n).
Definition mul_l (a b : list C) : list C := tab (zlen a) (fun i => gz a i [*] gz b i).
(** Lines 18-24. *)
Definition next_fast_len (n : Z) : Z := 2 ^ Z.log2_up n.

(** Lines 149-178: the convolution of all lines; [st] holds size_scale0 and
    fft_data, [N] is data.shape[-1]. *)
Definition conv_lines (meth : cwt_method) (N : Z) (lines : list (list C)) (g : list C) (st : Z * list (list C)) :
  res (list (list C) * (Z * list (list C))) :=
  match meth with
  | MFft =>
      if N + zlen g - 1 <=? 0 then Err OverflowError else
      let n := next_fast_len (N + zlen g - 1) in
      let d := if negb (n =? fst st) then map (fun l => fft l n) lines else snd st in
      let fg := fft g n in
      Ok (map (fun fd => firstn (Z.to_nat (N + zlen g - 1)) (ifft (mul_l fg fd))) d, (n, d))
  | _ => ls <- mapM (fun l => convolve l g) lines ;; Ok (ls, st)
  end.

(** np.diff *)
Definition diff (c : list C) : list C := tab (zlen c - 1) (fun i => gz c (i + 1) [-] gz c i).
(** coef[floor(d):-ceil(d)], d = e / 2, e > 0 *)
Definition centre (e : Z) (c : list C) : list C :=
  skipn (Z.to_nat (e / 2)) (firstn (Z.to_nat (zlen c - (- (- e / 2)))) c).

(** Lines 141-188 but for the reshaping; [cplx]: the output is complex. *)
Definition one_scale (meth : cwt_method) (cplx : bool) (p : list C) (x : list Q) (N : Z) (lines : list (list C)) (s : Q) (st : Z * list (list C)) :
  res (list (list C) * (Z * list (list C))) :=
  g <- scaled_psi p x s ;;
  '(conv, st') <- conv_lines meth N lines g st ;;
  let coef := map (fun c => map (fun d => let z := ([--] (root s)) [*] d in if cplx then z else re z) (diff c)) conv in
  let e := Z.max 0 (N + zlen g - 1 - 1) - N in
  if 0 <? e then Ok (map (centre e) coef, st')
  else if e <? 0 then Err ValueError
  else Ok (coef, st').
Fixpoint all_scales (meth : cwt_method) (cplx : bool) (p : list C) (x : list Q) (N : Z) (lines : list (list C)) (scales : list Q) (st : Z * list (list C)) :
  res (list (list (list C))) :=
  match scales with
  | [] => Ok []
  | s :: t =>
      '(c, st') <- one_scale meth cplx p x N lines s st ;;
      r <- all_scales meth cplx p x N lines t st' ;;
      Ok (c :: r)
  end.

(** ndarray.swapaxes, on the mathematical array. *)
Definition swapl (a b : nat) (l : list Z) : list Z := setn a (nthz b l) (setn b (nthz a l) l).
Definition swapaxes (a b : nat) (y : nd C) : nd C := ndtab (swapl a b (nshape y)) (fun idx => ndget y (swapl a b idx)).
(** The lines of y.reshape((-1, N)). *)
Definition rows (N : Z) (y : nd C) : list (list C) := tab (prodZ (nshape y) / N) (fun r => tab N (fun i => gz (ndata y) (r * N + i))).

(** Lines 103-195. [dcplx]: the data is complex; [fc]: central_frequency.
    Result: the array of the coefficients, and the frequencies. *)
Definition cwt (dcplx : bool) (data : nd C) (scales : list Q) (wav : cwav C) (fc period : Q) (meth : cwt_method) (axis : Z) : res (nd C * list Q) :=
  if existsb (fun s => Qle_bool s 0) scales then Err ValueError else
  match wav with
  | WDiscrete => Err AttributeError
  | WContinuous wc psi x =>
      if zlen x <? 2 then Err IndexError else
      let p0 := integrate psi (inj (grid_step x)) in
      let p := if wc then map conj p0 else p0 in
      match meth with
      | MOther => Err ValueError
      | _ =>
          let nd' := zlen (nshape data) in
          let freqs := map (fun s => (fc / s / period)%Q) scales in
          let last := (List.length (nshape data) - 1)%nat in
          if 1 <? nd' then
            if (axis <? - nd') || (nd' <=? axis) then Err AxisError else
            let k := Z.to_nat (if axis <? 0 then axis + nd' else axis) in
            let y := swapaxes last k data in
            let N := nthz last (nshape y) in
            if N =? 0 then Err ValueError else
            r <- all_scales meth (wc || dcplx) p x N (rows N y) scales (-1, []) ;;
            Ok (mkNd (zlen scales :: nshape data) (List.concat (map (fun c => ndata (swapaxes k last (mkNd (nshape y) (List.concat c)))) r)), freqs)
          else if nd' =? 0 then
            match scales with [] => Ok (mkNd [0] [], freqs) | _ => Err IndexError end
          else
            r <- all_scales meth (wc || dcplx) p x (nthz 0 (nshape data)) [ndata data] scales (-1, []) ;;
            Ok (mkNd (zlen scales :: nshape data) (List.concat (map (@List.concat C) r)), freqs)
      end
  end.
End Cwt.
