(** Model of the buffer-length and maximum-level functions,
    pywt/_extensions/c/common.c lines 15-97. *)
From Verif Require Import Base CConv.

(** size_t is 64 bits wide. Lengths that cannot overflow for arrays that fit
    in memory (sums and products of lengths) are over Z; the subtraction of
    idwt_buffer_length is modelled with wrap-around. *)
Definition two64 : Z := 18446744073709551616.

(** common.c lines 48-58 (dwt_buffer_length). *)
Definition dwt_buffer_length (input_len filter_len : Z) (m : mode) : Z :=
  if (input_len <? 1) || (filter_len <? 1) then 0
  else match m with
       | PERIODIZATION => input_len / 2 + (if input_len mod 2 =? 0 then 0 else 1)
       | _ => (input_len + filter_len - 1) / 2
       end.

(** common.c lines 60-65 (reconstruction_buffer_length). *)
Definition reconstruction_buffer_length (coeffs_len filter_len : Z) : Z :=
  if (coeffs_len <? 1) || (filter_len <? 1) then 0 else 2 * coeffs_len + filter_len - 2.

(** common.c lines 67-74 (idwt_buffer_length), with size_t wrap-around. *)
Definition idwt_buffer_length (coeffs_len filter_len : Z) (m : mode) : Z :=
  match m with
  | PERIODIZATION => 2 * coeffs_len
  | _ => (2 * coeffs_len - filter_len + 2) mod two64
  end.

(** common.c lines 76-78 (swt_buffer_length). *)
Definition swt_buffer_length (input_len : Z) : Z := input_len.

(** common.c lines 15-44 (size_log2): index of the highest set bit. *)
Definition size_log2 (x : Z) : Z := Z.log2 x.

(** common.c lines 80-85 (dwt_max_level). *)
Definition dwt_max_level_c (input_len filter_len : Z) : Z :=
  if (filter_len <=? 1) || (input_len <? filter_len - 1) then 0
  else size_log2 (input_len / (filter_len - 1)).

(** common.c lines 87-97 (swt_max_level). The [return j] inside the loop is
    expressed by the loop condition. The fuel covers every iteration (proved
    in LengthsProofs.v), as in the other loops. *)
Definition swt_max_level_c (input_len : Z) : res Z :=
  '(_, j) <- while (Z.to_nat (Z.log2 input_len + 3))
    (fun '(n, j) => (0 <? n) && (n mod 2 =? 0))
    (fun '(n, j) => Ok (n / 2, j + 1)) (input_len, 0) ;;
  Ok j.
