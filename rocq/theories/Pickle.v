(** Copying and pickling: the __reduce__ methods of the wavelet and packet
    classes. copy.copy, copy.deepcopy and pickle call the returned constructor
    with the returned arguments. *)
From Coq Require Import String QArith.
From Verif Require Import Base CConv Instances Lengths Dwt Filters Names Nd Axis Multidim Packets.
Open Scope string_scope. Open Scope list_scope. Open Scope Z_scope.

Section Wavelets.
Context {C : CRing}.

(** The state of a Wavelet (_pywt.pyx lines 331-426 with the C structure of
    wavelets.h lines 39-100): name, number, family and the fields of [dwave].
    [o_family] stands for family_name, short_family_name, symmetry and
    compact_support, which wavelets.c fixes for each family; None is the blank
    state of wavelets.c lines 551-560. *)
Record wobj : Type := mkWobj { o_name : string; o_number : option Z; o_family : option family; o_wave : dwave C }.

(** _pywt.pyx lines 351-367 (Wavelet(name)). *)
Definition wavelet_obj (fuel : nat) (T : tables C) (name : string) : res wobj :=
  w <- wavelet_new fuel T name ;;
  '(f, n) <- wname_to_code (lower name) ;;
  Ok (mkWobj (lower name) (Some n) (Some f) w).

(** _pywt.pyx lines 368-426 (Wavelet(name, filters)): the name is kept as it is;
    the attributes are the blank ones of wavelets.c lines 551-560. *)
Definition custom_obj (name : string) (filters : list (list C)) : res wobj :=
  b <- custom_wavelet filters ;;
  Ok (mkWobj name None None (mkDwave b false false 0 0)).

(** _pywt.pyx lines 433-434 and the call made on the other side. *)
Definition wavelet_reduce (o : wobj) : string * list (list C) := (o_name o, filter_bank (w_bank (o_wave o))).
Definition wavelet_copy (o : wobj) : res wobj := let '(name, filters) := wavelet_reduce o in custom_obj name filters.

(** _pywt.pyx lines 484-496: the setters of orthogonal and biorthogonal. *)
Definition set_orthogonal (o : wobj) (v : bool) : wobj :=
  let w := o_wave o in
  mkWobj (o_name o) (o_number o) (o_family o) (mkDwave (w_bank w) v (w_biorthogonal w) (w_psi w) (w_phi w)).
Definition set_biorthogonal (o : wobj) (v : bool) : wobj :=
  let w := o_wave o in
  mkWobj (o_name o) (o_number o) (o_family o) (mkDwave (w_bank w) (w_orthogonal w) v (w_psi w) (w_phi w)).

End Wavelets.
Arguments wobj C : clear implicits.

(** A ContinuousWavelet (_pywt.pyx lines 681-773): name, dtype and the numbers
    kept in [cwave]. The other fields of the C structure are fixed by the
    family. [co_single] is true for float32. *)
Record cobj : Type := mkCobj { co_name : string; co_single : bool; co_wave : cwave }.
Definition continuous_obj (name : string) (single : bool) : res cobj :=
  w <- continuous_new name ;; Ok (mkCobj (lower name) single w).
(** _pywt.pyx lines 780-781. *)
Definition continuous_copy (o : cobj) : res cobj := continuous_obj (co_name o) (co_single o).
(** _pywt.pyx lines 835-857: the setters of center_frequency and
    bandwidth_frequency. *)
Definition set_center (o : cobj) (v : Q) : cobj :=
  let w := co_wave o in mkCobj (co_name o) (co_single o) (mkCwave (c_family w) (c_number w) (c_band w) (Some v) (c_order w)).
Definition set_band (o : cobj) (v : Q) : cobj :=
  let w := co_wave o in mkCobj (co_name o) (co_single o) (mkCwave (c_family w) (c_number w) (Some v) (c_center w) (c_order w)).

Section Packet.
Context {C : CRing}.
Variable fuel : nat.
Variable junk : Z -> C.

(** _wavelet_packets.py lines 727-729 and 853-855: the data and the maxlevel of
    the packet [n]; wavelet and mode are passed on unchanged (the wavelet by its
    own __reduce__, which keeps the filters). *)
Definition packet_reduce (K : wpclass (nd C)) (n : nat) : M (option (nd C) * option Z) :=
  x <~ get n ;; m <~ maxlevel K n ;; ret (ndat x, m).
(** WaveletPacket(data, wavelet, mode, maxlevel) with its default axis=-1
    (line 703), WaveletPacket2D with axes=(-2, -1) (line 829). *)
Definition packet1_copy (K : wpclass (nd C)) (w : wavelet C) (h : nheap (nd C)) : res (Z * nheap (nd C)) :=
  '(d, m) <- snd (packet_reduce K 0 h) ;; packet1 fuel junk d w m (-1).
Definition packet2_copy (K : wpclass (nd C)) (w : wavelet C) (h : nheap (nd C)) : res (nheap (nd C)) :=
  '(d, m) <- snd (packet_reduce K 0 h) ;; packet2 fuel junk d w m [-2; -1].

End Packet.
