(** Model of mode and wavelet name lookup: pywt/_extensions/_pywt.pyx
    (_Modes.from_object, wname_to_code, wavelist, the constructors of Wavelet and
    ContinuousWavelet for built-in names) and wavelets_list.pxi.

    Simplification: strings are ASCII; Python's str.lower, \d, \D are their
    restrictions to ASCII. Warnings are not modelled. *)
From Coq Require Import String Ascii QArith.
From Verif Require Import Base CConv Lengths Dwt Swt Filters.
Open Scope Z_scope.

(** * Modes *)

(** pywt/_extensions/c/common.h lines 67-96 (enum MODE). *)
Definition MODE_INVALID : Z := -1.
Definition MODE_MAX : Z := 9.

(** The argument of from_object: an int (bool included, by its value), a string,
    or any other object. The result of an attribute lookup that is not a mode is
    [AOther]. *)
Inductive mode_arg : Type := MInt (z : Z) | MStr (s : string) | MOther.
Inductive attr : Type := AMode (z : Z) | AOther.

(** _pywt.pyx lines 100-108: the class attributes, with the values of the enum. *)
Definition mode_attrs : list (string * Z) :=
  [("zero", 0); ("constant", 2); ("symmetric", 1); ("reflect", 6); ("periodic", 4);
   ("smooth", 3); ("periodization", 5); ("antisymmetric", 7); ("antireflect", 8)]%string.
(** lines 111-112 (modes) and 25-31 (_old_modes). *)
Definition modes : list string :=
  ["zero"; "constant"; "symmetric"; "periodic"; "smooth"; "periodization"; "reflect"; "antisymmetric"; "antireflect"]%string.
Definition old_modes : list string := ["zpd"; "cpd"; "sym"; "ppd"; "sp1"; "per"]%string.
(** The remaining attributes of an instance of _Modes: the list [modes], the two
    methods, and the attributes inherited from [object]. *)
Definition other_attrs : list string :=
  ["modes"; "from_object"; "__getattr__"; "__class__"; "__delattr__"; "__dict__"; "__dir__"; "__doc__"; "__eq__";
   "__format__"; "__ge__"; "__getattribute__"; "__gt__"; "__hash__"; "__init__"; "__init_subclass__"; "__le__";
   "__lt__"; "__module__"; "__ne__"; "__new__"; "__reduce__"; "__reduce_ex__"; "__repr__"; "__setattr__";
   "__sizeof__"; "__str__"; "__subclasshook__"; "__weakref__"]%string.

Fixpoint assoc {A} (s : string) (l : list (string * A)) : option A :=
  match l with [] => None | (k, v) :: t => if String.eqb s k then Some v else assoc s t end.
Definition mem (s : string) (l : list string) : bool := existsb (String.eqb s) l.
Fixpoint index_of (s : string) (l : list string) : nat :=
  match l with [] => 0%nat | k :: t => if String.eqb s k then 0%nat else S (index_of s t) end.

(** object.__getattribute__ on the instance Modes. *)
Definition getattribute (s : string) : option attr :=
  match assoc s mode_attrs with
  | Some z => Some (AMode z)
  | None => if mem s other_attrs then Some AOther else None
  end.
(** _pywt.pyx lines 129-136 (__getattr__), called when the lookup fails. *)
Definition getattr_fallback (s : string) : option attr :=
  let s := if mem s old_modes then nth (index_of s old_modes) modes EmptyString else s in
  getattribute s.
(** getattr(Modes, s). *)
Definition getattr_modes (s : string) : option attr :=
  match getattribute s with Some a => Some a | None => getattr_fallback s end.
(** _pywt.pyx lines 114-127 (from_object). getattr with a name that is not a
    string raises TypeError. *)
Definition from_object (mode : mode_arg) : res attr :=
  match mode with
  | MInt z => if (z <=? MODE_INVALID) || (MODE_MAX <=? z) then Err ValueError else Ok (AMode z)
  | MStr s => match getattr_modes s with Some a => Ok a | None => Err ValueError end
  | MOther => Err TypeError
  end.

(** * Names *)

(** wavelets_list.pxi lines 25-170 (__wname_to_code), in source order. *)
Definition registry : list (string * (family * Z)) :=
  [("haar", (HAAR, 0)); ("db1", (DB, 1)); ("db2", (DB, 2)); ("db3", (DB, 3)); ("db4", (DB, 4));
   ("db5", (DB, 5)); ("db6", (DB, 6)); ("db7", (DB, 7)); ("db8", (DB, 8)); ("db9", (DB, 9));
   ("db10", (DB, 10)); ("db11", (DB, 11)); ("db12", (DB, 12)); ("db13", (DB, 13)); ("db14", (DB, 14));
   ("db15", (DB, 15)); ("db16", (DB, 16)); ("db17", (DB, 17)); ("db18", (DB, 18)); ("db19", (DB, 19));
   ("db20", (DB, 20)); ("db21", (DB, 21)); ("db22", (DB, 22)); ("db23", (DB, 23)); ("db24", (DB, 24));
   ("db25", (DB, 25)); ("db26", (DB, 26)); ("db27", (DB, 27)); ("db28", (DB, 28)); ("db29", (DB, 29));
   ("db30", (DB, 30)); ("db31", (DB, 31)); ("db32", (DB, 32)); ("db33", (DB, 33)); ("db34", (DB, 34));
   ("db35", (DB, 35)); ("db36", (DB, 36)); ("db37", (DB, 37)); ("db38", (DB, 38)); ("sym2", (SYM, 2));
   ("sym3", (SYM, 3)); ("sym4", (SYM, 4)); ("sym5", (SYM, 5)); ("sym6", (SYM, 6)); ("sym7", (SYM, 7));
   ("sym8", (SYM, 8)); ("sym9", (SYM, 9)); ("sym10", (SYM, 10)); ("sym11", (SYM, 11)); ("sym12", (SYM, 12));
   ("sym13", (SYM, 13)); ("sym14", (SYM, 14)); ("sym15", (SYM, 15)); ("sym16", (SYM, 16)); ("sym17", (SYM, 17));
   ("sym18", (SYM, 18)); ("sym19", (SYM, 19)); ("sym20", (SYM, 20)); ("coif1", (COIF, 1)); ("coif2", (COIF, 2));
   ("coif3", (COIF, 3)); ("coif4", (COIF, 4)); ("coif5", (COIF, 5)); ("coif6", (COIF, 6)); ("coif7", (COIF, 7));
   ("coif8", (COIF, 8)); ("coif9", (COIF, 9)); ("coif10", (COIF, 10)); ("coif11", (COIF, 11)); ("coif12", (COIF, 12));
   ("coif13", (COIF, 13)); ("coif14", (COIF, 14)); ("coif15", (COIF, 15)); ("coif16", (COIF, 16)); ("coif17", (COIF, 17));
   ("bior1.1", (BIOR, 11)); ("bior1.3", (BIOR, 13)); ("bior1.5", (BIOR, 15)); ("bior2.2", (BIOR, 22)); ("bior2.4", (BIOR, 24));
   ("bior2.6", (BIOR, 26)); ("bior2.8", (BIOR, 28)); ("bior3.1", (BIOR, 31)); ("bior3.3", (BIOR, 33)); ("bior3.5", (BIOR, 35));
   ("bior3.7", (BIOR, 37)); ("bior3.9", (BIOR, 39)); ("bior4.4", (BIOR, 44)); ("bior5.5", (BIOR, 55)); ("bior6.8", (BIOR, 68));
   ("rbio1.1", (RBIO, 11)); ("rbio1.3", (RBIO, 13)); ("rbio1.5", (RBIO, 15)); ("rbio2.2", (RBIO, 22)); ("rbio2.4", (RBIO, 24));
   ("rbio2.6", (RBIO, 26)); ("rbio2.8", (RBIO, 28)); ("rbio3.1", (RBIO, 31)); ("rbio3.3", (RBIO, 33)); ("rbio3.5", (RBIO, 35));
   ("rbio3.7", (RBIO, 37)); ("rbio3.9", (RBIO, 39)); ("rbio4.4", (RBIO, 44)); ("rbio5.5", (RBIO, 55)); ("rbio6.8", (RBIO, 68));
   ("dmey", (DMEY, 0)); ("gaus1", (GAUS, 1)); ("gaus2", (GAUS, 2)); ("gaus3", (GAUS, 3)); ("gaus4", (GAUS, 4));
   ("gaus5", (GAUS, 5)); ("gaus6", (GAUS, 6)); ("gaus7", (GAUS, 7)); ("gaus8", (GAUS, 8)); ("mexh", (MEXH, 0));
   ("morl", (MORL, 0)); ("cgau1", (CGAU, 1)); ("cgau2", (CGAU, 2)); ("cgau3", (CGAU, 3)); ("cgau4", (CGAU, 4));
   ("cgau5", (CGAU, 5)); ("cgau6", (CGAU, 6)); ("cgau7", (CGAU, 7)); ("cgau8", (CGAU, 8)); ("shan", (SHAN, 0));
   ("fbsp", (FBSP, 0)); ("cmor", (CMOR, 0))]%string.

(** wavelets_list.pxi lines 175-177. *)
Definition family_list_short : list string :=
  ["haar"; "db"; "sym"; "coif"; "bior"; "rbio"; "dmey"; "gaus"; "mexh"; "morl"; "cgau"; "shan"; "fbsp"; "cmor"]%string.

Definition pre (n : nat) (s : string) : string := String.substring 0 n s. (* s[:n] *)

Definition special : list string := ["cmor"; "shan"; "fbsp"]%string.

(** _pywt.pyx lines 172-181 (wname_to_code). *)
Definition wname_to_code (name : string) : res (family * Z) :=
  let name := if (4 <? Z.of_nat (String.length name)) && mem (pre 4 name) special then pre 4 name else name in
  match assoc name registry with Some c => Ok c | None => Err ValueError end.

(** str.lower *)
Definition lower_char (c : ascii) : ascii :=
  let n := nat_of_ascii c in if ((65 <=? n) && (n <=? 90))%nat then ascii_of_nat (n + 32) else c.
Fixpoint lower (s : string) : string :=
  match s with EmptyString => EmptyString | String c t => String (lower_char c) (lower t) end.

(** Comparison of strings by code point, and of the sort keys
    (name[:2], len(name), name). *)
Fixpoint str_lt (s t : string) : bool :=
  match s, t with
  | _, EmptyString => false
  | EmptyString, String _ _ => true
  | String a s', String b t' =>
      if (nat_of_ascii a <? nat_of_ascii b)%nat then true
      else if (nat_of_ascii b <? nat_of_ascii a)%nat then false else str_lt s' t'
  end.
Definition key_lt (s t : string) : bool :=
  if str_lt (pre 2 s) (pre 2 t) then true
  else if str_lt (pre 2 t) (pre 2 s) then false
  else if (String.length s <? String.length t)%nat then true
  else if (String.length t <? String.length s)%nat then false
  else str_lt s t.
(** list.sort on these keys. *)
Fixpoint insert (s : string) (l : list string) : list string :=
  match l with [] => [s] | t :: r => if key_lt t s then t :: insert s r else s :: l end.
Definition sort (l : list string) : list string := fold_right insert [] l.

(** _pywt.pyx lines 215-253 (wavelist); the string arguments are given as
    option and as the constructors of [kind]. *)
Inductive kind : Type := KAll | KContinuous | KDiscrete.
Definition check_kind (name : string) (k : kind) : res bool :=
  match k with
  | KAll => Ok true
  | KDiscrete => c <- wname_to_code name ;; Ok (is_discrete_wavelet (fst c))
  | KContinuous => c <- wname_to_code name ;; Ok (negb (is_discrete_wavelet (fst c)))
  end.
Fixpoint filterM {A} (f : A -> res bool) (l : list A) : res (list A) :=
  match l with
  | [] => Ok []
  | x :: t => b <- f x ;; r <- filterM f t ;; Ok (if b : bool then x :: r else r)
  end.
Definition wavelist (fam : option string) (k : kind) : res (list string) :=
  match fam with
  | None => l <- filterM (fun n => check_kind n k) (map fst registry) ;; Ok (sort l)
  | Some f => if mem f family_list_short
              then Ok (sort (filter (String.prefix f) (map fst registry)))
              else Err ValueError
  end.

(** _pywt.pyx lines 331-373 (Wavelet(name)) for built-in wavelets. *)
Definition wavelet_new {C : CRing} (fuel : nat) (T : tables C) (name : string) : res (dwave C) :=
  match name with
  | EmptyString => Err TypeError
  | _ =>
      let name := lower name in
      '(f, n) <- wname_to_code name ;;
      w <- (if is_discrete_wavelet f then discrete_wavelet fuel T f n else Ok None) ;;
      match w with Some w => Ok w | None => Err ValueError end
  end.

(** wavelets.c lines 355-503 (continuous_wavelet): accepted or NULL. [order] is
    an unsigned int. *)
Definition continuous_wavelet (f : family) (order : Z) : bool :=
  match f with
  | GAUS | CGAU => negb (8 <? order)
  | MEXH | MORL | SHAN | FBSP | CMOR => true
  | _ => false
  end.

(** re.findall(cwt_pattern, name) with the pattern \D+ (\d+ \.* \d* )+ (without the spaces), _pywt.pyx lines 37-39. The quantifiers
    are greedy and no backtracking succeeds: skip non-digits (at least one, at
    the start of the name and after a match the next character is one), then
    take digits, dots, digits. A second round of the group would need a digit
    where the first has just taken all of them. A token is (digits, number of
    dots, digits). *)
Definition is_digit (c : ascii) : bool := let n := nat_of_ascii c in ((48 <=? n) && (n <=? 57))%nat.
Definition is_dot (c : ascii) : bool := Ascii.eqb c "."%char.
Fixpoint span (p : ascii -> bool) (s : string) : string * string :=
  match s with
  | EmptyString => (EmptyString, EmptyString)
  | String c t => if p c then let '(a, b) := span p t in (String c a, b) else (EmptyString, s)
  end.
Definition token : Type := string * nat * string.
Fixpoint findall (fuel : nat) (s : string) : list token :=
  match fuel with
  | O => []
  | S fuel =>
      match span (fun c => negb (is_digit c)) s with
      | (EmptyString, _) => []
      | (_, r) =>
          match span is_digit r with
          | (EmptyString, _) => []
          | (d1, r) =>
              let '(dots, r) := span is_dot r in
              let '(d2, r) := span is_digit r in
              (d1, String.length dots, d2) :: findall fuel r
          end
      end
  end.

(** float(token): at most one dot. *)
Definition digit_val (c : ascii) : Z := Z.of_nat (nat_of_ascii c) - 48.
Fixpoint digits_val (acc : Z) (s : string) : Z :=
  match s with EmptyString => acc | String c t => digits_val (acc * 10 + digit_val c) t end.
Definition to_float (t : token) : res Q :=
  let '(d1, k, d2) := t in
  if (1 <? k)%nat then Err ValueError
  else Ok (Qmake (digits_val (digits_val 0 d1) d2) (Z.to_pos (10 ^ Z.of_nat (String.length d2)))).

(** The attributes set from a name: bandwidth and centre frequency, order. *)
Record cwave : Type := mkCwave { c_family : family; c_number : Z; c_band : option Q; c_center : option Q; c_order : option Z }.

(** _pywt.pyx lines 681-773 (ContinuousWavelet(name)), dtype float32 or float64. *)
Definition continuous_new (name : string) : res cwave :=
  let name := lower name in
  let base := if (4 <=? Z.of_nat (String.length name)) && mem (pre 4 name) special then pre 4 name else name in
  '(f, n) <- wname_to_code base ;;
  if negb (continuous_wavelet f n) then Err ValueError
  else if String.eqb base name then Ok (mkCwave f n None None None)
  else
    let freqs := findall (S (String.length name)) name in
    if mem base ["shan"; "cmor"]%string then
      match freqs with
      | [b; c] => b <- to_float b ;; c <- to_float c ;; Ok (mkCwave f n (Some b) (Some c) None)
      | _ => Err ValueError
      end
    else
      match freqs with
      | [m; b; c] =>
          m <- to_float m ;; b <- to_float b ;; c <- to_float c ;;
          if negb (Qle_bool 1 m) || negb (Qnum m mod Zpos (Qden m) =? 0) then Err ValueError
          else Ok (mkCwave f n (Some b) (Some c) (Some (Qnum m / Zpos (Qden m))))
      | _ => Err ValueError
      end.
