(** Specification of the names: which (family, number) pairs exist, how they are
    written, and the documented modes. *)
From Coq Require Import String Ascii.
From Verif Require Import Base CConv Filters.
Open Scope Z_scope.

Definition short (f : family) : string :=
  match f with
  | HAAR => "haar" | RBIO => "rbio" | DB => "db" | SYM => "sym" | COIF => "coif" | BIOR => "bior" | DMEY => "dmey"
  | GAUS => "gaus" | MEXH => "mexh" | MORL => "morl" | CGAU => "cgau" | SHAN => "shan" | FBSP => "fbsp" | CMOR => "cmor"
  end%string.

Definition digit (n : Z) : string := String (ascii_of_nat (Z.to_nat (48 + n))) EmptyString.
(** Decimal numeral of 0 <= n < 100. *)
Definition numeral (n : Z) : string :=
  if n <? 10 then digit n else String.append (digit (n / 10)) (digit (n mod 10)).

(** Families without a number; N.M for the biorthogonal ones; else a numeral. *)
Definition name_of (f : family) (n : Z) : string :=
  match f with
  | HAAR | DMEY | MEXH | MORL | SHAN | FBSP | CMOR => short f
  | BIOR | RBIO => String.append (short f) (String.append (digit (n / 10)) (String.append "." (digit (n mod 10))))
  | _ => String.append (short f) (numeral n)
  end.

Definition valid_name (f : family) (n : Z) : bool :=
  match f with
  | HAAR | DMEY | MEXH | MORL | SHAN | FBSP | CMOR => n =? 0
  | DB => (1 <=? n) && (n <=? 38)
  | SYM => (2 <=? n) && (n <=? 20)
  | COIF => (1 <=? n) && (n <=? 17)
  | GAUS | CGAU => (1 <=? n) && (n <=? 8)
  | BIOR | RBIO => existsb (Z.eqb n) [11; 13; 15; 22; 24; 26; 28; 31; 33; 35; 37; 39; 44; 55; 68]
  end.

(** The documented modes. *)
Definition mode_names : list (string * mode) :=
  [("zero", ZEROPAD); ("constant", CONSTANT_EDGE); ("symmetric", SYMMETRIC); ("periodic", PERIODIC); ("smooth", SMOOTH);
   ("periodization", PERIODIZATION); ("reflect", REFLECT); ("antisymmetric", ANTISYMMETRIC); ("antireflect", ANTIREFLECT)]%string.
(** Their numbers, and the six former names still accepted. *)
Definition mode_code (m : mode) : Z :=
  match m with
  | ZEROPAD => 0 | SYMMETRIC => 1 | CONSTANT_EDGE => 2 | SMOOTH => 3 | PERIODIC => 4 | PERIODIZATION => 5
  | REFLECT => 6 | ANTISYMMETRIC => 7 | ANTIREFLECT => 8
  end.
Definition former_names : list (string * mode) :=
  [("zpd", ZEROPAD); ("cpd", CONSTANT_EDGE); ("sym", SYMMETRIC); ("ppd", PERIODIC); ("sp1", SMOOTH); ("per", PERIODIZATION)]%string.

(** A dunder name or one of the two public attributes that are not modes. *)
Definition not_a_mode_name (s : string) : Prop :=
  String.prefix "__" s = true \/ s = "modes"%string \/ s = "from_object"%string.
