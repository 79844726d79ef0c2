(** Shared vocabulary of the model: outcomes of C code, bounds-checked
    buffers, loops on fuel, commutative rings and finite sums over Z. *)
From Coq Require Export List ZArith Lia Ring Bool.
From Coq Require Export ZifyBool ZifyNat.
Export ListNotations.
Open Scope Z_scope.

Ltac Zify.zify_post_hook ::= Z.div_mod_to_equations.

(** * Outcomes
    [OOB]: the C code would read or write outside a buffer (undefined
    behaviour); [Fuel]: the loop did not finish within the given number of
    iterations; [Err c]: an error return code / a raised exception. *)
Inductive res (A : Type) : Type :=
| Ok (a : A)
| OOB
| Fuel
| Err (c : Z).
Arguments Ok {A} a.
Arguments OOB {A}.
Arguments Fuel {A}.
Arguments Err {A} c.

Definition bind {A B} (m : res A) (k : A -> res B) : res B :=
  match m with
  | Ok a => k a
  | OOB => OOB
  | Fuel => Fuel
  | Err c => Err c
  end.

Notation "x <- m ;; k" := (bind m (fun x => k))
  (at level 61, m at next level, right associativity).
Notation "' p <- m ;; k" := (bind m (fun p => k))
  (at level 61, p pattern, m at next level, right associativity).

Definition is_ok {A} (m : res A) : Prop := exists a, m = Ok a.

(** A C [while (c) { b }] loop; [for] loops are written with it too. *)
Fixpoint while {S : Type} (fuel : nat) (c : S -> bool) (b : S -> res S) (s : S) : res S :=
  match fuel with
  | O => Fuel
  | Datatypes.S n => if c s then s' <- b s ;; while n c b s' else Ok s
  end.

(** * Buffers (C arrays) as lists, indexed by Z; a negative or too large index
    is out of bounds. *)
Definition inb {A} (l : list A) (i : Z) : bool := (0 <=? i) && (i <? Z.of_nat (length l)).

Definition rd {A} (l : list A) (i : Z) : res A :=
  if 0 <=? i then
    match nth_error l (Z.to_nat i) with
    | Some x => Ok x
    | None => OOB
    end
  else OOB.

Fixpoint upd_nat {A} (l : list A) (i : nat) (v : A) : list A :=
  match l, i with
  | [], _ => []
  | _ :: t, O => v :: t
  | h :: t, Datatypes.S i' => h :: upd_nat t i' v
  end.

Definition wr {A} (l : list A) (i : Z) (v : A) : res (list A) :=
  if inb l i then Ok (upd_nat l (Z.to_nat i) v) else OOB.

Definition zlen {A} (l : list A) : Z := Z.of_nat (length l).

(** * Commutative rings with Leibniz equality (exact arithmetic) *)
Record CRing : Type := mkCRing {
  car :> Type;
  r0 : car; r1 : car;
  radd : car -> car -> car;
  rmul : car -> car -> car;
  rsub : car -> car -> car;
  ropp : car -> car;
  rth : ring_theory r0 r1 radd rmul rsub ropp (@eq car)
}.
Arguments r0 {_}. Arguments r1 {_}.
Arguments radd {_} _ _. Arguments rmul {_} _ _. Arguments rsub {_} _ _. Arguments ropp {_} _.

Notation "x [+] y" := (radd x y) (at level 50, left associativity).
Notation "x [-] y" := (rsub x y) (at level 50, left associativity).
Notation "x [*] y" := (rmul x y) (at level 40, left associativity).
Notation "[--] x" := (ropp x) (at level 35, right associativity).

(** Integer constants of the ring (C: conversion of a [size_t] counter to the
    sample type). *)
Definition rz {C : CRing} (z : Z) : C :=
  match z with
  | Z0 => r0
  | Zpos p => Pos.iter (radd r1) r0 p
  | Zneg p => [--] (Pos.iter (radd r1) r0 p)
  end.

(** Total element access with default 0, used only in specifications. *)
Definition gz {C : CRing} (l : list C) (i : Z) : C :=
  if 0 <=? i then nth (Z.to_nat i) l r0 else r0.

(** [sumZ a b f] = sum of [f t] for [a <= t < b]. *)
Fixpoint sumn {C : CRing} (n : nat) (f : Z -> C) (a : Z) : C :=
  match n with
  | O => r0
  | S n' => sumn n' f a [+] f (a + Z.of_nat n')
  end.
Definition sumZ {C : CRing} (a b : Z) (f : Z -> C) : C := sumn (Z.to_nat (b - a)) f a.

(** Tabulation [f 0; ...; f (n-1)]. *)
Definition tab {A} (n : Z) (f : Z -> A) : list A :=
  map (fun k => f (Z.of_nat k)) (seq 0 (Z.to_nat n)).
