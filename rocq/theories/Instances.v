(** Concrete commutative rings used for the non-vacuity examples. *)
From Verif Require Import Base.
From Coq Require Import Qcanon.
Open Scope Z_scope.

Definition Zring : CRing.
Proof. refine (mkCRing Z 0 1 Z.add Z.mul Z.sub Z.opp _). exact InitialRing.Zth. Defined.

Definition Qcring : CRing.
Proof.
  refine (mkCRing Qc 0%Qc 1%Qc Qcplus Qcmult Qcminus Qcopp _). exact Qcrt.
Defined.

(** Complex numbers over a ring: pairs (re, im) (C99 complex types). *)
Section Cplx.
Variable C : CRing.
Add Ring Cr : (rth C).
Definition cplx : Type := (C * C)%type.
Definition cadd (a b : cplx) : cplx := (fst a [+] fst b, snd a [+] snd b).
Definition csub (a b : cplx) : cplx := (fst a [-] fst b, snd a [-] snd b).
Definition cmul (a b : cplx) : cplx :=
  (fst a [*] fst b [-] snd a [*] snd b, fst a [*] snd b [+] snd a [*] fst b).
Definition copp (a : cplx) : cplx := ([--] fst a, [--] snd a).
Lemma cplx_rth : ring_theory (r0, r0) (r1, r0) cadd cmul csub copp (@eq cplx).
Proof.
  split; intros; unfold cadd, cmul, csub, copp; cbn [fst snd];
    try destruct x as [x1 x2]; cbn [fst snd]; f_equal; ring.
Qed.
Definition Cplx : CRing := mkCRing cplx (r0, r0) (r1, r0) cadd cmul csub copp cplx_rth.
End Cplx.
