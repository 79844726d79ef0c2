(** Examples for polynomial signals and vanishing moments. *)
From Verif Require Import Base BaseLemmas CConv Spec Instances Lengths Dwt DwtProofs Multilevel MultilevelProofs Swt SwtProofs FilterSpec Filters FiltersFacts PRError Tables TablesProofs TablesFacts.
From Verif Require Import WavefunSpec MomentSpec PolySpec TableMoments BuiltinMoments.
Open Scope Z_scope.

(** dec_hi = [1; -2; 1; 0] has two vanishing moments. *)
Definition mbank : wavelet Zring := mkWavelet (C := Zring) [1; 2; 1; 0] [1; -2; 1; 0] [1; 2; 1; 0] [1; -2; 1; 0].
Lemma mbank_wf : wf_bank mbank.
Proof. repeat split; vm_compute; congruence. Qed.
Lemma mbank_moments : forall r, (r < 2)%nat -> moment (dec_hi mbank) r = (0 : Zring).
Proof. intros [|[|r]] H; try reflexivity. lia. Qed.
Definition xline : list Zring := [3; 5; 7; 9; 11; 13; 15; 17; 19; 21; 23; 25].
Lemma xline_poly : polynomial 2 xline.
Proof.
  exists [3; 2]. split; [reflexivity|]. intros i Hi. change (zlen xline) with 12 in Hi.
  assert (D : i = 0 \/ i = 1 \/ i = 2 \/ i = 3 \/ i = 4 \/ i = 5 \/ i = 6 \/ i = 7 \/ i = 8 \/ i = 9 \/ i = 10 \/ i = 11) by lia.
  repeat (destruct D as [-> | D]; [reflexivity|]). subst. reflexivity.
Qed.
Lemma xline_line : forall i, 0 <= i < zlen xline -> gz xline i = @radd Zring 3 (@rmul Zring (rz i) 2).
Proof.
  intros i Hi. change (zlen xline) with 12 in Hi.
  assert (D : i = 0 \/ i = 1 \/ i = 2 \/ i = 3 \/ i = 4 \/ i = 5 \/ i = 6 \/ i = 7 \/ i = 8 \/ i = 9 \/ i = 10 \/ i = 11) by lia.
  repeat (destruct D as [-> | D]; [reflexivity|]). subst. reflexivity.
Qed.
Lemma psi_ex : uint_range 4 /\ valid_order DB 4 = true /\
  exists w, discrete_wavelet 30 builtin DB 4 = Ok (Some w) /\ w_psi w = 4 /\
    let h := dec_hi (w_bank w) in (qabs (moment h 3) [<=] vanishing DB [*] moment (map qabs h) 3).
Proof.
  split; [unfold uint_range; lia|]. split; [reflexivity|].
  destruct (psi_moments 30 DB 4) as (w & E & H1 & H2 & _); [unfold uint_range; lia|lia|reflexivity|discriminate|discriminate|].
  exists w. split; [exact E|]. assert (P : w_psi w = 4) by (rewrite db_structure in E by (try apply builtin_ok; unfold uint_range; lia); injection E as <-; reflexivity).
  split; [exact P|]. apply H2. rewrite P. reflexivity.
Qed.
Lemma rbio_psi_ex : exists name n w r, valid_order name n = true /\ discrete_wavelet 30 builtin name n = Ok (Some w) /\
  Z.of_nat r < w_psi w /\
  let h := dec_hi (w_bank w) in ~ (qabs (moment h r) [<=] ratio 1 3 [*] moment (map qabs h) r).
Proof. destruct (rbio_psi 30 ltac:(lia)) as (w & r & E & _ & H1 & H2). exists RBIO, 31, w, r. split; [reflexivity|]. auto. Qed.
Lemma bior55_ex : exists name n w, valid_order name n = true /\ discrete_wavelet 30 builtin name n = Ok (Some w) /\ w_psi w = 5 /\
  let h := dec_hi (w_bank w) in forall r, (r < 6)%nat -> (qabs (moment h r) [<=] ratio 3 (10 ^ 11) [*] moment (map qabs h) r).
Proof. destruct (bior55_psi 30) as (w & E & H1 & H2). exists BIOR, 55, w. split; [reflexivity|]. auto. Qed.
