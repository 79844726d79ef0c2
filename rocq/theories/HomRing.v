(** Transforms commute with maps that respect addition and multiplication. *)
From Verif Require Import Base BaseLemmas CConv Spec RawConv RawRel.

Section Hom.
Context {C D : CRing}.
Variable f : C -> D.
Hypothesis f0 : f r0 = r0.
Hypothesis fadd : forall a b, f (a [+] b) = f a [+] f b.
Hypothesis fmul : forall a b, f (a [*] b) = f a [*] f b.

Lemma sumZ_hom a b (g : Z -> C) : f (sumZ a b g) = sumZ a b (fun t => f (g t)).
Proof. unfold sumZ. induction (Z.to_nat (b - a)) as [|n IH]; cbn [sumn]; [exact f0|]. rewrite fadd, IH. reflexivity. Qed.
Lemma ext_hom m (x : list C) n : copying m = true -> abs_mode m = m -> f (ext m x n) = ext m (map f x) n.
Proof.
  intros Hm Ha. destruct m; try discriminate; cbn [ext]; unfold pext; rewrite ?zlen_map.
  all: repeat match goal with |- context [if ?b then _ else _] => destruct b end; rewrite ?(gz_map f) by exact f0; auto.
Qed.
Lemma conv_hom (h : list C) (e : Z -> C) i : f (conv h e i) = conv (map f h) (fun n => f (e n)) i.
Proof. unfold conv. rewrite sumZ_hom, zlen_map. apply sumZ_ext. intros t _. rewrite fmul, (gz_map f) by exact f0. reflexivity. Qed.
Lemma map_tab {X Y} (g : X -> Y) n h : map g (tab n h) = tab n (fun i => g (h i)).
Proof. unfold tab. rewrite map_map. reflexivity. Qed.
Lemma tab_ext {X} n (g h : Z -> X) : (forall i, 0 <= i < n -> g i = h i) -> tab n g = tab n h.
Proof. intros H. unfold tab. apply map_ext_in. intros k Hk. apply in_seq in Hk. apply H. lia. Qed.
Lemma analysis_hom m (h x : list C) : copying m = true -> abs_mode m = m -> map f (analysis m h x) = analysis m (map f h) (map f x).
Proof.
  intros Hm Ha. unfold analysis. rewrite map_tab, !zlen_map. apply tab_ext. intros i _. rewrite conv_hom. unfold conv. apply sumZ_ext.
  intros t _. rewrite ext_hom by assumption. reflexivity.
Qed.
Lemma up_conv_hom (g : list C) (c : Z -> C) n : f (up_conv g c n) = up_conv (map f g) (fun k => f (c k)) n.
Proof.
  unfold up_conv. rewrite sumZ_hom, zlen_map. apply sumZ_ext. intros t _. destruct (_ =? 0); [|exact f0]. rewrite fmul, (gz_map f) by exact f0. reflexivity.
Qed.
Lemma synthesis_hom m (g c : list C) : map f (synthesis m g c) = synthesis m (map f g) (map f c).
Proof.
  destruct m; cbn [synthesis]; rewrite map_tab, ?zlen_map; apply tab_ext; intros i _; rewrite up_conv_hom, ?zlen_map;
    unfold up_conv; apply sumZ_ext; intros t _; rewrite ?(gz_map f) by exact f0; reflexivity.
Qed.
Lemma vadd_hom (a b : list C) : map f (vadd a b) = vadd (map f a) (map f b).
Proof.
  unfold vadd. revert b. induction a as [|x a IH]; intros [|y b]; cbn; auto. rewrite fadd. f_equal. apply IH.
Qed.
End Hom.

(** The product of two rings. *)
Section Prod.
Variables C D : CRing.
Definition pradd (p q : C * D) : C * D := (fst p [+] fst q, snd p [+] snd q).
Definition prmul (p q : C * D) : C * D := (fst p [*] fst q, snd p [*] snd q).
Definition prsub (p q : C * D) : C * D := (fst p [-] fst q, snd p [-] snd q).
Definition propp (p : C * D) : C * D := ([--] fst p, [--] snd p).
Lemma prod_rth : ring_theory (r0, r0) (r1, r1) pradd prmul prsub propp (@eq (C * D)).
Proof.
  destruct (rth C) as [c1 c2 c3 c4 c5 c6 c7 c8 c9]. destruct (rth D) as [d1 d2 d3 d4 d5 d6 d7 d8 d9].
  constructor; intros; repeat match goal with p : _ * _ |- _ => destruct p end; unfold pradd, prmul, prsub, propp; cbn [fst snd]; f_equal; auto.
Qed.
Definition Prod : CRing := mkCRing (C * D) (r0, r0) (r1, r1) pradd prmul prsub propp prod_rth.
End Prod.
