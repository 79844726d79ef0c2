(** Every outline drawn is a closed rectangle. *)
From Coq Require Import Ascii String QArith.
From Verif Require Import Base Dwt Multidim DocUtils DocUtilsSpec.
Open Scope list_scope. Open Scope Z_scope.

Lemma box_rectangle bl ur : rectangle (box_ bl ur).
Proof. exists (fst bl), (snd bl), (fst ur), (snd ur). reflexivity. Qed.
Lemma snoc_all (P : list Z * list Z -> Prop) l b : (forall x, In x l -> P x) -> P b -> forall x, In x (l ++ [b]) -> P x.
Proof. intros H Hb x Hx. apply in_app_or in Hx. destruct Hx as [Hx|[<-|[]]]; auto. Qed.
Lemma wp_loop_rectangles s0 s1 keys : forall n bs c bs' c', (forall b, In b bs -> rectangle b) -> wp_loop s0 s1 keys n bs c = Ok (bs', c') -> forall b, In b bs' -> rectangle b.
Proof.
  induction keys as [|k keys IH]; intros n bs c bs' c' H E; cbn [wp_loop] in E; [injection E as <- <-; exact H|].
  destruct (offsets s0 s1 k 0 (0, 0, n)) as ((ox & oy) & [m|]); [|discriminate]. eapply IH; [|exact E]. apply snoc_all; auto using box_rectangle.
Qed.
Theorem wp_rectangles shape keys bs c : wp_basis_coords shape keys = Ok (bs, c) -> forall b, In b bs -> rectangle b.
Proof. apply wp_loop_rectangles. intros b []. Qed.
Lemma fsw_loop_rectangles s0 s1 keys : forall n0 n1 acc bs' c', (forall b, In b (fst acc) -> rectangle b) -> fsw_loop s0 s1 keys n0 n1 acc = Ok (bs', c') -> forall b, In b bs' -> rectangle b.
Proof.
  induction keys as [|(k0 & k1) keys IH]; intros n0 n1 acc bs' c' H E; cbn [fsw_loop] in E; [injection E as ->; exact H|].
  destruct (offset1 s0 k0 0 0 n0) as (o0 & [m0|]); destruct (offset1 s1 k1 0 0 n1) as (o1 & [m1|]); try discriminate.
  eapply IH; [|exact E]. cbn [fst]. apply snoc_all; auto using box_rectangle.
Qed.
Theorem fsw_rectangles shape levels bs c : fswavedecn_coords shape levels = Ok (bs, c) -> forall b, In b bs -> rectangle b.
Proof. unfold fswavedecn_coords. destruct (wavedec_keys levels) as [ks| | |]; cbn [bind]; try discriminate. apply fsw_loop_rectangles. intros b []. Qed.
