(** Related arithmetic gives related results: a run of the kernels over [A] and
    a run over [B] take the same branches and end with related buffers. *)
From Verif Require Import Base BaseLemmas CConv Lengths Dwt RawConv.

(** Outcomes of the same kind with related values. *)
Definition rr {X Y} (R : X -> Y -> Prop) (m : res X) (m' : res Y) : Prop :=
  match m, m' with
  | Ok a, Ok b => R a b
  | OOB, OOB => True | Fuel, Fuel => True
  | Err c, Err c' => c = c'
  | _, _ => False
  end.
Definition both {X Y X' Y'} (R : X -> Y -> Prop) (S : X' -> Y' -> Prop) (p : X * X') (q : Y * Y') : Prop :=
  R (fst p) (fst q) /\ S (snd p) (snd q).

Lemma rr_bind {X Y X' Y'} (R : X -> Y -> Prop) (S : X' -> Y' -> Prop) m m' k k' :
  rr R m m' -> (forall a b, R a b -> rr S (k a) (k' b)) -> rr S (bind m k) (bind m' k').
Proof. destruct m, m'; cbn; try tauto; intros H K; try exact H. apply K, H. Qed.
Lemma rr_while {X Y} (R : X -> Y -> Prop) c c' b b' fuel : (forall s s', R s s' -> c s = c' s') ->
  (forall s s', R s s' -> rr R (b s) (b' s')) -> forall s s', R s s' -> rr R (while fuel c b s) (while fuel c' b' s').
Proof.
  intros Hc Hb. induction fuel as [|n IH]; intros s s' H; cbn [while]; [exact I|].
  rewrite (Hc s s' H). destruct (c' s'); [|exact H]. eapply rr_bind; [apply Hb, H|]. exact IH.
Qed.

Lemma F2_zlen {X Y} (R : X -> Y -> Prop) l l' : Forall2 R l l' -> zlen l = zlen l'.
Proof. intros H. unfold zlen. induction H; cbn [length]; lia. Qed.
Lemma rr_rd {X Y} (R : X -> Y -> Prop) l l' i : Forall2 R l l' -> rr R (rd l i) (rd l' i).
Proof.
  intros H. unfold rd. destruct (0 <=? i); [|exact I]. generalize (Z.to_nat i). clear i.
  induction H as [|a b l l' Hab H IH]; intros [|n]; cbn; auto.
Qed.
Lemma rr_wr {X Y} (R : X -> Y -> Prop) l l' i v v' : Forall2 R l l' -> R v v' -> rr (Forall2 R) (wr l i v) (wr l' i v').
Proof.
  intros H Hv. unfold wr, inb. pose proof (F2_zlen R l l' H) as E. unfold zlen in E. rewrite E.
  destruct (_ && _); [|exact I]. cbn [rr]. generalize (Z.to_nat i). clear i E.
  induction H as [|a b l l' Hab H IH]; intros [|n]; cbn [upd_nat]; constructor; auto.
Qed.
Lemma rr_weak {X Y} (R S : X -> Y -> Prop) m m' : (forall a b, R a b -> S a b) -> rr R m m' -> rr S m m'.
Proof. intros H. destruct m, m'; cbn; auto. Qed.

Lemma rr_seg {X Y} (R : X -> Y -> Prop) fuel d k0 kmax more u u' js js' :
  (forall j k s s', R s s' -> rr R (u j k s) (u' j k s')) -> both eq R js js' ->
  rr (both eq R) (seg fuel d k0 kmax more u js) (seg fuel d k0 kmax more u' js').
Proof.
  intros Hu [Hj Hs]. unfold seg. eapply (rr_bind (both (both eq eq) R)).
  - apply rr_while.
    + intros [[k j] s] [[k' j'] s'] [[Hk Hj'] _]. cbn in Hk, Hj'. subst. reflexivity.
    + intros [[k j] s] [[k' j'] s'] [[Hk Hj'] H]. cbn in Hk, Hj', H. subst.
      eapply rr_bind; [apply Hu, H|]. intros a b Hab. split; [split; reflexivity|exact Hab].
    + split; [split; [reflexivity|exact Hj]|exact Hs].
  - intros [[k j] s] [[k' j'] s'] [[Hk Hj'] H]. split; [exact Hj'|exact H].
Qed.
Lemma rr_forj {X Y} (R : X -> Y -> Prop) fuel d more u u' js js' :
  (forall j s s', R s s' -> rr R (u j s) (u' j s')) -> both eq R js js' ->
  rr (both eq R) (forj fuel d more u js) (forj fuel d more u' js').
Proof.
  intros Hu H. unfold forj. apply rr_while; [| |exact H].
  - intros [j s] [j' s'] [Hj _]. cbn in Hj. subst. reflexivity.
  - intros [j s] [j' s'] [Hj Hs]. cbn in Hj, Hs. subst. eapply rr_bind; [apply Hu, Hs|]. intros a b Hab. split; [reflexivity|exact Hab].
Qed.

(** The body of downsampling_convolution in the other modes. *)
Definition o_body {O : Ops} (fuel : nat) (inp flt out : list O) (step : Z) (m : mode) : res (list O) :=
  let N := zlen inp in let F := zlen flt in
  st <- while fuel (fun '(i, o, out) => (i <? F) && (i <? N))
    (fun '(i, o, out) =>
       '(j, s) <- forj fuel 1 (fun j => j <=? i) (fun j s => o_acc flt inp j (i - j) s) (0, o0) ;;
       '(j, s) <- o_left_ext fuel m inp flt (j, s) ;;
       out <- wr out o s ;; Ok (i + step, o + 1, out)) (step - 1, 0, out) ;;
  st <- while fuel (fun '(i, o, out) => i <? N)
    (fun '(i, o, out) =>
       '(j, s) <- forj fuel 1 (fun j => j <? F) (fun j s => o_acc flt inp j (i - j) s) (0, o0) ;;
       out <- wr out o s ;; Ok (i + step, o + 1, out)) st ;;
  st <- while fuel (fun '(i, o, out) => i <? F)
    (fun '(i, o, out) =>
       '(j, s) <- o_right_ext fuel m inp flt i (0, o0) ;;
       '(j, s) <- forj fuel 1 (fun j => j <=? i) (fun j s => o_acc flt inp j (i - j) s) (j, s) ;;
       '(j, s) <- o_left_ext fuel m inp flt (j, s) ;;
       out <- wr out o s ;; Ok (i + step, o + 1, out)) st ;;
  '(_, _, out) <- while fuel (fun '(i, o, out) => i <? N + F - 1)
    (fun '(i, o, out) =>
       '(j, s) <- o_right_ext fuel m inp flt i (0, o0) ;;
       '(j, s) <- forj fuel 1 (fun j => j <? F) (fun j s => o_acc flt inp j (i - j) s) (j, s) ;;
       out <- wr out o s ;; Ok (i + step, o + 1, out)) st ;;
  Ok out.

Section Rel.
Context {A B : Ops}.
Variable fuel : nat.
Variables Rf Rx Rs : A -> B -> Prop.
Variable flip : bool.
Hypothesis H0 : Rs o0 o0.
Hypothesis Hmac : forall s s' f f' x x', Rs s s' -> Rf f f' -> Rx x x' -> Rs (oadd s (omul f x)) (oadd s' (omul f' x')).
Hypothesis Hneg : forall s s' f f' x x', Rs s s' -> Rf f f' -> Rx x x' ->
  Rs (osub s (omul f x)) (if flip then oadd s' (omul f' x') else osub s' (omul f' x')).
Hypothesis Hadd : forall s s' t t', Rs s s' -> Rs t t' -> Rs (oadd s t) (oadd s' t').

Section Down.
Variables (inp : list A) (inp' : list B) (flt : list A) (flt' : list B).
Hypothesis Hi : Forall2 Rx inp inp'.
Hypothesis Hf : Forall2 Rf flt flt'.

Lemma rr_acc fi ii s s' : Rs s s' -> rr Rs (o_acc flt inp fi ii s) (o_acc flt' inp' fi ii s').
Proof.
  intros H. unfold o_acc. eapply rr_bind; [apply rr_rd, Hf|]. intros f f' Ef. eapply rr_bind; [apply rr_rd, Hi|]. intros x x' Ex.
  cbn [rr]. apply Hmac; assumption.
Qed.
Lemma rr_acc_neg fi ii s s' : Rs s s' -> rr Rs (o_acc_neg flt inp fi ii s) (if flip then o_acc flt' inp' fi ii s' else o_acc_neg flt' inp' fi ii s').
Proof.
  intros H. pose proof (Hneg s s') as N. unfold o_acc_neg, o_acc. destruct flip.
  all: eapply rr_bind; [apply rr_rd, Hf|]; intros f f' Ef; eapply rr_bind; [apply rr_rd, Hi|]; intros x x' Ex; cbn [rr]; apply N; assumption.
Qed.

Let Ni : zlen inp = zlen inp'. Proof. exact (F2_zlen _ _ _ Hi). Qed.
Let Nf : zlen flt = zlen flt'. Proof. exact (F2_zlen _ _ _ Hf). Qed.

Ltac js := let j := fresh "j" in let s := fresh "s" in let j' := fresh "j'" in let s' := fresh "s'" in
  intros [j s] [j' s'] [? ?]; cbn [fst snd] in *; subst.
Ltac st := match goal with
  | |- rr _ (o_acc _ _ _ _ _) _ => apply rr_acc; assumption
  | |- rr _ (o_acc_neg _ _ _ _ _) _ => apply rr_acc_neg; assumption
  end.

Lemma rr_per_left padding fstep ks js js' : both eq Rs js js' ->
  rr (both eq Rs) (o_per_left fuel inp flt padding fstep ks js) (o_per_left fuel inp' flt' padding fstep ks js').
Proof.
  intros H. unfold o_per_left. rewrite Ni, Nf. apply rr_while; [js; reflexivity| |exact H].
  intros p p' Hp. eapply rr_bind; [apply rr_seg; [intros; st|exact Hp]|]. intros q q' Hq. apply rr_seg; [intros; st|exact Hq].
Qed.
Lemma rr_per_right padding i js js' : both eq Rs js js' ->
  rr (both eq Rs) (o_per_right fuel inp flt padding i js) (o_per_right fuel inp' flt' padding i js').
Proof.
  intros H. unfold o_per_right. rewrite Ni. apply rr_while; [js; reflexivity| |exact H].
  intros p p' Hp. eapply rr_bind; [apply rr_seg; [intros; st|exact Hp]|]. intros q q' Hq. apply rr_seg; [intros; st|exact Hq].
Qed.

Let St : Z * Z * list A -> Z * Z * list B -> Prop := both (both eq eq) (Forall2 Rs).
Ltac io := let i := fresh "i" in let o := fresh "o" in let u := fresh "u" in let i' := fresh "i'" in let o' := fresh "o'" in let u' := fresh "u'" in
  intros [[i o] u] [[i' o'] u'] [[? ?] ?]; cbn [fst snd] in *; subst.
Ltac fin := eapply rr_bind; [apply rr_wr; eassumption|]; intros; split; [split; reflexivity|assumption].

Lemma rr_periodization out out' step fstep : Forall2 Rs out out' ->
  rr (Forall2 Rs) (o_downsampling_convolution_periodization fuel inp flt out step fstep)
                  (o_downsampling_convolution_periodization fuel inp' flt' out' step fstep).
Proof.
  intros Ho. unfold o_downsampling_convolution_periodization. rewrite Ni, Nf.
  eapply (rr_bind St). { apply rr_while; [io; reflexivity| |split; [split; reflexivity|exact Ho]].
    io. eapply rr_bind; [apply rr_forj; [intros; st|split; [reflexivity|exact H0]]|]. js.
    eapply rr_bind; [apply rr_per_left; split; [reflexivity|assumption]|]. js. fin. }
  intros s1 s1' Hs1. eapply (rr_bind St). { apply rr_while; [io; reflexivity| |exact Hs1].
    io. eapply rr_bind; [apply rr_forj; [intros; st|split; [reflexivity|exact H0]]|]. js. fin. }
  intros s2 s2' Hs2. eapply (rr_bind St). { apply rr_while; [io; reflexivity| |exact Hs2].
    io. eapply rr_bind; [apply rr_per_right; split; [reflexivity|exact H0]|]. js.
    eapply rr_bind; [apply rr_forj; [intros; st|split; [reflexivity|assumption]]|]. js.
    eapply rr_bind; [apply rr_per_left; split; [reflexivity|assumption]|]. js. fin. }
  intros s3 s3' Hs3. eapply (rr_bind St). { apply rr_while; [io; reflexivity| |exact Hs3].
    io. eapply rr_bind; [apply rr_per_right; split; [reflexivity|exact H0]|]. js.
    eapply rr_bind; [apply rr_forj; [intros; st|split; [reflexivity|assumption]]|]. js. fin. }
  io. assumption.
Qed.

Let mb (m : mode) : mode := if flip then abs_mode m else m.

Lemma rr_left m js js' : copying m = true -> both eq Rs js js' ->
  rr (both eq Rs) (o_left_ext fuel m inp flt js) (o_left_ext fuel (mb m) inp' flt' js').
Proof.
  intros Hm H. pose proof rr_acc_neg as RN. unfold mb.
  destruct m; try discriminate Hm; destruct flip; cbn [abs_mode]; unfold o_left_ext; rewrite ?Ni, ?Nf.
  all: try (apply rr_forj; [intros; st|exact H]).
  all: try (apply rr_while; [js; reflexivity| |exact H]; intros p p' Hp).
  all: try exact H.
  all: try (eapply rr_bind; [apply rr_seg; [intros; first [st|apply RN; assumption]|exact Hp]|]; intros q q' Hq).
  all: apply rr_seg; [intros; st|eassumption].
Qed.
Lemma rr_right m i js js' : copying m = true -> both eq Rs js js' ->
  rr (both eq Rs) (o_right_ext fuel m inp flt i js) (o_right_ext fuel (mb m) inp' flt' i js').
Proof.
  intros Hm H. pose proof rr_acc_neg as RN. unfold mb.
  destruct m; try discriminate Hm; destruct flip; cbn [abs_mode]; unfold o_right_ext; rewrite ?Ni.
  all: try (apply rr_forj; [intros; st|exact H]).
  all: try (apply rr_while; [js; reflexivity| |exact H]; intros p p' Hp).
  all: try (split; [reflexivity|apply H]).
  all: try (eapply rr_bind; [apply rr_seg; [intros; first [st|apply RN; assumption]|exact Hp]|]; intros q q' Hq).
  all: apply rr_seg; [intros; st|eassumption].
Qed.

Theorem rr_down out out' step m : copying m = true -> Forall2 Rs out out' ->
  rr (Forall2 Rs) (o_downsampling_convolution fuel inp flt out step m) (o_downsampling_convolution fuel inp' flt' out' step (mb m)).
Proof.
  intros Hm Ho. assert (Hd : m = PERIODIZATION \/ m <> PERIODIZATION) by (destruct m; auto; right; discriminate).
  destruct Hd as [->|Hp].
  { replace (mb PERIODIZATION) with PERIODIZATION by (unfold mb; destruct flip; reflexivity). apply rr_periodization; exact Ho. }
  pose proof (fun js js' => rr_left m js js' Hm) as HL. pose proof (fun i js js' => rr_right m i js js' Hm) as HR.
  assert (G : rr (Forall2 Rs) (o_body (O := A) fuel inp flt out step m) (o_body (O := B) fuel inp' flt' out' step (mb m))).
  { unfold o_body. rewrite Ni, Nf.
    eapply (rr_bind St). { apply rr_while; [io; reflexivity| |split; [split; reflexivity|exact Ho]].
      io. eapply rr_bind; [apply rr_forj; [intros; st|split; [reflexivity|exact H0]]|]. js.
      eapply rr_bind; [apply HL; split; [reflexivity|assumption]|]. js. fin. }
    intros s1 s1' Hs1. eapply (rr_bind St). { apply rr_while; [io; reflexivity| |exact Hs1].
      io. eapply rr_bind; [apply rr_forj; [intros; st|split; [reflexivity|exact H0]]|]. js. fin. }
    intros s2 s2' Hs2. eapply (rr_bind St). { apply rr_while; [io; reflexivity| |exact Hs2].
      io. eapply rr_bind; [apply HR; split; [reflexivity|exact H0]|]. js.
      eapply rr_bind; [apply rr_forj; [intros; st|split; [reflexivity|assumption]]|]. js.
      eapply rr_bind; [apply HL; split; [reflexivity|assumption]|]. js. fin. }
    intros s3 s3' Hs3. eapply (rr_bind St). { apply rr_while; [io; reflexivity| |exact Hs3].
      io. eapply rr_bind; [apply HR; split; [reflexivity|exact H0]|]. js.
      eapply rr_bind; [apply rr_forj; [intros; st|split; [reflexivity|assumption]]|]. js. fin. }
    io. assumption. }
  revert G. unfold mb. destruct m; try discriminate Hm; try congruence; destruct flip; exact (fun G => G).
Qed.
End Down.

Section Up.
Variables (inp : list A) (inp' : list B) (flt : list A) (flt' : list B).
Hypothesis Hi : Forall2 Rx inp inp'.
Hypothesis Hf : Forall2 Rf flt flt'.
Let Ni : zlen inp = zlen inp'. Proof. exact (F2_zlen _ _ _ Hi). Qed.
Let Nf : zlen flt = zlen flt'. Proof. exact (F2_zlen _ _ _ Hf). Qed.
Let Bu : list A -> list B -> Prop := Forall2 Rs.

Lemma rr_add_to out out' oi fi ii : Bu out out' -> rr Bu (o_add_to flt inp out oi fi ii) (o_add_to flt' inp' out' oi fi ii).
Proof.
  intros H. unfold o_add_to. eapply rr_bind; [apply rr_rd, Hf|]. intros f f' Ef. eapply rr_bind; [apply rr_rd, Hi|]. intros x x' Ex.
  eapply rr_bind; [apply rr_rd, H|]. intros y y' Ey. apply rr_wr; [exact H|]. apply Hmac; assumption.
Qed.
Lemma rr_add_pair a b fj ii out out' : Bu out out' -> rr Bu (o_add_pair flt inp a b fj ii out) (o_add_pair flt' inp' a b fj ii out').
Proof. intros H. unfold o_add_pair. eapply rr_bind; [apply rr_add_to, H|]. intros u u' Hu. apply rr_add_to, Hu. Qed.

Ltac js := let j := fresh "j" in let s := fresh "s" in let j' := fresh "j'" in let s' := fresh "s'" in
  intros [j s] [j' s'] [? ?]; cbn [fst snd] in *; subst.
Ltac st := apply rr_add_pair; assumption.
Let St : Z * Z * list A -> Z * Z * list B -> Prop := both (both eq eq) Bu.
Ltac io := let i := fresh "i" in let o := fresh "o" in let u := fresh "u" in let i' := fresh "i'" in let o' := fresh "o'" in let u' := fresh "u'" in
  intros [[i o] u] [[i' o'] u'] [[? ?] ?]; cbn [fst snd] in *; subst.
Ltac fin := cbn [rr]; split; [split; reflexivity|assumption].

Theorem rr_full out out' : Bu out out' -> rr Bu (o_upsampling_convolution_full fuel inp flt out) (o_upsampling_convolution_full fuel inp' flt' out').
Proof.
  intros Ho. unfold o_upsampling_convolution_full. rewrite Ni, Nf. destruct (_ <? 2); [reflexivity|]. destruct (negb _); [reflexivity|].
  eapply (rr_bind St). { apply rr_while; [io; reflexivity| |split; [split; reflexivity|exact Ho]].
    io. eapply rr_bind; [apply rr_forj; [intros; st|split; [reflexivity|assumption]]|]. js. fin. }
  intros s1 s1' Hs1. eapply (rr_bind St). { apply rr_while; [io; reflexivity| |exact Hs1].
    io. eapply rr_bind; [apply rr_forj; [intros; st|split; [reflexivity|assumption]]|]. js. fin. }
  intros s2 s2' Hs2. eapply (rr_bind St). { apply rr_while; [io; reflexivity| |exact Hs2].
    io. eapply rr_bind; [apply rr_forj; [intros; st|split; [reflexivity|assumption]]|]. js. fin. }
  intros s3 s3' Hs3. eapply (rr_bind St). { apply rr_while; [io; reflexivity| |exact Hs3].
    io. eapply rr_bind; [apply rr_forj; [intros; st|split; [reflexivity|assumption]]|]. js. fin. }
  io. assumption.
Qed.

Lemma rr_uleft a b js js' : both eq Bu js js' -> rr (both eq Bu) (o_uper_left fuel inp flt a b js) (o_uper_left fuel inp' flt' a b js').
Proof.
  intros H. unfold o_uper_left. rewrite Ni, Nf. apply rr_while; [js; reflexivity| |exact H].
  intros p p' Hp. apply rr_seg; [intros; st|exact Hp].
Qed.
Lemma rr_uright a b i js js' : both eq Bu js js' -> rr (both eq Bu) (o_uper_right fuel inp flt a b i js) (o_uper_right fuel inp' flt' a b i js').
Proof.
  intros H. unfold o_uper_right. rewrite Ni. apply rr_while; [js; reflexivity| |exact H].
  intros p p' Hp. apply rr_seg; [intros; st|exact Hp].
Qed.

Lemma rr_uper out out' : Bu out out' ->
  rr Bu (o_upsampling_convolution_valid_sf_periodization fuel inp flt out) (o_upsampling_convolution_valid_sf_periodization fuel inp' flt' out').
Proof.
  intros Ho. unfold o_upsampling_convolution_valid_sf_periodization. rewrite Ni, Nf. destruct (negb (_ mod 2 =? 0)); [reflexivity|].
  eapply (rr_bind (both eq Bu)).
  { destruct (_ =? 0); [|split; [reflexivity|exact Ho]].
    eapply (rr_bind (both eq Bu)). { apply rr_while; [js; reflexivity| |split; [reflexivity|exact Ho]]. intros p p' Hp. apply rr_seg; [intros; st|exact Hp]. }
    js. eapply rr_bind; [apply rr_forj; [intros; st|split; [reflexivity|assumption]]|]. js.
    eapply rr_bind; [apply rr_uleft; split; [reflexivity|assumption]|]. js. split; [reflexivity|assumption]. }
  intros [o u] [o' u'] [Ho' Hu]. cbn [fst snd] in *. subst o'.
  eapply (rr_bind St). { apply rr_while; [io; reflexivity| |split; [split; reflexivity|exact Hu]].
    io. eapply rr_bind; [apply rr_forj; [intros; st|split; [reflexivity|assumption]]|]. js.
    eapply rr_bind; [apply rr_uleft; split; [reflexivity|assumption]|]. js. fin. }
  intros s1 s1' Hs1. eapply (rr_bind St). { apply rr_while; [io; reflexivity| |exact Hs1].
    io. eapply rr_bind; [apply rr_forj; [intros; st|split; [reflexivity|assumption]]|]. js. fin. }
  intros s2 s2' Hs2. eapply (rr_bind St). { apply rr_while; [io; reflexivity| |exact Hs2].
    io. eapply rr_bind; [apply rr_uright; split; [reflexivity|assumption]|]. js.
    eapply rr_bind; [apply rr_forj; [intros; st|split; [reflexivity|assumption]]|]. js.
    eapply rr_bind; [apply rr_uleft; split; [reflexivity|assumption]|]. js. fin. }
  intros s3 s3' Hs3. eapply (rr_bind St). { apply rr_while; [io; reflexivity| |exact Hs3].
    io. eapply rr_bind; [apply rr_uright; split; [reflexivity|assumption]|]. js.
    eapply rr_bind; [apply rr_forj; [intros; st|split; [reflexivity|assumption]]|]. js. fin. }
  io. assumption.
Qed.

Theorem rr_valid out out' m m' : (m = PERIODIZATION <-> m' = PERIODIZATION) -> Bu out out' ->
  rr Bu (o_upsampling_convolution_valid_sf fuel inp flt out m) (o_upsampling_convolution_valid_sf fuel inp' flt' out' m').
Proof.
  intros Hm Ho. assert (Hd : m = PERIODIZATION \/ m <> PERIODIZATION) by (destruct m; auto; right; discriminate).
  destruct Hd as [->|Hp]. { rewrite (proj1 Hm eq_refl). apply rr_uper, Ho. }
  assert (Hp' : m' <> PERIODIZATION) by tauto. clear Hm.
  assert (G : rr Bu (o_upsampling_convolution_valid_sf fuel inp flt out ZEROPAD) (o_upsampling_convolution_valid_sf fuel inp' flt' out' ZEROPAD)).
  { unfold o_upsampling_convolution_valid_sf. rewrite Ni, Nf. destruct (_ || _); [reflexivity|].
    eapply (rr_bind St). { apply rr_while; [io; reflexivity| |split; [split; reflexivity|exact Ho]].
      io. eapply (rr_bind (both eq (both Rs Rs))).
      { apply rr_forj; [|split; [reflexivity|split; exact H0]]. intros j [a b] [a' b'] [Ha Hb]. cbn [fst snd] in *.
        eapply rr_bind; [apply rr_acc; assumption|]. intros. eapply rr_bind; [apply rr_acc; assumption|]. intros. split; assumption. }
      intros [j [a b]] [j' [a' b']] [_ [Ha Hb]]. cbn [fst snd] in *.
      eapply rr_bind; [apply rr_rd; eassumption|]. intros. eapply rr_bind; [apply rr_wr; [eassumption|apply Hadd; assumption]|]. intros.
      eapply rr_bind; [apply rr_rd; eassumption|]. intros. eapply rr_bind; [apply rr_wr; [eassumption|apply Hadd; assumption]|]. intros. fin. }
    io. assumption. }
  destruct m; try congruence; destruct m'; try congruence; exact G.
Qed.
End Up.
End Rel.

(** The one-dimensional transforms. *)
Section RelDwt.
Context {A B : Ops}.
Variable fuel : nat.
Variables Rf Rx Rs : A -> B -> Prop.
Variable flip : bool.
Hypothesis H0 : Rs o0 o0.
Hypothesis Hmac : forall s s' f f' x x', Rs s s' -> Rf f f' -> Rx x x' -> Rs (oadd s (omul f x)) (oadd s' (omul f' x')).
Hypothesis Hneg : forall s s' f f' x x', Rs s s' -> Rf f f' -> Rx x x' ->
  Rs (osub s (omul f x)) (if flip then oadd s' (omul f' x') else osub s' (omul f' x')).
Hypothesis Hadd : forall s s' t t', Rs s s' -> Rs t t' -> Rs (oadd s t) (oadd s' t').
Let mb (m : mode) : mode := if flip then abs_mode m else m.

(** Wavelets with related filters. *)
Definition rel_wavelet (w : owavelet A) (w' : owavelet B) : Prop :=
  Forall2 Rf (odec_lo w) (odec_lo w') /\ Forall2 Rf (odec_hi w) (odec_hi w') /\
  Forall2 Rf (orec_lo w) (orec_lo w') /\ Forall2 Rf (orec_hi w) (orec_hi w').

Lemma F2_zeros n : Forall2 Rs (repeat o0 n) (repeat o0 n).
Proof. induction n; cbn [repeat]; constructor; auto. Qed.
Lemma rr_zeros n : rr (Forall2 Rs) (o_np_zeros n) (o_np_zeros n).
Proof. unfold o_np_zeros. destruct (_ <? _); [apply F2_zeros|reflexivity]. Qed.
Lemma rr_runtime {X Y} (R : X -> Y -> Prop) m m' : rr R m m' -> rr R (as_runtime m) (as_runtime m').
Proof. destruct m, m'; cbn; auto. Qed.
Lemma mb_buffer N F m : dwt_buffer_length N F (mb m) = dwt_buffer_length N F m.
Proof. clear. unfold mb. destruct flip; [|reflexivity]. destruct m; reflexivity. Qed.
Lemma mb_idwt N F m : idwt_buffer_length N F (mb m) = idwt_buffer_length N F m.
Proof. clear. unfold mb. destruct flip; [|reflexivity]. destruct m; reflexivity. Qed.

Theorem rr_dwt x x' w w' m : copying m = true -> Forall2 Rx x x' -> rel_wavelet w w' ->
  rr (both (Forall2 Rs) (Forall2 Rs)) (o_dwt_single fuel x w m) (o_dwt_single fuel x' w' (mb m)).
Proof.
  intros Hm Hx (W1 & W2 & _). pose proof (F2_zlen _ _ _ Hx) as Ex. pose proof (F2_zlen _ _ _ W1) as Ew.
  unfold o_dwt_single, dwt_coeff_len, odec_len. rewrite mb_buffer, Ex, Ew.
  destruct (_ <? 1); [reflexivity|]. destruct (_ <? 1); [reflexivity|]. cbn [bind]. destruct (_ <? 1); [reflexivity|].
  replace (match mb m with REFLECT | ANTIREFLECT => true | _ => false end) with (match m with REFLECT | ANTIREFLECT => true | _ => false end)
    by (unfold mb; destruct flip; [destruct m|]; reflexivity).
  destruct (_ && _); [reflexivity|].
  eapply rr_bind; [apply rr_zeros|]. intros a a' Ha. eapply rr_bind; [apply rr_zeros|]. intros d d' Hd.
  eapply rr_bind.
  { apply rr_runtime. unfold o_dec_a, odec_len. rewrite mb_buffer, Ex, Ew, (F2_zlen _ _ _ Ha). destruct (_ =? _); [|reflexivity].
    apply (rr_down fuel Rf Rx Rs flip H0 Hmac Hneg); assumption. }
  intros b b' Hb. eapply rr_bind.
  { apply rr_runtime. unfold o_dec_d, odec_len. rewrite mb_buffer, Ex, Ew, (F2_zlen _ _ _ Hd). destruct (_ =? _); [|reflexivity].
    apply (rr_down fuel Rf Rx Rs flip H0 Hmac Hneg); assumption. }
  intros e e' He. split; assumption.
Qed.

Theorem rr_idwt a a' d d' w w' m : Forall2 Rx a a' -> Forall2 Rx d d' -> rel_wavelet w w' ->
  rr (Forall2 Rs) (o_idwt_single fuel a d w m) (o_idwt_single fuel a' d' w' (mb m)).
Proof.
  clear Hneg. intros Ha Hd (_ & _ & W3 & W4). pose proof (F2_zlen _ _ _ Ha) as Ea. pose proof (F2_zlen _ _ _ Hd) as Ed. pose proof (F2_zlen _ _ _ W3) as Ew.
  assert (Hp : m = PERIODIZATION <-> mb m = PERIODIZATION) by (unfold mb; destruct flip; [destruct m|]; cbn; split; congruence).
  unfold o_idwt_single, orec_flen. rewrite mb_idwt, Ea, Ed, Ew. destruct (negb _) eqn:E; [reflexivity|]. destruct (_ <? 1); [reflexivity|].
  eapply rr_bind; [apply rr_zeros|]. intros o o' Ho. apply rr_runtime. unfold o_idwt, orec_flen. rewrite mb_idwt, Ea, Ed, Ew, (F2_zlen _ _ _ Ho).
  cbv iota. rewrite E. destruct (negb (_ =? idwt_buffer_length _ _ _)) eqn:E2; [cbn; reflexivity|].
  eapply rr_bind; [apply (rr_valid fuel Rf Rx Rs H0 Hmac Hadd); [exact Ha|exact W3|exact Hp|exact Ho]|].
  intros b b' Hb. apply (rr_valid fuel Rf Rx Rs H0 Hmac Hadd); [exact Hd|exact W4|exact Hp|exact Hb].
Qed.
End RelDwt.
