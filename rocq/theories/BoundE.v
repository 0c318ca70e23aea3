(** Compressed water above 277.5 K expands when heated: the sign of the temperature
    derivative of the volume, by enclosure. *)
From Coq Require Import ZArith QArith Reals Lra Lia List Bool.
From Verif Require Import Py ExactReal RealSum ProofEos ProofThermo ProofSat Bound BoundF BoundEos BoundSat Bound1.
Import ListNotations.
Open Scope R_scope.

Definition swell (p t : R) : Prop := g1 1 0 p t - 1386 / t * g1 1 1 p t < 0.
Definition checkE (n : nat) : Z -> Z -> Z -> Z -> bool :=
  let g := grp tab1 in
  fun l u l' u' =>
  if ((290979840 <=? l')%Z && (u' <=? 653420135)%Z) then
  let P := iv l u in let T := iv l' u' in
  if ineg (isub P (psI (idiv (iZ l') (iZ G)))) then true else
  let d := deriv n g (a1I P) (b1I T) in
  ineg (isub (d 1%nat 0%nat) (imul (idiv (iZ 1386) T) (d 1%nat 1%nat))) else false.
Lemma gr_lowE : gr 290979840 = 277.5.
Proof. unfold gr, G. lra. Qed.
Lemma checkE_ok n l u l' u' : checkE n l u l' u' = true ->
  forall p t, gr l <= p <= gr u -> gr l' <= t <= gr u' -> p4R t <= p -> swell p t.
Proof.
  intros C p t Hp Ht S. unfold checkE in C.
  destruct (290979840 <=? l')%Z eqn:E1; [|discriminate].
  destruct (u' <=? 653420135)%Z eqn:E2; [|discriminate]. cbn [andb] in C.
  apply gr_le in E1. apply gr_le in E2. rewrite gr_lowE in E1. rewrite gr_hi in E2.
  assert (t0 : 0 < t) by lra.
  assert (HT := inc_iv l' u' t Ht). assert (HP := inc_iv l u p Hp).
  destruct (ineg (isub (iv l u) (psI (idiv (iZ l') (iZ G))))) eqn:E.
  - exfalso. apply ineg_ok with (x := p - p4R (gr l')) in E.
    + assert (p4R (gr l') <= p4R t).
      { destruct (proj1 Ht) as [K|K]; [apply Rlt_le, p4_incr; lra | rewrite K; lra]. }
      lra.
    + apply inc_sub; [exact HP|]. apply inc_ps; [lra | apply inc_gr].
  - apply (ineg_ok _ _ C). apply inc_sub; [now apply inc_d1|]. apply inc_mul; [|now apply inc_d1].
    apply inc_div; [apply inc_Z | exact HT | lra].
Qed.
Lemma coveredE : cov2 20 (checkE 6) 1 1 0 104857600 290979840 653420135 = true.
Proof. vm_compute. reflexivity. Qed.
Theorem swells p t : 277.5 <= t <= 623.15 -> p4R t <= p <= 100 -> swell p t.
Proof.
  intros Ht Hp. assert (p0 : 0 < p4R t) by (apply p4_pos; lra).
  assert (H : p4R t <= p -> swell p t); [|now apply H].
  refine (cov2_ok (fun p t => p4R t <= p -> swell p t) _ 1 1 _ _ _ _ _ _ coveredE p t _ _).
  - exact (checkE_ok 6).
  - unfold gr, G. lra.
  - unfold gr, G. lra.
Qed.
Lemma v1T_pos p t : 277.5 <= t <= 623.15 -> p4R t <= p <= 100 -> 0 < v1T p t.
Proof.
  intros Ht Hp. assert (K := swells p t Ht Hp). unfold swell in K. unfold v1T. revert K. generalize (g1 1 0 p t - 1386 / t * g1 1 1 p t).
  intros x Hx. lra.
Qed.

(** ** Bounds on volume, expansion, heat capacity and the Joule-Thomson coefficient *)
Definition tame (p t : R) : Prop := let x := 1386 / t in
  0.95 < - (0.461526 * t / 16.53) * g1 1 0 p t /\ - (0.461526 / 16.53) * (g1 1 0 p t - x * g1 1 1 p t) < 0.02 /\
  3.8 < - (0.461526) * x ^ 2 * g1 0 2 p t /\
  - (1386 / 16.53) * g1 1 1 p t < - (1.1) * x ^ 2 * g1 0 2 p t /\ 1386 / 16.53 * g1 1 1 p t < - (1.1) * x ^ 2 * g1 0 2 p t /\
  -26 < 1386 / 16.53 * g1 1 1 p t < 26.
Definition checkT (n : nat) : Z -> Z -> Z -> Z -> bool :=
  let g := grp tab1 in
  fun l u l' u' =>
  if ((286261248 <=? l')%Z && (u' <=? 653420135)%Z) then
  let P := iv l u in let T := iv l' u' in
  if ineg (isub P (psI (idiv (iZ l') (iZ G)))) then true else
  let d := deriv n g (a1I P) (b1I T) in let x := idiv (iZ 1386) T in
  let g10 := d 1%nat 0%nat in let g11 := imul (iQ (Qmake 138600 1653)) (d 1%nat 1%nat) in let c := imul (imul (iQ (Qmake (-11) 10)) (ipown x 2)) (d 0%nat 2%nat) in
  ipos (isub (imul (imul (iQ (Qmake (-461526) 16530000)) T) g10) (iQ 0.95)) &&
  ipos (isub (iQ 0.02) (imul (iQ (Qmake (-461526) 16530000)) (isub g10 (imul x (d 1%nat 1%nat))))) &&
  ipos (isub (imul (iQ (Qmake 461526 1100000)) c) (iQ 3.8)) && ipos (iadd c g11) && ipos (isub c g11) &&
  ipos (iadd (iZ 26) g11) && ipos (isub (iZ 26) g11) else false.
Lemma checkT_ok n l u l' u' : checkT n l u l' u' = true ->
  forall p t, gr l <= p <= gr u -> gr l' <= t <= gr u' -> p4R t <= p -> tame p t.
Proof.
  intros C p t Hp Ht S. unfold checkT in C. cbv zeta in C.
  destruct (286261248 <=? l')%Z eqn:E1; [|discriminate].
  destruct (u' <=? 653420135)%Z eqn:E2; [|discriminate]. cbn [andb] in C.
  apply gr_le in E1. apply gr_le in E2. rewrite gr_lo in E1. rewrite gr_hi in E2.
  assert (t0 : 0 < t) by lra.
  assert (HT := inc_iv l' u' t Ht). assert (HP := inc_iv l u p Hp).
  destruct (ineg (isub (iv l u) (psI (idiv (iZ l') (iZ G))))) eqn:E.
  - exfalso. apply ineg_ok with (x := p - p4R (gr l')) in E.
    + assert (p4R (gr l') <= p4R t).
      { destruct (proj1 Ht) as [K|K]; [apply Rlt_le, p4_incr; lra | rewrite K; lra]. }
      lra.
    + apply inc_sub; [exact HP|]. apply inc_ps; [lra | apply inc_gr].
  - apply andb_prop in C. destruct C as [C C7]. apply andb_prop in C. destruct C as [C C6]. apply andb_prop in C. destruct C as [C C5]. apply andb_prop in C. destruct C as [C C4]. apply andb_prop in C. destruct C as [C C3]. apply andb_prop in C. destruct C as [C1 C2].
    assert (I10 := inc_d1 n 1 0 _ _ _ _ t0 HP HT). assert (I02 := inc_d1 n 0 2 _ _ _ _ t0 HP HT). assert (I11 := inc_d1 n 1 1 _ _ _ _ t0 HP HT).
    assert (IT : inc (idiv (iZ 1386) (iv l' u')) (1386 / t)) by (apply inc_div; [apply inc_Z | exact HT | lra]).
    unfold tame. revert C1 C2 C3 C4 C5 C6 C7 I10 I02 I11 IT. generalize (deriv n (grp tab1) (a1I (iv l u)) (b1I (iv l' u'))). intros d.
    generalize (g1 1 0 p t) (g1 1 1 p t) (g1 0 2 p t) (idiv (iZ 1386) (iv l' u')) (1386 / t). intros a b c X x C1 C2 C3 C4 C5 C6 C7 I10 I02 I11 IT. cbv zeta.
    assert (J11 := inc_mul _ _ _ _ (inc_Q (Qmake 138600 1653)) I11).
    assert (J02 := inc_mul _ _ _ _ (inc_mul _ _ _ _ (inc_Q (Qmake (-11) 10)) (inc_2 _ _ IT)) I02).
    assert (JX := inc_mul _ _ _ _ IT I11).
    assert (D1 := ipos_ok _ _ C1 (inc_sub _ _ _ _ (inc_mul _ _ _ _ (inc_mul _ _ _ _ (inc_Q (Qmake (-461526) 16530000)) HT) I10) (inc_Q 0.95))).
    assert (D2 := ipos_ok _ _ C2 (inc_sub _ _ _ _ (inc_Q 0.02) (inc_mul _ _ _ _ (inc_Q (Qmake (-461526) 16530000)) (inc_sub _ _ _ _ I10 JX)))).
    assert (D3 := ipos_ok _ _ C3 (inc_sub _ _ _ _ (inc_mul _ _ _ _ (inc_Q (Qmake 461526 1100000)) J02) (inc_Q 3.8))).
    assert (D4 := ipos_ok _ _ C4 (inc_add _ _ _ _ J02 J11)). assert (D5 := ipos_ok _ _ C5 (inc_sub _ _ _ _ J02 J11)).
    assert (D6 := ipos_ok _ _ C6 (inc_add _ _ _ _ (inc_Z 26) J11)). assert (D7 := ipos_ok _ _ C7 (inc_sub _ _ _ _ (inc_Z 26) J11)).
    unfold Q2R in D1, D2, D3, D4, D5, D6, D7. cbn [Qnum Qden] in D1, D2, D3, D4, D5, D6, D7. repeat split; lra.
Qed.
Lemma coveredT : cov2 20 (checkT 6) 1 1 0 104857600 286261248 653420135 = true.
Proof. vm_compute. reflexivity. Qed.
Theorem tames p t : 273 <= t <= 623.15 -> p4R t <= p <= 100 -> tame p t.
Proof.
  intros Ht Hp. assert (p0 : 0 < p4R t) by (apply p4_pos; lra).
  assert (H : p4R t <= p -> tame p t); [|now apply H].
  refine (cov2_ok (fun p t => p4R t <= p -> tame p t) _ 1 1 _ _ _ _ _ _ coveredT p t _ _).
  - exact (checkT_ok 6).
  - unfold gr, G. lra.
  - unfold gr, G. lra.
Qed.
(** the same in terms of the property functions *)
Lemma tame_bounds p t : 273 <= t <= 623.15 -> p4R t <= p <= 100 ->
  0.00095 < v1R p t /\ v1T p t < 0.00002 /\ 3.8 < Cp1R p t /\
  Rabs (1000 * (v1R p t - t * v1T p t)) < 1.1 * Cp1R p t /\ Rabs (1000 * (v1R p t - t * v1T p t)) < 12.
Proof.
  intros Ht Hp. destruct (tames p t Ht Hp) as (A & B & C & E & F & I). unfold v1R, v1T, Cp1R.
  assert (X : 1386 / t * t = 1386) by (field; lra).
  replace (1000 * (- (0.461526 * t / 16.53 / 1000) * g1 1 0 p t - t * (- (0.461526 / 16.53 / 1000) * (g1 1 0 p t - 1386 / t * g1 1 1 p t))))
    with (- (0.461526 / 16.53) * (1386 / t * t) * g1 1 1 p t) by lra.
  rewrite X. clear X. set (x := 1386 / t) in *. clearbody x.
  revert A B C E F I. generalize (g1 1 0 p t) (g1 1 1 p t) (g1 0 2 p t). intros a b c A B C E F I.
  repeat split; try lra; apply Rabs_def1; lra.
Qed.
