(** The equations of state of regions 1, 2 and 3 and the saturation line along a curve, as polynomials. *)
From Coq Require Import ZArith QArith Reals Lra Lia List Bool.
From Verif Require Import Py ExactReal RealSum ProofSat ProofEos ProofThermo Bound BoundEos BoundF BoundT BoundU BoundS Bound2.
Import ListNotations.
Open Scope R_scope.

Section Curve.
Variables (V : itv) (n : nat).
Notation mul := (umul V n).
Definition tauU (c : Z) (T : poly) : poly := pscal (iZ c) (uinv V n T).
(** ** Region 1 *)
Definition g1U (i j : nat) : poly -> poly -> poly := let f := utab V n (dtab i j tab1) in
  fun P Tau => f (ulin 7.1 (Qmake (-100) 1653) P) (padd [iQ (-1.222)] Tau).
Definition h1U := let f := g1U 0 1 in fun P T => pscal (iQ (Qmake 639675036 1000000)) (f P (tauU 1386 T)).
Definition s1U := let f := g1U 0 1 in let g := g1U 0 0 in
  fun P T => let Tau := tauU 1386 T in pscal Rw (padd (mul Tau (f P Tau)) (pscal (iZ (-1)) (g P Tau))).
Definition v1U := let f := g1U 1 0 in fun P T => pscal (iQ (Qmake (-461526) 16530000000)) (mul T (f P (tauU 1386 T))).
(** ** Region 2 *)
Definition g2U (i j : nat) : poly -> poly -> poly := let f := utab V n (dtab i j tab2) in
  fun P Tau => f P (padd [iQ (-0.5)] Tau).
Definition o2U (j : nat) : poly -> poly := let f := utab V n (stab j tab2o) in fun Tau => f [iZ 1] Tau.
Definition h2U := let f := g2U 0 1 in let o := o2U 1 in
  fun P T => let Tau := tauU 540 T in pscal (iQ 249.22404) (padd (o Tau) (f P Tau)).
Definition s2U := let f := g2U 0 1 in let o := o2U 1 in let f0 := g2U 0 0 in let o0 := o2U 0 in
  fun P T => let Tau := tauU 540 T in
    pscal Rw (padd (mul Tau (padd (o Tau) (f P Tau))) (pscal (iZ (-1)) (padd (padd (uln V n P) (o0 Tau)) (f0 P Tau)))).
(** ** The saturation line and the border between regions 2 and 3 *)
Definition thU (T : poly) : poly := padd T (pscal (iQ (-0.23855557567849)) (uinv V n (padd [iQ (-650.17534844798)] T))).
Definition quU (a b c : Q) (X : poly) : poly := padd [iQ c] (mul X (ulin b a X)).
Definition beU (X : poly) : poly :=
  let A := quU 1 1167.0521452767 (-724213.16703206) X in
  let B := quU (-17.073846940092) 12020.82470247 (-3232555.0322333) X in
  let C := quU 14.91510861353 (-4823.2657361591) 405113.40542057 X in
  let S := usqrt V n (padd (mul B B) (pscal (iZ (-4)) (mul A C))) in
  mul (pscal (iZ 2) C) (uinv V n (padd (pscal (iZ (-1)) B) S)).
Definition p4U (T : poly) : poly := u4 V n (beU (thU T)).
Definition p23U (T : poly) : poly := quU 0.0010192970039326 (-1.1671859879975) 348.05185628969 T.

Variable v : R.
Hypothesis HV : inc V v.
Ltac lins := unfold Q2R; cbn [Qnum Qden]; field.
Lemma tauU_ok c T t : pol v T t -> pol v (tauU c T) (IZR c / t).
Proof.
  intros H. unfold tauU. eapply pol_eq; [apply pscal_ok; [apply inc_Z | apply uinv_ok; [exact HV | exact H]]|]. unfold Rdiv. ring.
Qed.
Lemma g1U_ok i j P Tau p t : pol v P p -> pol v Tau (1386 / t) -> pol v (g1U i j P Tau) (g1 i j p t).
Proof.
  intros HP HT. unfold g1U, g1. cbv zeta. replace (a1 p) with (Q2R 7.1 + Q2R (Qmake (-100) 1653) * p) by (unfold a1; lins).
  replace (b1 t) with (Q2R (-1.222) + 1386 / t) by (unfold b1, Q2R; cbn [Qnum Qden]; lra).
  eapply utab_ok; [exact HV | apply dtab_ok | apply ulin_ok, HP|]. apply padd_ok; [apply pol_const, inc_Q | exact HT].
Qed.
Lemma g2U_ok i j P Tau p t : pol v P p -> pol v Tau (540 / t) -> pol v (g2U i j P Tau) (g2 i j p t).
Proof.
  intros HP HT. unfold g2U, g2. cbv zeta.
  replace (b2 t) with (Q2R (-0.5) + 540 / t) by (unfold b2, Q2R; cbn [Qnum Qden]; lra).
  eapply utab_ok; [exact HV | apply dtab_ok | exact HP|]. apply padd_ok; [apply pol_const, inc_Q | exact HT].
Qed.
Lemma o2U_ok j Tau t : pol v Tau (540 / t) -> pol v (o2U j Tau) (o2 j t).
Proof.
  intros HT. unfold o2U, o2. cbv zeta. eapply utab_ok; [exact HV | apply (stab_ok _ _ 1) | apply pol_const, (inc_Z 1) | exact HT].
Qed.
Section At.
Variables (P T : poly) (p t : R).
Hypotheses (HP : pol v P p) (HT : pol v T t).
Lemma h1U_ok : pol v (h1U P T) (h1R p t).
Proof.
  unfold h1U. cbv zeta. eapply pol_eq; [apply pscal_ok; [apply inc_Q | apply g1U_ok; [exact HP | apply tauU_ok, HT]]|].
  unfold h1R. set (g := g1 _ _ _ _). lins.
Qed.
Lemma s1U_ok : pol v (s1U P T) (s1R p t).
Proof.
  assert (K := tauU_ok 1386 T t HT). unfold s1U. cbv zeta.
  eapply pol_eq; [apply pscal_ok; [apply inc_Q|]; apply padd_ok; [apply umul_ok; [exact HV | exact K | apply g1U_ok; [exact HP | exact K]] |
    apply pscal_ok; [apply inc_Z | apply g1U_ok; [exact HP | exact K]]]|].
  unfold s1R. set (g := g1 0 1 _ _). set (g' := g1 0 0 _ _). set (c := 1386 / t). lins.
Qed.
Lemma v1U_ok : pol v (v1U P T) (v1R p t).
Proof.
  unfold v1U. cbv zeta. eapply pol_eq; [apply pscal_ok; [apply inc_Q|]; apply umul_ok; [exact HV | exact HT | apply g1U_ok; [exact HP | apply tauU_ok, HT]]|].
  unfold v1R. set (g := g1 _ _ _ _). lins.
Qed.
Lemma h2U_ok : pol v (h2U P T) (h2R p t).
Proof.
  assert (K := tauU_ok 540 T t HT). unfold h2U. cbv zeta.
  eapply pol_eq; [apply pscal_ok; [apply inc_Q|]; apply padd_ok; [apply o2U_ok, K | apply g2U_ok; [exact HP | exact K]]|].
  unfold h2R. set (g := g2 _ _ _ _). set (o := o2 _ _). lins.
Qed.
Lemma s2U_ok : pol v (s2U P T) (s2R p t).
Proof.
  assert (K := tauU_ok 540 T t HT). unfold s2U. cbv zeta.
  eapply pol_eq; [apply pscal_ok; [apply inc_Q|]; apply padd_ok; [apply umul_ok; [exact HV | exact K | apply padd_ok; [apply o2U_ok, K | apply g2U_ok; [exact HP | exact K]]] |
    apply pscal_ok; [apply inc_Z|]; apply padd_ok; [apply padd_ok; [apply uln_ok; [exact HV | exact HP] | apply o2U_ok, K] | apply g2U_ok; [exact HP | exact K]]]|].
  unfold s2R. set (g := g2 0 1 _ _). set (g' := g2 0 0 _ _). set (o := o2 1 _). set (o' := o2 0 _). set (c := 540 / t). lins.
Qed.
End At.
Lemma quU_ok a b c X x : pol v X x -> pol v (quU a b c X) (Q2R a * x ^ 2 + Q2R b * x + Q2R c).
Proof.
  intros H. unfold quU. eapply pol_eq; [apply padd_ok; [apply pol_const, inc_Q|]; apply umul_ok; [exact HV | exact H | apply ulin_ok, H]|]. ring.
Qed.
Lemma thU_ok T t : t <> 650.17534844798 -> pol v T t -> pol v (thU T) (th t).
Proof.
  intros N H. unfold thU. eapply pol_eq; [apply padd_ok; [exact H|]; apply pscal_ok; [apply inc_Q|]; apply uinv_ok; [exact HV|]; apply padd_ok; [apply pol_const, inc_Q | exact H]|].
  unfold th, Q2R; cbn [Qnum Qden]. field. lra.
Qed.
Lemma beU_ok X x : 273 <= x <= 647.178 -> pol v X x -> pol v (beU X) (be x).
Proof.
  intros R H. assert (D := den_B x R). unfold beU. cbv zeta.
  assert (A := quU_ok 1 1167.0521452767 (-724213.16703206) X x H).
  assert (B := quU_ok (-17.073846940092) 12020.82470247 (-3232555.0322333) X x H).
  assert (C := quU_ok 14.91510861353 (-4823.2657361591) 405113.40542057 X x H).
  eapply pol_eq in A; [|instantiate (1 := qA x); unfold qA, Q2R; cbn [Qnum Qden]; lra].
  eapply pol_eq in B; [|instantiate (1 := qB x); unfold qB, Q2R; cbn [Qnum Qden]; lra].
  eapply pol_eq in C; [|instantiate (1 := qC x); unfold qC, Q2R; cbn [Qnum Qden]; lra].
  eapply pol_eq; [apply umul_ok; [exact HV | apply pscal_ok; [apply inc_Z | exact C] |]; apply uinv_ok; [exact HV|]; apply padd_ok;
    [apply pscal_ok; [apply inc_Z | exact B] | apply usqrt_ok; [exact HV|]; apply padd_ok; [apply umul_ok; [exact HV | exact B | exact B] | apply pscal_ok; [apply inc_Z | apply umul_ok; [exact HV | exact A | exact C]]]]|].
  unfold be. replace (qB x * qB x + -4 * (qA x * qC x)) with (qB x ^ 2 - 4 * qA x * qC x) by ring. field. lra.
Qed.
Lemma p4U_ok T t : 273 <= t <= 647.1 -> pol v T t -> pol v (p4U T) (p4R t).
Proof.
  intros R H. unfold p4U, p4R. apply u4_ok; [exact HV|]. apply beU_ok; [now apply th_range|]. apply thU_ok; [lra | exact H].
Qed.
Lemma p23U_ok T t : pol v T t -> pol v (p23U T) (p23R t).
Proof. intros H. unfold p23U. eapply pol_eq; [apply quU_ok, H|]. unfold p23R, Q2R; cbn [Qnum Qden]. lra. Qed.
End Curve.
