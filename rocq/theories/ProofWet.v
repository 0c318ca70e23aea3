(** Saturated and wet states below 16.529 MPa: closed forms. *)
From Coq Require Import ZArith Reals Lra Lia List Bool.
From Interval Require Import Tactic.
From Verif Require Import Py ExactReal ModState ModConstants ModUnits ModBorders ModRegion1 ModRegion2
  ModRegion4 ModRegion5 ModSelect ModXSteam SpecUnits SpecApi SpecRange SpecThermo ProofUnits
  ProofCovariance ProofGeneric RealSum ProofEos ProofThermo ProofSat ProofSatApi ProofThermoApi ProofMisc.
Open Scope R_scope.

Section Wet.
Context {F : Fuel}.
Definition low (p : R) : Prop := 0.000611657 <= p < 16.529.

Lemma p4_623_15 : 16.529 < p4R 623.15.
Proof. unfold p4R, be, qA, qB, qC, th. interval with (i_prec 100). Qed.
Lemma T4_low p : low p -> T4_p (Fin p) = Ok (Fin (T4R p)) /\ 273.15 < T4R p < 623.15 /\ p4R (T4R p) = p.
Proof.
  unfold low; intros H. destruct (p4_T4 p) as (E & R & I); [lra|]. pose proof p4_ends as (P1 & _).
  pose proof p4_623_15. split; [exact E|]. split; [|exact I].
  split; apply Rnot_le_lt; intros [L|L].
  - pose proof (p4_incr (T4R p) 273.15 ltac:(lra) L ltac:(lra)). lra.
  - rewrite L in I. lra.
  - pose proof (p4_incr 623.15 (T4R p) ltac:(lra) L ltac:(lra)). lra.
  - rewrite <- L in I. lra.
Qed.
Lemma dom1_low p : low p -> dom1 p (T4R p).
Proof. intros H. pose proof (proj1 (proj2 (T4_low p H))). unfold low in H. unfold dom1. lra. Qed.
Lemma dom2_low p : low p -> dom2 p (T4R p).
Proof. intros H. pose proof (proj1 (proj2 (T4_low p H))). unfold low in H. unfold dom2. lra. Qed.

Definition hL p := h1R p (T4R p).
Definition hV p := h2R p (T4R p).
Definition sL p := s1R p (T4R p).
Definition sV p := s2R p (T4R p).
Definition vL p := v1R p (T4R p).
Definition vV p := v2R p (T4R p).
Lemma h4L_low p : 0.000611657 < p < 16.529 -> h4L_p (Fin p) = Ok (Fin (hL p)).
Proof.
  intros H. assert (L : low p) by (unfold low; lra). unfold h4L_p. cmps.
  rewrite (proj1 (T4_low p L)). cbn [bind].
  rewrite (proj1 (proj2 (eos1 _ _ (dom1_low p L)))). reflexivity.
Qed.
Lemma h4V_low p : 0.000611657 < p < 16.529 -> h4V_p (Fin p) = Ok (Fin (hV p)).
Proof.
  intros H. assert (L : low p) by (unfold low; lra). unfold h4V_p. cmps.
  rewrite (proj1 (T4_low p L)). cbn [bind].
  rewrite (proj1 (proj2 (eos2 _ _ (dom2_low p L)))). reflexivity.
Qed.
End Wet.
