(** The borders of region 1 in terms of entropy: how far the fitted curves h4_s and hB13_s are
    from the states they stand for. *)
From Coq Require Import ZArith QArith Qreals Reals Lra Lia List Bool.
From Verif Require Import Py ExactReal RealSum ModBorders ProofSat ProofEos ProofThermo ProofBackS SatS Bound BoundEos BoundF BoundT BoundU BoundS BoundV Bound2 BoundA BoundW BoundY.
Import ListNotations.
Open Scope R_scope.

Definition B13 (s : R) : R := S2 tabB13 0 0 (s / 3.8 - 0.884) (s / 3.8 - 0.864) * 1700.
Definition H4aU (V : itv) (n : nat) : poly -> poly := let f := utab V n (dtab 0 0 tab4a) in
  fun S => pscal (iZ 1700) (f (ulin (-1.09) (Qmake 10 38) S) (ulin 0.0000366 (Qmake 10 38) S)).
Definition B13U (V : itv) (n : nat) : poly -> poly := let f := utab V n (dtab 0 0 tabB13) in
  fun S => pscal (iZ 1700) (f (ulin (-0.884) (Qmake 10 38) S) (ulin (-0.864) (Qmake 10 38) S)).
Lemma H4aU_ok V n v S s : inc V v -> pol v S s -> pol v (H4aU V n S) (H4a s).
Proof.
  intros HV HS. unfold H4aU, H4a. cbv zeta. rewrite (Rmult_comm _ 1700). apply pscal_ok; [apply (inc_Z 1700)|].
  eapply utab_ok; [exact HV | apply dtab_ok | |]; (eapply pol_eq; [apply ulin_ok, HS|]; unfold Q2R; cbn [Qnum Qden]; lra).
Qed.
Lemma B13U_ok V n v S s : inc V v -> pol v S s -> pol v (B13U V n S) (B13 s).
Proof.
  intros HV HS. unfold B13U, B13. cbv zeta. rewrite (Rmult_comm _ 1700). apply pscal_ok; [apply (inc_Z 1700)|].
  eapply utab_ok; [exact HV | apply dtab_ok | |]; (eapply pol_eq; [apply ulin_ok, HS|]; unfold Q2R; cbn [Qnum Qden]; lra).
Qed.

(** ** h4_s along the boiling line, and the line from the triple point to the origin *)
Definition liq (n : nat) (V : itv) (T : poly) : list itv := let P := p4U V n T in let S := s1U V n P T in let H := h1U V n P T in
  [ubound V (psub (H4aU V n S) H); ubound V (psub H (pscal (iQ 273.1595) S)); ubound V S].
Lemma liq_ok n V v T t : 273 <= t <= 647.1 -> inc V v -> pol v T t -> Forall2 inc (liq n V T)
  [H4a (s1R (p4R t) t) - h1R (p4R t) t; h1R (p4R t) t - 273.1595 * s1R (p4R t) t; s1R (p4R t) t].
Proof.
  intros R0 HV HT. unfold liq. cbv zeta. assert (HP := p4U_ok V n v HV T t R0 HT).
  assert (HS := s1U_ok V n v HV _ _ _ _ HP HT). assert (HH := h1U_ok V n v HV _ _ _ _ HP HT).
  repeat (apply Forall2_cons; [apply ubound_ok with v; [exact HV|] |]); [| | |apply Forall2_nil].
  - apply psub_ok; [now apply H4aU_ok | exact HH].
  - apply psub_ok; [exact HH|]. eapply pol_eq; [apply pscal_ok; [apply inc_Q | exact HS]|]. unfold Q2R; cbn [Qnum Qden]. lra.
  - exact HS.
Qed.
(** ** hB13_s along the isotherm between regions 1 and 3 *)
Definition iso (n : nat) (V : itv) (P : poly) : list itv := let T : poly := [iQ 623.15] in let S := s1U V n P T in
  [ubound V (psub (B13U V n S) (h1U V n P T)); ubound V S].
Lemma iso_ok n V v P p : inc V v -> pol v P p -> Forall2 inc (iso n V P) [B13 (s1R p 623.15) - h1R p 623.15; s1R p 623.15].
Proof.
  intros HV HP. unfold iso. cbv zeta. assert (HT : pol v [iQ 623.15] 623.15) by (apply const_T; unfold Q2R; cbn; lra).
  assert (HS := s1U_ok V n v HV _ _ _ _ HP HT). repeat (apply Forall2_cons; [apply ubound_ok with v; [exact HV|] |]); [| |apply Forall2_nil].
  - apply psub_ok; [now apply B13U_ok | now apply h1U_ok].
  - exact HS.
Qed.
(** ** TB23_hs along the border between regions 2 and 3 *)
Definition TB23R (h s : R) : R := S2 tabB23 0 0 (h / 3000 - 0.727) (s / 5.3 - 0.864) * 900.
Definition TB23U (V : itv) (n : nat) : poly -> poly -> poly := let f := utab V n (dtab 0 0 tabB23) in
  fun H S => pscal (iZ 900) (f (ulin (-0.727) (Qmake 1 3000) H) (ulin (-0.864) (Qmake 10 53) S)).
Lemma TB23U_ok V n v H S h s : inc V v -> pol v H h -> pol v S s -> pol v (TB23U V n H S) (TB23R h s).
Proof.
  intros HV HH HS. unfold TB23U, TB23R. cbv zeta. rewrite (Rmult_comm _ 900). apply pscal_ok; [apply (inc_Z 900)|].
  eapply utab_ok; [exact HV | apply dtab_ok | |]; (eapply pol_eq; [apply ulin_ok; eassumption|]; unfold Q2R; cbn [Qnum Qden]; lra).
Qed.
Definition b23 (n : nat) (V : itv) (T : poly) : list itv := let P := p23U V n T in let H := h2U V n P T in let S := s2U V n P T in
  [ubound V (psub (TB23U V n H S) T); ubound V H; ubound V S].
Lemma b23_ok n V v T t : inc V v -> pol v T t -> let p := p23R t in
  Forall2 inc (b23 n V T) [TB23R (h2R p t) (s2R p t) - t; h2R p t; s2R p t].
Proof.
  intros HV HT. cbv zeta. unfold b23. cbv zeta. assert (HP := p23U_ok V n v HV T t HT).
  assert (HS := s2U_ok V n v HV _ _ _ _ HP HT). assert (HH := h2U_ok V n v HV _ _ _ _ HP HT).
  repeat (apply Forall2_cons; [apply ubound_ok with v; [exact HV|] |]); [| | |apply Forall2_nil].
  - apply psub_ok; [now apply TB23U_ok | exact HT].
  - exact HH.
  - exact HS.
Qed.

(** ** Water at 100 MPa *)
Definition top1 (n : nat) (V : itv) (T : poly) : list itv := let tau := tauU V n 1386 T in
  [ubound V (pscal (iQ (Qmake (-461526) 1000000)) (umul V n (umul V n tau tau) (g1U V n 0 2 [iZ 100] tau))); ubound V (s1U V n [iZ 100] T)].
Lemma top1_ok n V v T t : inc V v -> pol v T t -> Forall2 inc (top1 n V T) [Cp1R 100 t; s1R 100 t].
Proof.
  intros HV HT. unfold top1. cbv zeta. assert (HX := tauU_ok V n v HV 1386 T t HT).
  repeat (apply Forall2_cons; [apply ubound_ok with v; [exact HV|] |]); [| |apply Forall2_nil].
  - eapply pol_eq; [apply pscal_ok; [apply inc_Q|]; apply umul_ok; [exact HV | apply umul_ok; [exact HV | exact HX | exact HX] | apply g1U_ok; [exact HV | apply pol_const, (inc_Z 100) | exact HX]]|].
    unfold Cp1R. set (g := g1 _ _ _ _). set (x := 1386 / t). unfold Q2R; cbn [Qnum Qden]. lra.
  - apply s1U_ok; [exact HV | apply pol_const, (inc_Z 100) | exact HT].
Qed.

(** ** The bounds *)
Lemma liq_all t : 273.15 <= t <= 623.15 -> Rabs (H4a (s1R (p4R t) t) - h1R (p4R t) t) < 0.0038 /\
  -0.002 < h1R (p4R t) t - 273.1595 * s1R (p4R t) t /\ -0.001 < s1R (p4R t) t < 3.7787.
Proof.
  intros H. assert (K : forall s, 273.15 <= s <= 623.15 -> within ((fun t => [H4a (s1R (p4R t) t) - h1R (p4R t) t; h1R (p4R t) t - 273.1595 * s1R (p4R t) t; s1R (p4R t) t]) s)
    [sym 0.0038; (Qmake (-2) 1000, 10000%Q); (Qmake (-1) 1000, 3.7787%Q)]).
  { assert (X : forall V v T t, 273.15 <= t <= 623.15 -> inc V v -> pol v T t -> Forall2 inc (liq 8 V T)
      [H4a (s1R (p4R t) t) - h1R (p4R t) t; h1R (p4R t) t - 273.1595 * s1R (p4R t) t; s1R (p4R t) t]) by (intros V v T t0 H0; apply liq_ok; lra).
    segs X (liq 8) [sym 0.0038; (Qmake (-2) 1000, 10000%Q); (Qmake (-1) 1000, 3.7787%Q)] 286418534%Z 653420135%Z. }
  specialize (K t H). cbv beta in K. revert K. generalize (s1R (p4R t) t). intros s. generalize (H4a s - h1R (p4R t) t) (h1R (p4R t) t - 273.1595 * s). intros a b.
  cbn [within sym]. intros (K1 & K2 & K3 & _). q2 K1. q2 K2. q2 K3. repeat split; [apply Rabs_def1; lra | lra | lra | lra].
Qed.
Lemma iso_all p : 16.52 <= p <= 100 -> Rabs (B13 (s1R p 623.15) - h1R p 623.15) < 0.019 /\ 3.39 < s1R p 623.15 < 3.7788.
Proof.
  intros H. assert (K : forall s, 16.52 <= s <= 100 -> within ((fun p => [B13 (s1R p 623.15) - h1R p 623.15; s1R p 623.15]) s) [sym 0.019; (3.39%Q, 3.7788%Q)]).
  { segs (iso_ok 6) (iso 6) [sym 0.019; (3.39%Q, 3.7788%Q)] 17322475%Z 104857600%Z. }
  specialize (K p H). cbv beta in K. revert K. generalize (s1R p 623.15). intros s. generalize (B13 s - h1R p 623.15). intros a.
  cbn [within sym]. intros (K1 & K2 & _). q2 K1. q2 K2. repeat split; [apply Rabs_def1; lra | lra | lra].
Qed.
Lemma b23_all t : 623.15 <= t <= 863.15 -> let p := p23R t in
  Rabs (TB23R (h2R p t) (s2R p t) - t) < 0.006 /\ 2500 < h2R p t < 2900 /\ 5 < s2R p t < 5.3.
Proof.
  intros H. cbv zeta. assert (K : forall s, 623.15 <= s <= 863.15 -> within ((fun t => let p := p23R t in [TB23R (h2R p t) (s2R p t) - t; h2R p t; s2R p t]) s)
    [sym 0.006; (2500%Q, 2900%Q); (5%Q, 5.3%Q)]).
  { segs (b23_ok 8) (b23 8) [sym 0.006; (2500%Q, 2900%Q); (5%Q, 5.3%Q)] 653420134%Z 905078375%Z. }
  specialize (K t H). cbv beta zeta in K. revert K. generalize (h2R (p23R t) t) (s2R (p23R t) t). intros h s. generalize (TB23R h s - t). intros a.
  cbn [within sym]. intros (K1 & K2 & K3 & _). q2 K1. q2 K2. q2 K3. repeat split; [apply Rabs_def1; lra | lra | lra | lra | lra].
Qed.
Lemma top_all t : 272.9 <= t <= 623.2 -> 0 < Cp1R 100 t < 6.
Proof.
  intros H. assert (K : forall s, 272.9 <= s <= 623.2 -> within ((fun t => [Cp1R 100 t; s1R 100 t]) s) [(0%Q, 6%Q); (Qmake (-1) 10, 3.4%Q)]).
  { segs (top1_ok 4) (top1 4) [(0%Q, 6%Q); (Qmake (-1) 10, 3.4%Q)] 286156390%Z 653472564%Z. }
  specialize (K t H). cbv beta in K. revert K. generalize (Cp1R 100 t) (s1R 100 t). intros c s.
  cbn [within sym]. intros (K1 & _). q2 K1. lra.
Qed.
Definition satS (n : nat) (V : itv) (T : poly) : list itv := [ubound V (s1U V n (p4U V n T) T)].
Lemma satS_ok n V v T t : 273 <= t <= 647.1 -> inc V v -> pol v T t -> Forall2 inc (satS n V T) [s1R (p4R t) t].
Proof.
  intros R0 HV HT. unfold satS. apply Forall2_cons; [|apply Forall2_nil]. apply ubound_ok with v; [exact HV|].
  apply s1U_ok; [exact HV | apply p4U_ok; assumption | exact HT].
Qed.
Lemma satS_all t : 273.15 <= t <= 623.05 -> s1R (p4R t) t < 3.778.
Proof.
  intros H. assert (K : forall s, 273.15 <= s <= 623.05 -> within ((fun t => [s1R (p4R t) t]) s) [(Qmake (-1) 10, 3.778%Q)]).
  { assert (X : forall V v T t, 273.15 <= t <= 623.05 -> inc V v -> pol v T t -> Forall2 inc (satS 3 V T) [s1R (p4R t) t]) by (intros V v T t0 H0; apply satS_ok; lra).
    segs X (satS 3) [(Qmake (-1) 10, 3.778%Q)] 286418534%Z 653315278%Z. }
  specialize (K t H). cbv beta in K. revert K. generalize (s1R (p4R t) t). intros s.
  cbn [within sym]. intros (K1 & _). q2 K1. lra.
Qed.
