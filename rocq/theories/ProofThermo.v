(** Thermodynamic identities of the four equations of state. *)
From Coq Require Import ZArith Reals Lra Lia List Bool.
From Coquelicot Require Import Coquelicot.
From Verif Require Import Py ExactReal RealSum ModConstants ModRegion1 ModRegion2 ModRegion3 ModRegion5
  ProofEos.
Import ListNotations.
Open Scope R_scope.

Definition dom1 (p T : R) := 0 < p < 117.363 /\ 0 < T < 1134.2.
Definition dom2 (p T : R) := 0 < p /\ 0 < T < 1080.
Definition dom5 (p T : R) := 0 < p /\ 0 < T.
Definition dom3 (rho T : R) := 0 < rho /\ 0 < T.

Lemma div_gt c a T : 0 < T -> a * T < c -> a < c / T.
Proof. intros H L. apply Rmult_lt_reg_r with T; [easy|]. unfold Rdiv. rewrite Rmult_assoc, Rinv_l by lra. lra. Qed.

Lemma a1_pos p T : dom1 p T -> 0 < a1 p.
Proof. unfold dom1, a1; intros [H _]. assert (p / 16.53 < 7.1) by (apply Rmult_lt_reg_r with 16.53; [lra|]; unfold Rdiv; rewrite Rmult_assoc, Rinv_l by lra; lra). lra. Qed.
Lemma b1_pos p T : dom1 p T -> 0 < b1 T.
Proof. unfold dom1, b1; intros [_ H]. assert (1.222 < 1386 / T) by (apply div_gt; lra). lra. Qed.
Lemma b2_pos p T : dom2 p T -> 0 < b2 T.
Proof. unfold dom2, b2; intros [_ H]. assert (0.5 < 540 / T) by (apply div_gt; lra). lra. Qed.
Lemma tau_pos c T : 0 < c -> 0 < T -> 0 < c / T.
Proof. intros; now apply Rdiv_lt_0_compat. Qed.

Lemma Fin_inj a b : Fin a = Fin b -> a = b.
Proof. now intros [= ->]. Qed.
Lemma pw2 x : powerRZ x 2 = x ^ 2.
Proof. reflexivity. Qed.

(** ** Region 1 *)
Definition v1R p T := - (0.461526 * T / 16.53 / 1000) * g1 1 0 p T.
Definition h1R p T := 0.461526 * 1386 * g1 0 1 p T.
Definition u1R p T := 0.461526 * T * (1386 / T * g1 0 1 p T + p / 16.53 * g1 1 0 p T).
Definition s1R p T := 0.461526 * (1386 / T * g1 0 1 p T - g1 0 0 p T).
Definition Cp1R p T := - (0.461526 * (1386 / T) ^ 2 * g1 0 2 p T).

Lemma eos1 p T : dom1 p T ->
  v1_pT (Fin p) (Fin T) = Ok (Fin (v1R p T)) /\ h1_pT (Fin p) (Fin T) = Ok (Fin (h1R p T)) /\
  u1_pT (Fin p) (Fin T) = Ok (Fin (u1R p T)) /\ s1_pT (Fin p) (Fin T) = Ok (Fin (s1R p T)) /\
  Cp1_pT (Fin p) (Fin T) = Ok (Fin (Cp1R p T)).
Proof.
  intros H. pose proof (a1_pos _ _ H). pose proof (b1_pos _ _ H).
  destruct H as [HA HB].
  rewrite v1_closed, h1_closed, u1_closed, s1_closed, Cp1_closed by lra.
  unfold v1R, h1R, u1R, s1R, Cp1R.
  rewrite ?pw2.
  repeat split; apply f_equal, f_equal. all: field; lra.
Qed.

Lemma g1_dT i j p T : dom1 p T ->
  is_derive (fun T => g1 i j p T) T (- 1386 / T ^ 2 * g1 i (S j) p T).
Proof.
  intros H. pose proof (b1_pos _ _ H). destruct H as [HA HB]. unfold g1.
  apply (comp_derive (fun b => S2 tab1 i j (a1 p) b) b1).
  - apply S2_db. lra.
  - unfold b1. eapply is_derive_eq.
    + apply Dminus; [apply Ddiv; [apply Dconst | apply Did | lra] | apply Dconst].
    + cbv beta; field. lra.
Qed.
Lemma g1_dp i j p T : dom1 p T ->
  is_derive (fun p => g1 i j p T) p (- / 16.53 * g1 (S i) j p T).
Proof.
  intros H. pose proof (a1_pos _ _ H). destruct H as [HA HB]. unfold g1.
  apply (comp_derive (fun a => S2 tab1 i j a (b1 T)) a1).
  - apply (S2_da tab1 i j (a1 p) (b1 T)). lra.
  - unfold a1. eapply is_derive_eq.
    + apply Dminus; [apply Dconst | apply Ddiv; [apply Did | apply Dconst | lra]].
    + cbv beta; field; lra.
Qed.

Ltac der := der_with ltac:(fun _ =>
  match goal with
  | |- is_derive (fun y => g1 ?i ?j ?p y) ?T _ => apply (g1_dT i j p T); assumption
  | |- is_derive (fun y => g1 ?i ?j y ?T) ?p _ => apply (g1_dp i j p T); assumption
  end).

Definition v1T p T := - (0.461526 / 16.53 / 1000) * (g1 1 0 p T - 1386 / T * g1 1 1 p T).
Definition v1p p T := 0.461526 * T / 16.53 ^ 2 / 1000 * g1 2 0 p T.

Lemma thermo1 p T : dom1 p T ->
  is_derive (fun T => h1R p T) T (Cp1R p T) /\
  is_derive (fun T => s1R p T) T (Cp1R p T / T) /\
  is_derive (fun T => v1R p T) T (v1T p T) /\
  is_derive (fun p => v1R p T) p (v1p p T) /\
  is_derive (fun p => s1R p T) p (- (1000 * v1T p T)) /\
  is_derive (fun p => h1R p T) p (1000 * (v1R p T - T * v1T p T)).
Proof.
  intros H. assert (T <> 0) by (unfold dom1 in H; lra).
  unfold h1R, s1R, v1R, Cp1R, v1T, v1p.
  splits; (eapply is_derive_eq; [der | cbv beta; field; lra]).
Qed.

(** Both in SI-like units of the code: kJ, MPa, m/s. *)
Lemma Cv1_thermo p T c : dom1 p T -> Cv1_pT (Fin p) (Fin T) = Ok (Fin c) ->
  v1p p T <> 0 /\ Cp1R p T - c = - (1000 * T * (v1T p T) ^ 2 / v1p p T).
Proof.
  intros H E. pose proof (a1_pos _ _ H). pose proof (b1_pos _ _ H). destruct H as [HA HB].
  apply Cv1_closed in E; try lra. destruct E as [N E]. apply Fin_inj in E; subst c.
  rewrite Rplus_0_l in N. rewrite ?pw2, ?Rplus_0_l. unfold v1p, v1T, Cp1R. split.
  - repeat (apply Rmult_integral_contrapositive_currified; try lra);
      apply Rinv_neq_0_compat; lra.
  - field. fin.
Qed.

Lemma w1_thermo p T c : dom1 p T -> w1_pT (Fin p) (Fin T) = Ok (Fin c) ->
  Cp1R p T <> 0 /\ v1p p T + 1000 * T / Cp1R p T * (v1T p T) ^ 2 <> 0 /\ 0 <= c /\
  c ^ 2 = - (10 ^ 6 * (v1R p T) ^ 2 / (v1p p T + 1000 * T / Cp1R p T * (v1T p T) ^ 2)).
Proof.
  intros H E. pose proof (a1_pos _ _ H). pose proof (b1_pos _ _ H). destruct H as [HA HB].
  apply w1_closed in E; try lra. cbv zeta in E. destruct E as (N1 & N2 & P & E). apply Fin_inj in E; subst c.
  rewrite ?pw2, ?Rplus_0_l in *.
  assert (G : g1 0 2 p T <> 0) by (intros Z; apply N1; rewrite Z; ring).
  assert (C : Cp1R p T <> 0).
  { unfold Cp1R. intros Z. apply N1. apply Ropp_eq_0_compat in Z. rewrite Ropp_involutive in Z.
    apply Rmult_eq_reg_l with 0.461526; [|lra]. rewrite <- Rmult_assoc. rewrite Z. ring. }
  assert (K : v1p p T + 1000 * T / Cp1R p T * (v1T p T) ^ 2
    = - (0.461526 * T / 16.53 ^ 2 / 1000)
      * ((- g1 1 0 p T - 1386 / T * - g1 1 1 p T) ^ 2 / ((1386 / T) ^ 2 * g1 0 2 p T) - g1 2 0 p T)).
  { unfold v1p, v1T, Cp1R. field. fin. }
  rewrite K. splits.
  - exact C.
  - apply Rmult_integral_contrapositive_currified; [|exact N2].
    apply Ropp_neq_0_compat. unfold Rdiv.
    repeat (apply Rmult_integral_contrapositive_currified; try lra); apply Rinv_neq_0_compat; lra.
  - apply R_sqrt.sqrt_pos.
  - rewrite pow2_sqrt by exact P.
    set (d2 := (- g1 1 0 p T - 1386 / T * - g1 1 1 p T) ^ 2 / ((1386 / T) ^ 2 * g1 0 2 p T) - g1 2 0 p T) in *.
    unfold v1R. field. lra.
Qed.

(** ** Region 2 *)
Definition v2R p T := 0.461526 * T * (1 / p + g2 1 0 p T) / 1000.
Definition h2R p T := 0.461526 * 540 * (o2 1 T + g2 0 1 p T).
Definition u2R p T := 0.461526 * T * (540 / T * (o2 1 T + g2 0 1 p T) - (1 + p * g2 1 0 p T)).
Definition s2R p T := 0.461526 * (540 / T * (o2 1 T + g2 0 1 p T) - (ln p + o2 0 T + g2 0 0 p T)).
Definition Cp2R p T := - (0.461526 * (540 / T) ^ 2 * (o2 2 T + g2 0 2 p T)).

Lemma side2 p T : dom2 p T -> p <> 0 /\ T <> 0 /\ 0 < 540 / T /\ 540 / T <> 0 /\ 0 < b2 T /\ b2 T <> 0.
Proof.
  intros H. pose proof (b2_pos _ _ H). destruct H as [HA HB].
  pose proof (tau_pos 540 T ltac:(lra) ltac:(lra)).  repeat split; lra.
Qed.

Lemma eos2 p T : dom2 p T ->
  v2_pT (Fin p) (Fin T) = Ok (Fin (v2R p T)) /\ h2_pT (Fin p) (Fin T) = Ok (Fin (h2R p T)) /\
  u2_pT (Fin p) (Fin T) = Ok (Fin (u2R p T)) /\ s2_pT (Fin p) (Fin T) = Ok (Fin (s2R p T)) /\
  Cp2_pT (Fin p) (Fin T) = Ok (Fin (Cp2R p T)).
Proof.
  intros H. destruct (side2 _ _ H) as (S1 & S2 & S3 & S4 & S5 & S6).
  destruct H as [HA HB].
  rewrite v2_closed, h2_closed, u2_closed, s2_closed, Cp2_closed by assumption.
  unfold v2R, h2R, u2R, s2R, Cp2R.
  rewrite ?pw2.
  repeat split; apply f_equal, f_equal. all: field; lra.
Qed.

Lemma g2_dT i j p T : dom2 p T ->
  is_derive (fun T => g2 i j p T) T (- 540 / T ^ 2 * g2 i (S j) p T).
Proof.
  intros H. destruct (side2 _ _ H) as (Q1 & Q2 & Q3 & Q4 & Q5 & Q6). unfold g2.
  apply (comp_derive (fun b => S2 tab2 i j p b) b2).
  - apply S2_db. lra.
  - unfold b2. eapply is_derive_eq.
    + apply Dminus; [apply Ddiv; [apply Dconst | apply Did | lra] | apply Dconst].
    + cbv beta; field. lra.
Qed.
Lemma o2_dT j p T : dom2 p T ->
  is_derive (fun T => o2 j T) T (- 540 / T ^ 2 * o2 (S j) T).
Proof.
  intros H. destruct (side2 _ _ H) as (Q1 & Q2 & Q3 & Q4 & Q5 & Q6). unfold o2.
  apply (comp_derive (fun b => S1 tab2o j b) (fun T => 540 / T)).
  - apply S1_db. lra.
  - eapply is_derive_eq.
    + apply Ddiv; [apply Dconst | apply Did | lra].
    + cbv beta; field. lra.
Qed.
Lemma g2_dp i j p T : dom2 p T ->
  is_derive (fun p => g2 i j p T) p (g2 (S i) j p T).
Proof.
  intros H. destruct (side2 _ _ H) as (Q1 & Q2 & Q3 & Q4 & Q5 & Q6). unfold g2.
  now apply (S2_da tab2 i j p (b2 T)).
Qed.

Definition v2T p T := 0.461526 / 1000 * (1 / p + g2 1 0 p T - 540 / T * g2 1 1 p T).
Definition v2p p T := 0.461526 * T / 1000 * (g2 2 0 p T - 1 / p ^ 2).

Lemma thermo2 p T : dom2 p T ->
  is_derive (fun T => h2R p T) T (Cp2R p T) /\
  is_derive (fun T => s2R p T) T (Cp2R p T / T) /\
  is_derive (fun T => v2R p T) T (v2T p T) /\
  is_derive (fun p => v2R p T) p (v2p p T) /\
  is_derive (fun p => s2R p T) p (- (1000 * v2T p T)) /\
  is_derive (fun p => h2R p T) p (1000 * (v2R p T - T * v2T p T)).
Proof.
  intros H. destruct (side2 _ _ H) as (Q1 & Q2 & Q3 & Q4 & Q5 & Q6).
  assert (Pp : 0 < p) by (unfold dom2 in H; lra).
  unfold h2R, s2R, v2R, Cp2R, v2T, v2p.
  splits; (eapply is_derive_eq; [der_with ltac:(fun _ =>
    match goal with
    | |- is_derive (fun y => g2 ?i ?j ?p y) ?T _ => apply (g2_dT i j p T); assumption
    | |- is_derive (fun y => g2 ?i ?j y ?T) ?p _ => apply (g2_dp i j p T); assumption
    | |- is_derive (fun y => o2 ?j y) ?T _ => apply (o2_dT j p T); assumption
    end) | cbv beta; field; lra]).
Qed.

Lemma Cv2_thermo p T c : dom2 p T -> Cv2_pT (Fin p) (Fin T) = Ok (Fin c) ->
  v2p p T <> 0 /\ Cp2R p T - c = - (1000 * T * (v2T p T) ^ 2 / v2p p T).
Proof.
  intros H E. destruct (side2 _ _ H) as (Q1 & Q2 & Q3 & Q4 & Q5 & Q6).
  apply Cv2_closed in E; try assumption. cbv zeta in E. destruct E as [N E]. apply Fin_inj in E; subst c.
  rewrite ?pw2, ?Rplus_0_l in *.
  assert (K : v2p p T = - (0.461526 * T / 1000 / p ^ 2) * (1 - p ^ 2 * g2 2 0 p T))
    by (unfold v2p; field; lra).
  rewrite K. split.
  - apply Rmult_integral_contrapositive_currified; [|exact N].
    apply Ropp_neq_0_compat. unfold Rdiv.
    repeat (apply Rmult_integral_contrapositive_currified; try lra); apply Rinv_neq_0_compat;
      first [lra | now apply pow_nonzero].
  - unfold v2T, Cp2R. field. fin.
Qed.

Lemma w2_thermo p T c : dom2 p T -> w2_pT (Fin p) (Fin T) = Ok (Fin c) ->
  Cp2R p T <> 0 /\ v2p p T + 1000 * T / Cp2R p T * (v2T p T) ^ 2 <> 0 /\ 0 <= c /\
  c ^ 2 = - (10 ^ 6 * (v2R p T) ^ 2 / (v2p p T + 1000 * T / Cp2R p T * (v2T p T) ^ 2)).
Proof.
  intros H E. destruct (side2 _ _ H) as (Q1 & Q2 & Q3 & Q4 & Q5 & Q6).
  apply w2_closed in E; try assumption. cbv zeta in E. destruct E as (N1 & N2 & P & E). apply Fin_inj in E; subst c.
  rewrite ?pw2, ?Rplus_0_l in *.
  assert (G : o2 2 T + g2 0 2 p T <> 0) by (intros Z; apply N1; rewrite Z; ring).
  assert (C : Cp2R p T <> 0).
  { unfold Cp2R. intros Z. apply N1. apply Ropp_eq_0_compat in Z. rewrite Ropp_involutive in Z.
    apply Rmult_eq_reg_l with 0.461526; [|lra]. rewrite <- Rmult_assoc. rewrite Z. ring. }
  assert (K : v2p p T + 1000 * T / Cp2R p T * (v2T p T) ^ 2
    = - (0.461526 * T / p ^ 2 / 1000)
      * (1 - p ^ 2 * g2 2 0 p T
         + (1 + p * g2 1 0 p T - 540 / T * p * g2 1 1 p T) ^ 2 / ((540 / T) ^ 2 * (o2 2 T + g2 0 2 p T)))).
  { unfold v2p, v2T, Cp2R. field. fin. }
  rewrite K. splits.
  - exact C.
  - apply Rmult_integral_contrapositive_currified; [|exact N2].
    apply Ropp_neq_0_compat. unfold Rdiv.
    repeat (apply Rmult_integral_contrapositive_currified; try lra); apply Rinv_neq_0_compat;
      first [lra | now apply pow_nonzero].
  - apply R_sqrt.sqrt_pos.
  - rewrite pow2_sqrt by exact P.
    set (d2 := 1 - p ^ 2 * g2 2 0 p T
         + (1 + p * g2 1 0 p T - 540 / T * p * g2 1 1 p T) ^ 2 / ((540 / T) ^ 2 * (o2 2 T + g2 0 2 p T))) in *.
    unfold v2R. field. fin.
Qed.

(** ** Region 5 *)
Definition v5R p T := 0.461526 * T * (1 / p + g5 1 0 p T) / 1000.
Definition h5R p T := 0.461526 * 1000 * (o5 1 T + g5 0 1 p T).
Definition u5R p T := 0.461526 * T * (1000 / T * (o5 1 T + g5 0 1 p T) - (1 + p * g5 1 0 p T)).
Definition s5R p T := 0.461526 * (1000 / T * (o5 1 T + g5 0 1 p T) - (ln p + o5 0 T + g5 0 0 p T)).
Definition Cp5R p T := - (0.461526 * (1000 / T) ^ 2 * (o5 2 T + g5 0 2 p T)).

Lemma side5 p T : dom5 p T -> p <> 0 /\ T <> 0 /\ 0 < 1000 / T /\ 1000 / T <> 0 /\ 0 < b5 T /\ b5 T <> 0.
Proof.
  intros H.  destruct H as [HA HB].
  pose proof (tau_pos 1000 T ltac:(lra) ltac:(lra)). unfold b5. repeat split; lra.
Qed.

Lemma eos5 p T : dom5 p T ->
  v5_pT (Fin p) (Fin T) = Ok (Fin (v5R p T)) /\ h5_pT (Fin p) (Fin T) = Ok (Fin (h5R p T)) /\
  u5_pT (Fin p) (Fin T) = Ok (Fin (u5R p T)) /\ s5_pT (Fin p) (Fin T) = Ok (Fin (s5R p T)) /\
  Cp5_pT (Fin p) (Fin T) = Ok (Fin (Cp5R p T)).
Proof.
  intros H. destruct (side5 _ _ H) as (S1 & S2 & S3 & S4 & S5 & S6).
  destruct H as [HA HB].
  rewrite v5_closed, h5_closed, u5_closed, s5_closed, Cp5_closed by assumption.
  unfold v5R, h5R, u5R, s5R, Cp5R.
  rewrite ?pw2.
  repeat split; apply f_equal, f_equal. all: field; lra.
Qed.

Lemma g5_dT i j p T : dom5 p T ->
  is_derive (fun T => g5 i j p T) T (- 1000 / T ^ 2 * g5 i (S j) p T).
Proof.
  intros H. destruct (side5 _ _ H) as (Q1 & Q2 & Q3 & Q4 & Q5 & Q6). unfold g5.
  apply (comp_derive (fun b => S2 tab5 i j p b) b5).
  - apply S2_db. lra.
  - unfold b5. eapply is_derive_eq.
    + apply Ddiv; [apply Dconst | apply Did | lra].
    + cbv beta; field. lra.
Qed.
Lemma o5_dT j p T : dom5 p T ->
  is_derive (fun T => o5 j T) T (- 1000 / T ^ 2 * o5 (S j) T).
Proof.
  intros H. destruct (side5 _ _ H) as (Q1 & Q2 & Q3 & Q4 & Q5 & Q6). unfold o5.
  apply (comp_derive (fun b => S1 tab5o j b) (fun T => 1000 / T)).
  - apply S1_db. lra.
  - eapply is_derive_eq.
    + apply Ddiv; [apply Dconst | apply Did | lra].
    + cbv beta; field. lra.
Qed.
Lemma g5_dp i j p T : dom5 p T ->
  is_derive (fun p => g5 i j p T) p (g5 (S i) j p T).
Proof.
  intros H. destruct (side5 _ _ H) as (Q1 & Q2 & Q3 & Q4 & Q5 & Q6). unfold g5.
  now apply (S2_da tab5 i j p (b5 T)).
Qed.

Definition v5T p T := 0.461526 / 1000 * (1 / p + g5 1 0 p T - 1000 / T * g5 1 1 p T).
Definition v5p p T := 0.461526 * T / 1000 * (g5 2 0 p T - 1 / p ^ 2).

Lemma thermo5 p T : dom5 p T ->
  is_derive (fun T => h5R p T) T (Cp5R p T) /\
  is_derive (fun T => s5R p T) T (Cp5R p T / T) /\
  is_derive (fun T => v5R p T) T (v5T p T) /\
  is_derive (fun p => v5R p T) p (v5p p T) /\
  is_derive (fun p => s5R p T) p (- (1000 * v5T p T)) /\
  is_derive (fun p => h5R p T) p (1000 * (v5R p T - T * v5T p T)).
Proof.
  intros H. destruct (side5 _ _ H) as (Q1 & Q2 & Q3 & Q4 & Q5 & Q6).
  assert (Pp : 0 < p) by (unfold dom5 in H; lra).
  unfold h5R, s5R, v5R, Cp5R, v5T, v5p.
  splits; (eapply is_derive_eq; [der_with ltac:(fun _ =>
    match goal with
    | |- is_derive (fun y => g5 ?i ?j ?p y) ?T _ => apply (g5_dT i j p T); assumption
    | |- is_derive (fun y => g5 ?i ?j y ?T) ?p _ => apply (g5_dp i j p T); assumption
    | |- is_derive (fun y => o5 ?j y) ?T _ => apply (o5_dT j p T); assumption
    end) | cbv beta; field; lra]).
Qed.

Lemma Cv5_thermo p T c : dom5 p T -> Cv5_pT (Fin p) (Fin T) = Ok (Fin c) ->
  v5p p T <> 0 /\ Cp5R p T - c = - (1000 * T * (v5T p T) ^ 2 / v5p p T).
Proof.
  intros H E. destruct (side5 _ _ H) as (Q1 & Q2 & Q3 & Q4 & Q5 & Q6).
  apply Cv5_closed in E; try assumption. cbv zeta in E. destruct E as [N E]. apply Fin_inj in E; subst c.
  rewrite ?pw2, ?Rplus_0_l in *.
  assert (K : v5p p T = - (0.461526 * T / 1000 / p ^ 2) * (1 - p ^ 2 * g5 2 0 p T))
    by (unfold v5p; field; lra).
  rewrite K. split.
  - apply Rmult_integral_contrapositive_currified; [|exact N].
    apply Ropp_neq_0_compat. unfold Rdiv.
    repeat (apply Rmult_integral_contrapositive_currified; try lra); apply Rinv_neq_0_compat;
      first [lra | now apply pow_nonzero].
  - unfold v5T, Cp5R. field. fin.
Qed.

Lemma w5_thermo p T c : dom5 p T -> w5_pT (Fin p) (Fin T) = Ok (Fin c) ->
  Cp5R p T <> 0 /\ v5p p T + 1000 * T / Cp5R p T * (v5T p T) ^ 2 <> 0 /\ 0 <= c /\
  c ^ 2 = - (10 ^ 6 * (v5R p T) ^ 2 / (v5p p T + 1000 * T / Cp5R p T * (v5T p T) ^ 2)).
Proof.
  intros H E. destruct (side5 _ _ H) as (Q1 & Q2 & Q3 & Q4 & Q5 & Q6).
  apply w5_closed in E; try assumption. cbv zeta in E. destruct E as (N1 & N2 & P & E). apply Fin_inj in E; subst c.
  rewrite ?pw2, ?Rplus_0_l in *.
  assert (G : o5 2 T + g5 0 2 p T <> 0) by (intros Z; apply N1; rewrite Z; ring).
  assert (C : Cp5R p T <> 0).
  { unfold Cp5R. intros Z. apply N1. apply Ropp_eq_0_compat in Z. rewrite Ropp_involutive in Z.
    apply Rmult_eq_reg_l with 0.461526; [|lra]. rewrite <- Rmult_assoc. rewrite Z. ring. }
  assert (K : v5p p T + 1000 * T / Cp5R p T * (v5T p T) ^ 2
    = - (0.461526 * T / p ^ 2 / 1000)
      * (1 - p ^ 2 * g5 2 0 p T
         + (1 + p * g5 1 0 p T - 1000 / T * p * g5 1 1 p T) ^ 2 / ((1000 / T) ^ 2 * (o5 2 T + g5 0 2 p T)))).
  { unfold v5p, v5T, Cp5R. field. fin. }
  rewrite K. splits.
  - exact C.
  - apply Rmult_integral_contrapositive_currified; [|exact N2].
    apply Ropp_neq_0_compat. unfold Rdiv.
    repeat (apply Rmult_integral_contrapositive_currified; try lra); apply Rinv_neq_0_compat;
      first [lra | now apply pow_nonzero].
  - apply R_sqrt.sqrt_pos.
  - rewrite pow2_sqrt by exact P.
    set (d2 := 1 - p ^ 2 * g5 2 0 p T
         + (1 + p * g5 1 0 p T - 1000 / T * p * g5 1 1 p T) ^ 2 / ((1000 / T) ^ 2 * (o5 2 T + g5 0 2 p T))) in *.
    unfold v5R. field. fin.
Qed.

(** ** Region 3 *)
Definition p3R rho T := rho * 0.461526 * T * dl rho * fd rho T / 1000.
Definition u3R rho T := 0.461526 * 647.096 * f3 0 1 rho T.
Definition h3R rho T := 0.461526 * T * (ta T * f3 0 1 rho T + dl rho * fd rho T).
Definition s3R rho T := 0.461526 * (ta T * f3 0 1 rho T - (f3 0 0 rho T + n3 * ln (dl rho))).
Definition Cv3R rho T := - (0.461526 * (ta T) ^ 2 * f3 0 2 rho T).

Lemma side3 rho T : dom3 rho T -> 0 < rho /\ 0 < T /\ 0 < dl rho /\ 0 < ta T /\ dl rho <> 0 /\ ta T <> 0
  /\ rho <> 0 /\ T <> 0.
Proof.
  intros [H1 H2]. unfold dl, ta.
  pose proof (tau_pos 647.096 T ltac:(lra) H2). repeat split; lra.
Qed.

Lemma eos3 rho T : dom3 rho T ->
  p3_rhoT (Fin rho) (Fin T) = Ok (Fin (p3R rho T)) /\ h3_rhoT (Fin rho) (Fin T) = Ok (Fin (h3R rho T)) /\
  u3_rhoT (Fin rho) (Fin T) = Ok (Fin (u3R rho T)) /\ s3_rhoT (Fin rho) (Fin T) = Ok (Fin (s3R rho T)) /\
  Cv3_rhoT (Fin rho) (Fin T) = Ok (Fin (Cv3R rho T)).
Proof.
  intros H. destruct (side3 _ _ H) as (Q1 & Q2 & Q3 & Q4 & Q5 & Q6 & Q7 & Q8).
  rewrite p3_closed, h3_closed, u3_closed, s3_closed, Cv3_closed by assumption.
  replace 1000.0 with 1000 by lra.
  unfold p3R, h3R, u3R, s3R, Cv3R. rewrite !Rplus_0_l.
  repeat split; apply f_equal, f_equal; try ring.
  unfold ta. field. assumption.
Qed.

Lemma f3_dT i j rho T : dom3 rho T ->
  is_derive (fun T => f3 i j rho T) T (- (647.096 / T ^ 2) * f3 i (S j) rho T).
Proof.
  intros H. destruct (side3 _ _ H) as (Q1 & Q2 & Q3 & Q4 & Q5 & Q6 & Q7 & Q8). unfold f3.
  apply (comp_derive (fun b => S2 tab3 i j (dl rho) b) ta).
  - apply S2_db. lra.
  - unfold ta. eapply is_derive_eq.
    + apply Ddiv; [apply Dconst | apply Did | lra].
    + cbv beta; field. lra.
Qed.
Lemma f3_drho i j rho T : dom3 rho T ->
  is_derive (fun rho => f3 i j rho T) rho (/ 322.0 * f3 (S i) j rho T).
Proof.
  intros H. destruct (side3 _ _ H) as (Q1 & Q2 & Q3 & Q4 & Q5 & Q6 & Q7 & Q8). unfold f3.
  apply (comp_derive (fun a => S2 tab3 i j a (ta T)) dl).
  - apply (S2_da tab3 i j (dl rho) (ta T)). lra.
  - unfold dl. eapply is_derive_eq.
    + apply Ddiv; [apply Did | apply Dconst | lra].
    + cbv beta; field. lra.
Qed.
Lemma ln_dl rho : 0 < rho -> is_derive (fun rho => ln (dl rho)) rho (/ rho).
Proof.
  intros H. eapply is_derive_eq.
  - apply (comp_derive ln dl); [apply Dln; unfold dl; lra |].
    unfold dl. apply Ddiv; [apply Did | apply Dconst | lra].
  - unfold dl. cbv beta. field. lra.
Qed.

Definition p3T rho T := rho * 0.461526 * dl rho * (fd rho T - ta T * f3 1 1 rho T) / 1000.
Definition p3rho rho T := 0.461526 * T * (2 * dl rho * fd rho T + dl rho ^ 2 * fdd rho T) / 1000.

Lemma thermo3 rho T : dom3 rho T ->
  is_derive (fun T => u3R rho T) T (Cv3R rho T) /\
  is_derive (fun T => s3R rho T) T (Cv3R rho T / T) /\
  is_derive (fun T => p3R rho T) T (p3T rho T) /\
  is_derive (fun rho => p3R rho T) rho (p3rho rho T) /\
  is_derive (fun rho => s3R rho T) rho (- (1000 * p3T rho T / rho ^ 2)) /\
  is_derive (fun rho => u3R rho T) rho (1000 * (p3R rho T - T * p3T rho T) / rho ^ 2).
Proof.
  intros H. destruct (side3 _ _ H) as (Q1 & Q2 & Q3 & Q4 & Q5 & Q6 & Q7 & Q8).
  unfold u3R, s3R, p3R, Cv3R, p3T, p3rho, fd, fdd.
  splits; (eapply is_derive_eq; [unfold ta, dl; der_with ltac:(fun _ =>
    match goal with
    | |- is_derive (fun y => f3 ?i ?j ?p y) ?T _ => apply (f3_dT i j p T); assumption
    | |- is_derive (fun y => f3 ?i ?j y ?T) ?p _ => apply (f3_drho i j p T); assumption
    | |- is_derive (fun y => ln (y / 322.0)) _ _ => apply ln_dl; assumption
    end) | rewrite ?pw2; unfold ta, dl; cbv beta; field; lra]).
Qed.

Lemma Cp3_thermo rho T c : dom3 rho T -> Cp3_rhoT (Fin rho) (Fin T) = Ok (Fin c) ->
  p3rho rho T <> 0 /\ c - Cv3R rho T = 1000 * T * (p3T rho T) ^ 2 / (rho ^ 2 * p3rho rho T).
Proof.
  intros H E. destruct (side3 _ _ H) as (Q1 & Q2 & Q3 & Q4 & Q5 & Q6 & Q7 & Q8).
  apply Cp3_closed in E; try assumption. cbv zeta in E. destruct E as [N E]. apply Fin_inj in E; subst c.
  rewrite ?pw2, ?Rplus_0_l in *. unfold p3rho. split.
  - unfold Rdiv. repeat (apply Rmult_integral_contrapositive_currified; try lra); try exact N.
  - unfold p3T, Cv3R. field. fin.
Qed.

Lemma w3_thermo rho T c : dom3 rho T -> w3_rhoT (Fin rho) (Fin T) = Ok (Fin c) ->
  Cv3R rho T <> 0 /\ 0 <= c /\
  c ^ 2 = 10 ^ 6 * (p3rho rho T + 1000 * T * (p3T rho T) ^ 2 / (rho ^ 2 * Cv3R rho T)).
Proof.
  intros H E. destruct (side3 _ _ H) as (Q1 & Q2 & Q3 & Q4 & Q5 & Q6 & Q7 & Q8).
  apply w3_closed in E; try assumption. cbv zeta in E. destruct E as (N1 & P & E). apply Fin_inj in E; subst c.
  rewrite ?pw2, ?Rplus_0_l in *.
  assert (G : f3 0 2 rho T <> 0) by (intros Z; apply N1; rewrite Z; ring).
  splits.
  - unfold Cv3R. intros Z. apply N1. apply Ropp_eq_0_compat in Z. rewrite Ropp_involutive in Z.
    apply Rmult_eq_reg_l with 0.461526; [|lra]. rewrite <- Rmult_assoc. rewrite Z. ring.
  - apply R_sqrt.sqrt_pos.
  - rewrite pow2_sqrt by exact P. unfold p3rho, p3T, Cv3R. field. fin.
Qed.
