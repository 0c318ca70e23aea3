(** Covariance of the whole API, and the calls that break it. *)
From Coq Require Import ZArith Reals Lra List Bool.
From Verif Require Import Py ExactReal ModState ModConstants ModUnits ModXSteam ModXSteamHW
  SpecUnits SpecApi SpecCov SpecHW ProofUnits ProofCovariance ProofRange ProofHW.
Open Scope R_scope.

Section Cov.
Context {F : Fuel}.
Lemma covariance us c : wrong_quantity c = false -> covariant us c.
Proof.
  intros H. unfold covariant. destruct c as [f|f x|f x y|t hint|f|rho T|rho T]; cbn [in_units answer answer_quantity].
  - apply (cov_fn0 f us). intros ->. discriminate H.
  - apply (cov_fn1 f us x).
  - apply (cov_fn2 f); intros ->; discriminate H.
  - apply cov_pmelt.
  - destruct f; try discriminate H.
    + unfold hw_criticalTemperatur. now rewrite !from_T, user_BARE.
    + unfold hw_criticalPressure. now rewrite !from_p, user_BARE.
  - discriminate H.
  - discriminate H.
Qed.
Lemma criticalDensity_refuted : exists us, ~ covariant us (Call0 F_criticalDensity).
Proof.
  exists MKS. unfold covariant. cbn [in_units answer answer_quantity run0 sig0].
  destruct critical_density_MKS as [-> ->]. cbn. unfold to_user; cbn. intros [= E]. lra.
Qed.
Lemma hw_criticalDensity_refuted : exists us, ~ covariant us (CallHW0 HW_criticalDensity).
Proof.
  exists MKS. unfold covariant. cbn [in_units answer answer_quantity].
  destruct hw_critical_density_MKS as [-> ->]. cbn. unfold to_user; cbn. intros [= E]. lra.
Qed.
Lemma hw_my_refuted : exists us rho T, ~ covariant us (CallHWmy (Fin rho) (Fin T)).
Proof.
  exists MKS, 0, 300. unfold covariant. cbn [in_units answer answer_quantity].
  destruct hw_my_differs as (a & b & Ea & Eb & E).
  unfold user, to_user; cbn [lift1 origin factor shift].
  replace ((0 - 0) * 1 + 0) with 0 by lra. replace ((300 - 273.15) * 1 + 0) with 26.85 by lra.
  rewrite Ea, Eb. cbn. unfold to_user; cbn. intros [= K]. lra.
Qed.
Lemma hw_tc_refuted : exists us rho T, ~ covariant us (CallHWtc (Fin rho) (Fin T)).
Proof.
  exists MKS, 1000, 300. unfold covariant. cbn [in_units answer answer_quantity].
  destruct hw_tc_differs as (a & b & Ea & Eb & E).
  unfold user, to_user; cbn [lift1 origin factor shift].
  replace ((1000 - 0) * 1 + 0) with 1000 by lra. replace ((300 - 273.15) * 1 + 0) with 26.85 by lra.
  rewrite Ea, Eb. cbn. unfold to_user; cbn. intros [= K].
  replace (a - b) with 0 in E by lra. rewrite Rabs_R0 in E. lra.
Qed.
Lemma p_hrho_covariant us h rho r r' :
  answer us (in_units us (Call2 F_p_hrho h rho)) = Ok r -> answer BARE (Call2 F_p_hrho h rho) = Ok r' ->
  r = user us Qp r'.
Proof.
  cbn [in_units answer run2]. intros E1 E2. apply p_hrho_R in E1. apply p_hrho_R in E2.
  subst. now rewrite user_BARE.
Qed.
End Cov.
