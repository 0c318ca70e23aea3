(** Sample states for the transport properties. *)
From Coq Require Import ZArith Reals Lra Lia List Bool.
From Interval Require Import Tactic.
From Verif Require Import Py ExactReal ModState ModConstants ModUnits ModRegion1 ModRegion2 ModRegion3 ModRegion4
  ModRegion5 ModSelect ModTransport ModXSteam SpecUnits SpecApi SpecHW SpecTransport SpecThermo ProofUnits ProofCovariance RealSum
  ProofEos ProofSat ProofSatApi ProofThermoApi ProofThermo ProofHW ProofIce ProofGeneric ProofMisc ProofWet ProofExamples ProofTransport ProofConduct ProofBack.
Import ListNotations.
Open Scope R_scope.

Section Ex.
Context {F : Fuel}.
Lemma rho_1_400 : exists rho, rho_pt BARE (Fin 1) (Fin 400) = Ok (Fin rho) /\ 900 < rho < 1001.
Proof.
  unfold rho_pt. destruct (api_pT _ _ _ (inside_at _ _ _ inside_1)) as (V & _); [auto|].
  rewrite V. cbn [pick Z.eqb Pos.eqb].
  destruct (eos1 1 400 ltac:(unfold dom1; lra)) as (-> & _). cbn [bind].
  assert (H : 0.001 < v1R 1 400 < 0.0011) by (split; reals; interval with (i_prec 60)).
  cbn [div RNum lit]. rewrite xdiv_Fin by lra. eexists. split; [reflexivity|].
  change (D 1%dec) with 1. set (v := v1R 1 400) in *. clearbody v. split; interval.
Qed.
Lemma region_1_500 : region_ph (Fin 1) (Fin 500) = Ok 1%Z.
Proof.
  unfold region_ph. cbn [add mul RNum lit lift2]. cmps. cbn [bind].
  rewrite (proj1 (T4_low 1 low_1)). cbn [bind]. rewrite log_Fin by lra. rewrite ln_1. cbn [bind].
  cbn [add mul sub fabs RNum lit lift2 lift1].
  rewrite (Rabs_left (500 - _)) by (undec; lra). cmps. cbn [bind]. cmps. reflexivity.
Qed.
Lemma T1_1_500 : 392 < S2 tabT1h 0 0 1 (500 / 2500 + 1) < 393.
Proof.
  split; reals; interval with (i_prec 80).
Qed.
Lemma t_1_500 : exists T rho, t_ph BARE (Fin 1) (Fin 500) = Ok (Fin T) /\ 392 < T < 393 /\
   rho_ph BARE (Fin 1) (Fin 500) = Ok (Fin rho) /\ 0 < rho.
Proof.
  set (T := S2 tabT1h 0 0 1 (500 / 2500 + 1)).
  assert (HT : 392 < T < 393) by exact T1_1_500.
  assert (V : v1_pT (Fin 1) (Fin T) = Ok (Fin (v1R 1 T))).
  { destruct (eos1 1 T ltac:(unfold dom1; lra)) as (-> & _). reflexivity. }
  assert (P : 0 < v1R 1 T) by (clearbody T; clear V; reals; interval with (i_prec 60, i_bisect T)).
  exists T, (1 / v1R 1 T). unfold t_ph, rho_ph, v_ph. bare. rewrite region_1_500. cbn [bind Z.eqb Pos.eqb].
  rewrite T1_ph_closed. fold T. cbn [bind]. rewrite V. cbn [bind]. bare.
  cbn [div RNum lit]. rewrite xdiv_Fin by lra. change (D 1%dec) with 1.
  repeat split; try lra. apply Rdiv_lt_0_compat; lra.
Qed.
Lemma ex_my_pt : exists m, my_pt BARE (Fin 1) (Fin 400) = Ok (Fin m).
Proof.
  destruct rho_1_400 as (rho & E & H). eexists. apply my_pt_bare. exists rho. repeat split; [exact E | lra].
Qed.
Lemma ex_my_ph : exists m, my_ph BARE (Fin 1) (Fin 500) = Ok (Fin m).
Proof.
  destruct t_1_500 as (T & rho & E1 & HT & E2 & Hr). eexists.
  apply (my_ph_bare_conv 1 500 1 rho T region_1_500); [unfold flows; auto | exact E1 | exact E2 | lra].
Qed.
Lemma ex_tc_pt : exists k, tc_pt BARE (Fin 1) (Fin 400) = Ok (Fin k).
Proof.
  destruct rho_1_400 as (rho & E & H).
  destruct (ctail_num 400 rho ltac:(lra) ltac:(lra)) as (k & _ & K). exists k. apply tc_pt_bare.
  exists rho. repeat split; [exact E | lra | lra | unfold cond_range; lra | exact K].
Qed.
Lemma ex_tc_ph : exists k, tc_ph BARE (Fin 1) (Fin 500) = Ok (Fin k).
Proof.
  destruct t_1_500 as (T & rho & E1 & HT & E2 & Hr).
  destruct (ctail_num T rho ltac:(lra) ltac:(lra)) as (k & _ & K). exists k. apply tc_ph_bare.
  exists rho, T. repeat split; [exact E2 | exact E1 | lra | lra | unfold cond_range; lra | exact K].
Qed.
Lemma ex_pr_pt : exists x, pr_pt BARE (Fin 1) (Fin 400) = Ok (Fin x).
Proof.
  destruct ex_my_pt as (m & Em), ex_tc_pt as (k & Ek). pose proof (tc_pt_pos _ _ _ _ Ek) as P.
  destruct (api_pT _ _ _ (inside_at _ _ _ inside_1)) as (_ & _ & _ & _ & C & _); [auto|].
  cbn [pick Z.eqb Pos.eqb] in C. destruct (eos1 1 400 ltac:(unfold dom1; lra)) as (_ & _ & _ & _ & C1).
  rewrite C1 in C. eexists. apply pr_pt_any. do 3 eexists. repeat split; [exact C | exact Em | exact Ek |].
  apply Rgt_not_eq. now apply tc_scale.
Qed.
End Ex.
