(** The saturated states of region 3 satisfy its fundamental equation; neighbouring regions agree on their borders. *)
From Coq Require Import ZArith Reals Lra Lia List Bool.
From Verif Require Import Py ExactReal ModState ModConstants ModUnits ModBorders ModRegion1 ModRegion2 ModRegion3 ModRegion5 ModSelect ModXSteam SpecUnits SpecApi SpecRange
  SpecThermo SpecWet SpecWet2 RealSum ProofUnits ProofCovariance ProofSat ProofSatApi ProofEos ProofThermo ProofThermoApi ProofMisc ProofIce ProofWet ProofWetApi ProofWet2 ProofWet3
  ProofDense ProofDense2 BoundY Bound1 Bound2 ProofWet4.
From Interval Require Import Tactic.
Open Scope R_scope.

Section S.
Context {F : Fuel}.
Ltac up1 f us p :=
  let V := fresh "V" in
  pose proof (via1 f us (Fin p)) as V; cbn [run1 sig1 fst snd si lift1] in V; rewrite V; clear V.
Lemma fundamental us p : 16.529 <= to_si us Qp p < 22.06395 -> enough us p ->
  exists hl hv vl vv T,
  hL_p us (Fin p) = Ok (Fin hl) /\ hV_p us (Fin p) = Ok (Fin hv) /\ vL_p us (Fin p) = Ok (Fin vl) /\ vV_p us (Fin p) = Ok (Fin vv) /\
  tsat_p us (Fin p) = Ok (Fin T) /\
  (exists q, p3_rhoT (Fin (1 / to_si us Qv vl)) (Fin (to_si us QT T)) = Ok (Fin q) /\ Rabs (q - to_si us Qp p) < 0.0004) /\
  (exists q, p3_rhoT (Fin (1 / to_si us Qv vv)) (Fin (to_si us QT T)) = Ok (Fin q) /\ Rabs (q - to_si us Qp p) < 0.0001) /\
  (exists q, h3_rhoT (Fin (1 / to_si us Qv vl)) (Fin (to_si us QT T)) = Ok (Fin q) /\ Rabs (q - to_si us Qh hl) < 0.006) /\
  (exists q, h3_rhoT (Fin (1 / to_si us Qv vv)) (Fin (to_si us QT T)) = Ok (Fin q) /\ Rabs (q - to_si us Qh hv) < 0.007).
Proof.
  intros H E. destruct (dense_ok (to_si us Qp p) H (E (proj1 H))) as (hl & hv & sl & sv & vl & vv & ul & uv & Q).
  pose proof (dense_wet _ _ _ _ _ _ _ _ _ H Q) as W.
  destruct (sat_user us p _ _ _ _ _ _ _ _ _ W) as (E1 & E2 & _ & _ & E3 & E4 & _).
  exists (to_user us Qh hl), (to_user us Qh hv), (to_user us Qv vl), (to_user us Qv vv), (to_user us QT (T4R (to_si us Qp p))).
  repeat (split; [assumption|]). split; [up1 F_tsat_p us p; now rewrite (w_T _ _ _ _ _ _ _ _ _ _ W)|]. rewrite !to_si_to_user.
  split; [apply (d_pl _ _ _ _ _ _ _ _ _ Q)|]. split; [apply (d_pv _ _ _ _ _ _ _ _ _ Q)|].
  split; [apply (d_el _ _ _ _ _ _ _ _ _ Q)|]. apply (d_ev _ _ _ _ _ _ _ _ _ Q).
Qed.
End S.

Lemma join13 p : 16.5292 <= p <= 100 -> exists v h s q h' s',
  v1_pT (Fin p) (Fin 623.15) = Ok (Fin v) /\ h1_pT (Fin p) (Fin 623.15) = Ok (Fin h) /\ s1_pT (Fin p) (Fin 623.15) = Ok (Fin s) /\
  p3_rhoT (Fin (1 / v)) (Fin 623.15) = Ok (Fin q) /\ h3_rhoT (Fin (1 / v)) (Fin 623.15) = Ok (Fin h') /\ s3_rhoT (Fin (1 / v)) (Fin 623.15) = Ok (Fin s') /\
  Rabs (q - p) < 0.016 /\ Rabs (h' - h) < 0.025 /\ Rabs (s' - s) < 0.00007.
Proof.
  intros H. pose proof (j13_all p ltac:(lra)) as J. cbv zeta in J.
  destruct (eos1 p 623.15 ltac:(unfold dom1; lra)) as (E1 & E2 & _ & E3 & _).
  assert (V : 0 < v1R p 623.15) .
  { assert (Q : p4R 623.15 <= 16.5292) by (unfold p4R, be, th, qA, qB, qC; interval with (i_prec 80)).
    destruct (signs1 p 623.15 ltac:(lra) ltac:(lra)) as (S & _). unfold v1R.
    apply Rmult_lt_compat_l with (r := 0.461526 * 623.15 / 16.53 / 1000) in S; lra. }
  assert (D : 0 < 1 / v1R p 623.15) by (apply Rdiv_lt_0_compat; lra).
  destruct (eos3 (1 / v1R p 623.15) 623.15 ltac:(unfold dom3; lra)) as (E4 & E5 & _ & E6 & _).
  do 6 eexists. repeat (split; [eassumption|]). exact J.
Qed.
Lemma join23 t : 623.15 <= t <= 863.15 -> exists p v h s q h' s', B23p_T (Fin t) = Ok (Fin p) /\
  v2_pT (Fin p) (Fin t) = Ok (Fin v) /\ h2_pT (Fin p) (Fin t) = Ok (Fin h) /\ s2_pT (Fin p) (Fin t) = Ok (Fin s) /\
  p3_rhoT (Fin (1 / v)) (Fin t) = Ok (Fin q) /\ h3_rhoT (Fin (1 / v)) (Fin t) = Ok (Fin h') /\ s3_rhoT (Fin (1 / v)) (Fin t) = Ok (Fin s') /\
  Rabs (q - p) < 0.008 /\ Rabs (h' - h) < 0.1 /\ Rabs (s' - s) < 0.00012.
Proof.
  intros H. pose proof (j23_all t H) as J. cbv zeta in J.
  assert (P : 16 < p23R t < 101) by (unfold p23R; nra).
  destruct (eos2 (p23R t) t ltac:(unfold dom2; lra)) as (E1 & E2 & _ & E3 & _).
  assert (V : 0 < v2R (p23R t) t) .
  { destruct (signs2_b23 (p23R t) t H ltac:(lra)) as (S & _). unfold v2R.
    set (p := p23R t) in *. clearbody p. set (g := g2 1 0 p t) in *. clearbody g.
    replace (1 / p + g) with ((1 + p * g) / p) by (field; lra). assert (0 < (1 + p * g) / p) by (apply Rdiv_lt_0_compat; lra).
    assert (0 < 0.461526 * t * ((1 + p * g) / p)) by (apply Rmult_lt_0_compat; lra). lra. }
  assert (D : 0 < 1 / v2R (p23R t) t) by (apply Rdiv_lt_0_compat; lra).
  destruct (eos3 (1 / v2R (p23R t) t) t ltac:(unfold dom3; lra)) as (E4 & E5 & _ & E6 & _).
  exists (p23R t). do 6 eexists. split; [rewrite B23p_closed; do 2 f_equal; unfold q23, p23R, n1, n2, n3; lra|].
  repeat (split; [eassumption|]). exact J.
Qed.
Lemma join25 p : 0 < p <= 10 -> exists v h s v' h' s',
  v2_pT (Fin p) (Fin 1073.15) = Ok (Fin v) /\ h2_pT (Fin p) (Fin 1073.15) = Ok (Fin h) /\ s2_pT (Fin p) (Fin 1073.15) = Ok (Fin s) /\
  v5_pT (Fin p) (Fin 1073.15) = Ok (Fin v') /\ h5_pT (Fin p) (Fin 1073.15) = Ok (Fin h') /\ s5_pT (Fin p) (Fin 1073.15) = Ok (Fin s') /\
  Rabs (v' - v) < 0.00001 /\ Rabs (h' - h) < 0.021 /\ Rabs (s' - s) < 0.00005.
Proof.
  intros H. pose proof (j25_all p H) as J. cbv zeta in J. destruct J as (J1 & J2 & J3).
  destruct (eos2 p 1073.15 ltac:(unfold dom2; lra)) as (E1 & E2 & _ & E3 & _).
  destruct (eos5 p 1073.15 ltac:(unfold dom5; lra)) as (E4 & E5 & _ & E6 & _).
  do 6 eexists. repeat (split; [eassumption|]). repeat split; assumption.
Qed.
