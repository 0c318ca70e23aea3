(** Regions at high temperature, wet steam temperature, constants, and sample states. *)
From Coq Require Import ZArith Reals Lra Lia List Bool.
From Interval Require Import Tactic.
From Verif Require Import Py ExactReal ModState ModConstants ModUnits ModBorders ModRegion1 ModRegion2
  ModRegion4 ModRegion5 ModSelect ModXSteam ModXSteamHW SpecUnits SpecApi SpecRange SpecThermo ProofUnits
  ProofCovariance ProofGeneric RealSum ProofEos ProofThermo ProofSat ProofSatApi ProofThermoApi.
Open Scope R_scope.
Local Notation sqrt := R_sqrt.sqrt.

(** Unfold tables and sums down to real operations. *)
Ltac reals := cbv -[Rplus Rmult Rdiv Rminus Ropp Rinv powerRZ IZR Rlt Rle Rge Rgt ln Rpower R_sqrt.sqrt Rabs pow].

(** ** Wet steam temperature, any arithmetic *)
Section Any.
Context {N : Num} {F : Fuel}.
Lemma wet_ph us p h p' h' : toSIunit_p us p = Ok p' -> toSIunit_h us h = Ok h' ->
  region_ph p' h' = Ok 4%Z -> ((#0.000611657 <? p') && (p' <? #22.06395))%num = true ->
  t_ph us p h = tsat_p us p.
Proof.
  intros Ep Eh Er G. rewrite (wet_t_ph us p h p' h' Ep Eh Er). unfold tsat_p. rewrite Ep. cbn [bind].
  rewrite andb_comm in G. now first [rewrite G | rewrite andb_comm, G].
Qed.
Lemma wet_ps us p s p' s' : toSIunit_p us p = Ok p' -> toSIunit_s us s = Ok s' ->
  region_ps p' s' = Ok 4%Z -> ((#0.000611657 <? p') && (p' <? #22.06395))%num = true ->
  t_ps us p s = tsat_p us p.
Proof.
  intros Ep Eh Er G. rewrite (wet_t_ps us p s p' s' Ep Eh Er). unfold tsat_p. rewrite Ep. cbn [bind].
  rewrite andb_comm in G. now first [rewrite G | rewrite andb_comm, G].
Qed.
End Any.

Section Real.
Context {F : Fuel}.
Lemma gate_R p : 0.000611657 < p < 22.06395 ->
  ((lit (Num := RNum) 0.000611657%dec <? Fin p) && (Fin p <? lit 22.06395%dec))%num = true.
Proof. intros H. cbn [ltb RNum lit cmp]. rewrite !Rltb_true; [reflexivity | |]; undec; lra. Qed.
Lemma wet_ph_R us p h : region_ph (Fin (to_si us Qp p)) (Fin (to_si us Qh h)) = Ok 4%Z ->
  0.000611657 < to_si us Qp p < 22.06395 -> t_ph us (Fin p) (Fin h) = tsat_p us (Fin p).
Proof.
  intros Er G. apply (wet_ph (N := RNum) us (Fin p) (Fin h) (Fin (to_si us Qp p)) (Fin (to_si us Qh h))).
  - apply to_p. - apply to_h. - exact Er. - now apply gate_R.
Qed.
Lemma wet_ps_R us p s : region_ps (Fin (to_si us Qp p)) (Fin (to_si us Qs s)) = Ok 4%Z ->
  0.000611657 < to_si us Qp p < 22.06395 -> t_ps us (Fin p) (Fin s) = tsat_p us (Fin p).
Proof.
  intros Er G. apply (wet_ps (N := RNum) us (Fin p) (Fin s) (Fin (to_si us Qp p)) (Fin (to_si us Qs s))).
  - apply to_p. - apply to_s. - exact Er. - now apply gate_R.
Qed.

(** ** Region 5 above 10 MPa *)
Lemma region_5_R p y : 10 < p ->
  region_ph (Fin p) (Fin y) <> Ok 5%Z /\ region_ps (Fin p) (Fin y) <> Ok 5%Z /\
  region_prho (Fin p) (Fin y) <> Ok 5%Z.
Proof.
  intros H. repeat split; intros E.
  - apply region_ph_5 in E. destruct E as [_ E]. revert E. cbn [ltb RNum lit cmp].
    rewrite Rltb_true by (undec; lra). discriminate.
  - apply region_ps_5 in E. revert E. cbn [leb RNum lit cmp]. rewrite Rleb_false by (undec; lra). discriminate.
  - apply region_prho_5 in E. destruct E as [_ E]. revert E. cbn [ltb RNum lit cmp].
    rewrite Rltb_true by (undec; lra). discriminate.
Qed.

Definition T23 (p : R) : R := 572.54459862746 + sqrt ((p - 13.91883977887) / 0.0010192970039326).
Lemma B23T_closed p : 13.91883977887 <= p -> B23T_p (Fin p) = Ok (Fin (T23 p)).
Proof.
  intros H. unfold B23T_p. cbn [bind sub add div RNum lit lift2].
  rewrite xdiv_Fin by known. cbn [bind].
  replace (D 13.91883977887%dec) with 13.91883977887 by (undec; lra).
  replace (D 1.0192970039326e-03%dec) with 0.0010192970039326 by (undec; lra).
  change (xpowf ?a (Fin (D 0.5%dec))) with (powf (Num := RNum) a (lit 0.5%dec)).
  rewrite powf_half by (apply Rmult_le_pos; [lra | apply Rlt_le, Rinv_0_lt_compat; lra]).
  cbn [bind add RNum lift2].
  apply f_equal, f_equal. unfold T23. reflexivity.
Qed.

Lemma h5_30 : 4500 < h5R 30 1500 /\ h5R 30 1500 < 6000.
Proof. split; reals; interval. Qed.
Lemma h2_30_23 : h2R 30 (T23 30) < 4400.
Proof. reals; interval. Qed.
Lemma h2_30_800 : h2R 30 1073.15 < 4400.
Proof. reals; interval. Qed.
Lemma h1_30 : h1R 30 623.15 < 4400.
Proof. reals; interval. Qed.
Lemma T23_30 : 0 < T23 30 < 1080.
Proof. unfold T23. split; interval. Qed.

(** 30 MPa and 1500 K: enthalpy is answered, and rejected when asked back. *)
Lemma high_pressure_gap : exists h, h_pt BARE (Fin 30) (Fin 1500) = Ok (Fin h) /\
  t_ph BARE (Fin 30) (Fin h) = Ok NaN.
Proof.
  pose proof h5_30. pose proof h2_30_23. pose proof h2_30_800. pose proof h1_30. pose proof T23_30.
  assert (R5 : region_pT (Fin 30) (Fin 1500) = Ok 5%Z).
  { apply region_map. unfold if97_region. do 6 right. left. repeat split; lra. }
  exists (h5R 30 1500). split.
  - destruct (api_pT _ _ _ R5) as (_ & -> & _); [auto|]. cbn [pick Z.eqb Pos.eqb].
    apply eos5. unfold dom5; lra.
  - unfold t_ph. bare. unfold region_ph. cbn [add mul RNum lit lift2]. cmps. bare.
    change (lit 623.15%dec) with (Fin (D 623.15%dec)). change (lit 1073.15%dec) with (Fin (D 1073.15%dec)).
    change (D 623.15%dec) with 623.15. change (D 1073.15%dec) with 1073.15.
    destruct (eos1 30 623.15) as (_ & -> & _); [unfold dom1; lra|]. bare.
    rewrite B23T_closed by lra. bare.
    destruct (eos2 30 (T23 30)) as (_ & -> & _); [unfold dom2; lra|]. bare. cmps.
    destruct (eos2 30 1073.15) as (_ & -> & _); [unfold dom2; lra|]. bare. cmps.
    reflexivity.
Qed.

(** ** Saturation by entropy *)
Lemma sat_s_R us s p : psat_s us s = Ok (Fin p) -> 0.000611657 < to_si us Qp p < 22.06395 ->
  tsat_s us s = tsat_p us (Fin p).
Proof.
  intros E H.
  pose proof (via1 F_psat_s us s) as V. pose proof (via1 F_tsat_s us s) as W.
  pose proof (via1 F_tsat_p us (Fin p)) as X. cbn [run1 sig1 fst snd] in V, W, X.
  rewrite W, X. rewrite V in E. apply map_ok in E. destruct E as (y & E & Ey).
  apply user_Fin in Ey. subst y. f_equal. revert E. set (s' := si us Qs s). clearbody s'.
  cbn [si lift1].
  unfold psat_s, tsat_s, tsat_p. bare. rewrite (gate_R _ H).
  match goal with |- context [if ?c then _ else _] => destruct c end; [|discriminate].
  destruct (p4_s (N := RNum) s') as [q|]; cbn [bind]; [|discriminate]. intros [= ->]. reflexivity.
Qed.

(** ** Constants *)
Lemma constants us :
  criticalTemperatur us = Ok (Fin (to_user us QT 647.096)) /\
  criticalPressure us = Ok (Fin (to_user us Qp 22.06395)) /\
  triplePointTemperatur us = Ok (Fin (to_user us QT 273.16)) /\
  triplePointPressure us = Ok (Fin (to_user us Qp 0.000611657)) /\
  zeroPointTemperature us = Ok (Fin (to_user us QT 0)) /\
  specificGasConstant us = Ok (Fin 0.461526) /\
  hw_criticalTemperatur us = Ok (Fin (to_user us QT 643.847)) /\
  hw_criticalPressure us = Ok (Fin (to_user us Qp 21.671)).
Proof.
  unfold criticalTemperatur, criticalPressure, triplePointTemperatur, triplePointPressure,
    zeroPointTemperature, specificGasConstant, hw_criticalTemperatur, hw_criticalPressure,
    CRITICAL_TEMPERATURE, CRITICAL_PRESSURE, TRIPLE_POINT_TEMPERATURE, TRIPLE_POINT_PRESSURE,
    SPECIFIC_GAS_CONSTANT, CRITICAL_TEMPERATURE_D20_1992, CRITICAL_PRESSURE_D20_1992.
  rewrite !from_T, !from_p. cbn [user lift1 lit RNum].
  repeat split; apply f_equal, f_equal; undec; try apply f_equal; lra.
Qed.
(** The triple point is on the saturation line; at the critical temperature itself psat_t
    answers NaN, and below it stays under 1.000003 times the critical pressure. *)
Lemma triple_point us : exists p, psat_t us (Fin (to_user us QT 273.16)) = Ok (Fin p) /\
  Rabs (to_si us Qp p / 0.000611657 - 1) <= 1e-7.
Proof.
  eexists. split.
  - rewrite psat_total; [reflexivity|]. rewrite to_si_to_user. lra.
  - rewrite !to_si_to_user. unfold p4R, be, qA, qB, qC, th. interval.
Qed.
Lemma critical_point us :
  psat_t us (Fin (to_user us QT 647.096)) = Ok NaN /\
  tsat_p us (Fin (to_user us Qp 22.06395)) = Ok NaN.
Proof.
  pose proof (via1 F_psat_t us (Fin (to_user us QT 647.096))) as V.
  pose proof (via1 F_tsat_p us (Fin (to_user us Qp 22.06395))) as W.
  cbn [run1 sig1 fst snd si lift1] in V, W. rewrite V, W, !to_si_to_user.
  rewrite psat_bare_out, tsat_bare_out; [split; reflexivity | |]; intros x [= <-]; lra.
Qed.
Lemma near_critical us t : 647.09 < to_si us QT t < 647.096 ->
  exists p, psat_t us (Fin t) = Ok (Fin p) /\ Rabs (to_si us Qp p / 22.06395 - 1) <= 1e-4.
Proof.
  intros H. eexists. split; [apply psat_total; lra|]. rewrite to_si_to_user.
  pose proof (p4_incr 647.09 (to_si us QT t) ltac:(lra) ltac:(lra) ltac:(lra)).
  pose proof (p4_range (to_si us QT t) ltac:(lra)).
  assert (22.062 < p4R 647.09) by (unfold p4R, be, qA, qB, qC, th; interval).
  apply Rabs_le. split; apply Rmult_le_reg_r with 22.06395; try lra;
  unfold Rdiv; rewrite ?Rmult_minus_distr_r, Rmult_assoc, Rinv_l; lra.
Qed.

(** ** Sample states *)
Lemma inside_1 : inside 1 1 400.
Proof.
  exists 0.1. split; [lra|]. intros p T Hp HT. apply Rabs_def2 in Hp. apply Rabs_def2 in HT.
  pose proof (p4_incr T 401 ltac:(lra) ltac:(lra) ltac:(lra)).
  assert (p4R 401 < 0.3) by (unfold p4R, be, qA, qB, qC, th; interval).
  apply region_map. left. unfold in_range, at_saturation. rewrite psatR_eq by lra.
  repeat split; try lra. rewrite Rabs_pos_eq; lra.
Qed.
Lemma inside_2 : inside 2 1 600.
Proof.
  exists 0.1. split; [lra|]. intros p T Hp HT. apply Rabs_def2 in Hp. apply Rabs_def2 in HT.
  pose proof (p4_incr 599 T ltac:(lra) ltac:(lra) ltac:(lra)).
  assert (5 < p4R 599) by (unfold p4R, be, qA, qB, qC, th; interval).
  apply region_map. right; left. unfold in_range, at_saturation. rewrite psatR_eq by lra.
  repeat split; try lra. rewrite Rabs_left; lra.
Qed.
Lemma inside_5 : inside 5 1 1500.
Proof.
  exists 0.1. split; [lra|]. intros p T Hp HT. apply Rabs_def2 in Hp. apply Rabs_def2 in HT.
  apply region_map. do 6 right; left. repeat split; lra.
Qed.

Ltac neg := apply Rlt_not_eq; reals; interval.
Ltac pos := apply Rgt_not_eq; reals; interval.
Ltac side := try (unfold a1, b1, dl, ta; lra).
Lemma Cv_1_400 : answers (Cv_pt BARE (Fin 1) (Fin 400)).
Proof.
  destruct (api_pT _ _ _ (inside_at _ _ _ inside_1)) as (_ & _ & _ & _ & _ & -> & _); [auto|].
  cbn [pick Z.eqb Pos.eqb]. unfold answers. apply Cv1_total; side. neg.
Qed.
Lemma w_1_400 : answers (w_pt BARE (Fin 1) (Fin 400)).
Proof.
  destruct (api_pT _ _ _ (inside_at _ _ _ inside_1)) as (_ & _ & _ & _ & _ & _ & ->); [auto|].
  cbn [pick Z.eqb Pos.eqb]. unfold answers. apply w1_total; side.
  - neg. - pos. - reals; interval.
Qed.
Lemma Cp3_w3_500_650 : answers (ModRegion3.Cp3_rhoT (Fin 500) (Fin 650)) /\
  answers (ModRegion3.w3_rhoT (Fin 500) (Fin 650)).
Proof.
  unfold answers. split.
  - apply Cp3_total; side. pos.
  - apply w3_total; side. + neg. + reals; interval.
Qed.
End Real.
