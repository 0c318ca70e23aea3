(** * C23 - C25, C38, C41, C42: the saturation line and the constants. *)
From Coq Require Import ZArith Reals List Lra.
From Verif Require Import Py ModState ModRegion4 ModXSteam ModXSteamHW ExactReal SpecUnits SpecApi SpecRange SpecSat.
From Verif Require ProofSatApi ProofMisc ProofExamples ProofPsat.
Open Scope R_scope.

(** C23: saturation temperature and pressure are inverse to each other. *)
Theorem C23_tsat_psat : forall (F : Fuel) us t p,
  psat_t us (Fin t) = Ok (Fin p) -> 0.000611657 < to_si us Qp p < 22.06395 -> tsat_p us (Fin p) = Ok (Fin t).
Proof. exact @ProofSatApi.tsat_psat. Qed.
Print Assumptions C23_tsat_psat.
Theorem C23_psat_tsat : forall (F : Fuel) us t p,
  tsat_p us (Fin p) = Ok (Fin t) -> psat_t us (Fin t) = Ok (Fin p).
Proof. exact @ProofSatApi.psat_tsat. Qed.
Print Assumptions C23_psat_tsat.
(** Both answer a number on the whole of their range. *)
Theorem C23_answers : forall (F : Fuel) us x,
  (273.1 < to_si us QT x < 647.096 -> exists p, psat_t us (Fin x) = Ok (Fin p)) /\
  (0.000611657 < to_si us Qp x < 22.06395 -> exists t, tsat_p us (Fin x) = Ok (Fin t)).
Proof. exact @ProofExamples.sat_answers. Qed.
Print Assumptions C23_answers.

Example C23_example : forall F : Fuel, exists p, psat_t BARE (Fin 400) = Ok (Fin p) /\
  0.000611657 < to_si BARE Qp p < 22.06395.
Proof. exact @ProofExamples.ex_sat. Qed.

(** C24: strictly increasing; pressures positive. *)
Theorem C24_psat : forall (F : Fuel) us t1 t2 p1 p2,
  psat_t us (Fin t1) = Ok (Fin p1) -> psat_t us (Fin t2) = Ok (Fin p2) -> t1 < t2 -> 0 < p1 < p2.
Proof. exact @ProofSatApi.psat_mono. Qed.
Print Assumptions C24_psat.
Theorem C24_tsat : forall (F : Fuel) us p1 p2 t1 t2,
  tsat_p us (Fin p1) = Ok (Fin t1) -> tsat_p us (Fin p2) = Ok (Fin t2) -> p1 < p2 -> t1 < t2.
Proof. exact @ProofSatApi.tsat_mono. Qed.
Print Assumptions C24_tsat.

Example C24_example : forall F : Fuel, exists p1 p2 t1 t2,
  psat_t FLS (Fin 212) = Ok (Fin p1) /\ psat_t FLS (Fin 300) = Ok (Fin p2) /\
  tsat_p FLS (Fin 14.7) = Ok (Fin t1) /\ tsat_p FLS (Fin 1000) = Ok (Fin t2).
Proof. exact @ProofExamples.ex_mono. Qed.

(** C25: fixed points. *)
Theorem C25_fixed_points : forall F : Fuel, exists p1 p2 t3,
    psat_t BARE (Fin 273.16) = Ok (Fin p1) /\ Rabs (p1 / 0.000611657 - 1) <= 1e-7 /\
    p4_T (Fin 647.096) = Ok (Fin p2) /\ Rabs (p2 / 22.064 - 1) <= 1e-6 /\
    tsat_p BARE (Fin 0.101325) = Ok (Fin t3) /\ Rabs (t3 - 373.124) <= 0.001.
Proof. exact @ProofExamples.fixed_points. Qed.
Print Assumptions C25_fixed_points.

(** C38: for every entropy in range both answer, with a point of the saturation line; outside both are NaN. *)
Theorem C38_on_line : forall (F : Fuel) us s, -0.0001545495919 < to_si us Qs s < 9.155759395 ->
  exists p t, psat_s us (Fin s) = Ok (Fin p) /\ tsat_s us (Fin s) = Ok (Fin t) /\
    if97_saturation (to_si us Qp p) (to_si us QT t) /\ 0.000608 < to_si us Qp p < 22.0646 /\ 273 <= to_si us QT t <= 647.1.
Proof. exact @ProofPsat.psat_s_line. Qed.
Print Assumptions C38_on_line.
Theorem C38_outside : forall (F : Fuel) us s, ~ -0.0001545495919 < to_si us Qs s < 9.155759395 ->
  psat_s us (Fin s) = Ok NaN /\ tsat_s us (Fin s) = Ok NaN.
Proof. exact @ProofPsat.sat_s_outside. Qed.
Print Assumptions C38_outside.
(** The saturation temperature of that pressure, as [tsat_p] answers it. *)
Theorem C38_tsat_p : forall (F : Fuel) us s, 0.001 <= to_si us Qs s <= 4.411 \/ 4.426 <= to_si us Qs s <= 9.155 ->
  exists p t, psat_s us (Fin s) = Ok (Fin p) /\ tsat_p us (Fin p) = Ok (Fin t) /\ tsat_s us (Fin s) = Ok (Fin t).
Proof. exact @ProofPsat.sat_s_agree. Qed.
Print Assumptions C38_tsat_p.
Theorem C38_sat_s : forall (F : Fuel) us s p, psat_s us s = Ok (Fin p) ->
  0.000611657 < to_si us Qp p < 22.06395 -> tsat_s us s = tsat_p us (Fin p).
Proof. exact @ProofMisc.sat_s_R. Qed.
Print Assumptions C38_sat_s.
(** Not for every entropy: the pressure can fall outside of the range of [tsat_p]. *)
Theorem C38_tsat_p_everywhere_refuted : exists s p t, -0.0001545495919 < s < 9.155759395 /\
  psat_s BARE (Fin s) = Ok (Fin p) /\ tsat_s BARE (Fin s) = Ok (Fin t) /\ tsat_p BARE (Fin p) = Ok NaN.
Proof. exact ProofPsat.sat_s_gap. Qed.
Print Assumptions C38_tsat_p_everywhere_refuted.
(** C23 again: the pairs of [psat_t] solve the published equation. *)
Theorem C23_published : forall (F : Fuel) us t p, psat_t us (Fin t) = Ok (Fin p) ->
  if97_saturation (to_si us Qp p) (to_si us QT t).
Proof. exact @ProofPsat.psat_t_line. Qed.
Print Assumptions C23_published.

Example C38_example : -0.0001545495919 < to_si MKS Qs 6.5 < 9.155759395 /\ 4.426 <= to_si FLS Qs 1.7 <= 9.155 /\
  ~ -0.0001545495919 < to_si BARE Qs 9.2 < 9.155759395.
Proof. exact ProofPsat.ex_entropies. Qed.

(** C41: constants, and their place on the saturation line. *)
Theorem C41_constants : forall us,
  criticalTemperatur us = Ok (Fin (to_user us QT 647.096)) /\
  criticalPressure us = Ok (Fin (to_user us Qp 22.06395)) /\
  triplePointTemperatur us = Ok (Fin (to_user us QT 273.16)) /\
  triplePointPressure us = Ok (Fin (to_user us Qp 0.000611657)) /\
  zeroPointTemperature us = Ok (Fin (to_user us QT 0)) /\
  specificGasConstant us = Ok (Fin 0.461526) /\
  hw_criticalTemperatur us = Ok (Fin (to_user us QT 643.847)) /\
  hw_criticalPressure us = Ok (Fin (to_user us Qp 21.671)).
Proof. exact ProofMisc.constants. Qed.
Print Assumptions C41_constants.
Theorem C41_triple_point : forall (F : Fuel) us, exists p,
  psat_t us (Fin (to_user us QT 273.16)) = Ok (Fin p) /\ Rabs (to_si us Qp p / 0.000611657 - 1) <= 1e-7.
Proof. exact @ProofMisc.triple_point. Qed.
Print Assumptions C41_triple_point.
(** At the critical point itself both functions answer NaN; just below it the saturation
    pressure is the critical pressure to 1e-4. *)
Theorem C41_critical_point : forall (F : Fuel) us,
  psat_t us (Fin (to_user us QT 647.096)) = Ok NaN /\ tsat_p us (Fin (to_user us Qp 22.06395)) = Ok NaN /\
  forall t, 647.09 < to_si us QT t < 647.096 ->
  exists p, psat_t us (Fin t) = Ok (Fin p) /\ Rabs (to_si us Qp p / 22.06395 - 1) <= 1e-4.
Proof. exact @ProofExamples.critical. Qed.
Print Assumptions C41_critical_point.

(** C42: saturation values by temperature are those by pressure. *)
Theorem C42_by_pressure : forall (F : Fuel) us f g t p,
  by_pressure f = Some g -> 273.16 <= to_si us QT t <= 623.14 ->
  psat_t us (Fin t) = Ok (Fin p) -> run1 f us (Fin t) = run1 g us (Fin p).
Proof. exact @ProofSatApi.t_by_p. Qed.
Print Assumptions C42_by_pressure.

Example C42_example : forall F : Fuel, by_pressure F_hV_t = Some F_hV_p /\
  273.16 <= to_si MKS QT 100 <= 623.14 /\ exists p, psat_t MKS (Fin 100) = Ok (Fin p).
Proof. exact @ProofExamples.ex_by_pressure. Qed.
