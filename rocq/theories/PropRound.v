(** * C47, C48: temperatures from pressure and enthalpy. *)
From Coq Require Import ZArith Reals List Bool.
From Verif Require Import Py ExactReal ModState ModUnits ModRegion1 ModSelect ModXSteam SpecUnits SpecApi SpecThermo.
From Verif Require ProofRound ProofTph ProofExamples7.
Open Scope R_scope.

(** C47: temperatures are compared in K and pressures in MPa, whatever the unit system of the call. *)
Theorem C47_t_ph : forall (F : Fuel) us p h, region_ph (si us Qp (Fin p)) (si us Qh (Fin h)) = Ok 1%Z ->
  exists t t', h1_pT (si us Qp (Fin p)) (si us QT (Fin t)) = Ok (si us Qh (Fin h)) /\ t_ph us (Fin p) (Fin h) = Ok (Fin t') /\
    273.15 <= to_si us QT t <= 623.16 /\ Rabs (to_si us QT t' - to_si us QT t) <= 0.025.
Proof. exact @ProofRound.from_ph_1. Qed.
Print Assumptions C47_t_ph.
Theorem C47_t_ps : forall (F : Fuel) us p s, to_si us Qp p <> 16.529 -> region_ps (si us Qp (Fin p)) (si us Qs (Fin s)) = Ok 1%Z ->
  exists t t', s1_pT (si us Qp (Fin p)) (si us QT (Fin t)) = Ok (si us Qs (Fin s)) /\ t_ps us (Fin p) (Fin s) = Ok (Fin t') /\
    273 <= to_si us QT t <= 623.16 /\ Rabs (to_si us QT t' - to_si us QT t) <= 0.025.
Proof. exact @ProofRound.from_ps_1. Qed.
Print Assumptions C47_t_ps.
Theorem C47_round_ph : forall (F : Fuel) us p t h, region_pT (si us Qp (Fin p)) (si us QT (Fin t)) = Ok 1%Z ->
  0.000611657 <= to_si us Qp p < 16.529 \/ 16.5292 <= to_si us Qp p /\ to_si us QT t < 623.15 ->
  h_pt us (Fin p) (Fin t) = Ok (Fin h) ->
  exists t', t_ph us (Fin p) (Fin h) = Ok (Fin t') /\ Rabs (to_si us QT t' - to_si us QT t) <= 0.025.
Proof. exact @ProofRound.there_ph_1. Qed.
Print Assumptions C47_round_ph.
Theorem C47_round_ps : forall (F : Fuel) us p t s, region_pT (si us Qp (Fin p)) (si us QT (Fin t)) = Ok 1%Z ->
  s_pt us (Fin p) (Fin t) = Ok (Fin s) ->
  0.000611657 <= to_si us Qp p < 16.529 /\ 0 <= to_si us Qs s \/ region_ps (si us Qp (Fin p)) (si us Qs (Fin s)) = Ok 1%Z ->
  exists t', t_ps us (Fin p) (Fin s) = Ok (Fin t') /\ Rabs (to_si us QT t' - to_si us QT t) <= 0.025.
Proof. exact @ProofRound.there_ps_1. Qed.
Print Assumptions C47_round_ps.
Theorem C47_round_hs : forall (F : Fuel) us p t h s, region_pT (si us Qp (Fin p)) (si us QT (Fin t)) = Ok 1%Z ->
  h_pt us (Fin p) (Fin t) = Ok (Fin h) -> s_pt us (Fin p) (Fin t) = Ok (Fin s) ->
  region_hs (si us Qh (Fin h)) (si us Qs (Fin s)) = Ok 1%Z ->
  exists p', p_hs us (Fin h) (Fin s) = Ok (Fin p') /\ Rabs (to_si us Qp p' - to_si us Qp p) <= 0.015.
Proof. exact @ProofRound.there_hs_1. Qed.
Print Assumptions C47_round_hs.

Example C47_example : forall F : Fuel,
  (* water at 1 MPa with 500 kJ/kg and with 1.5 kJ/(kg K); water at 50 MPa and 400 K *)
  region_ph (Fin 1) (Fin 500) = Ok 1%Z /\ region_ps (Fin 1) (Fin 1.5) = Ok 1%Z /\
  region_pT (Fin 50) (Fin 400) = Ok 1%Z /\
  exists h s, h_pt BARE (Fin 50) (Fin 400) = Ok (Fin h) /\ s_pt BARE (Fin 50) (Fin 400) = Ok (Fin s) /\
    region_hs (Fin h) (Fin s) = Ok 1%Z.
Proof. exact @ProofExamples7.round_examples. Qed.

(** C48 *)
Theorem C48_answers : forall (F : Fuel) us p h r, region_ph (si us Qp (Fin p)) (si us Qh (Fin h)) = Ok r ->
  r <> 0%Z -> r <> 5%Z -> exists T, t_ph us (Fin p) (Fin h) = Ok (Fin T) /\ 200 <= to_si us QT T <= 1150.
Proof. exact @ProofTph.t_ph_answers. Qed.
Print Assumptions C48_answers.
Theorem C48_bounds : forall (F : Fuel) us p h T, t_ph us (Fin p) (Fin h) = Ok (Fin T) -> 200 <= to_si us QT T < 2273.15.
Proof. exact @ProofTph.t_ph_bounds. Qed.
Print Assumptions C48_bounds.
Example C48_example :
  (* regions 1 to 4 at 1 and 25 MPa *)
  region_ph (Fin 1) (Fin 500) = Ok 1%Z /\ region_ph (Fin 1) (Fin 3000) = Ok 2%Z /\
  region_ph (Fin 25) (Fin 2000) = Ok 3%Z /\ region_ph (Fin 1) (Fin 1500) = Ok 4%Z.
Proof. exact ProofExamples7.four_regions. Qed.
