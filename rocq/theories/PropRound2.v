(** * C52: superheated steam, temperature from pressure and enthalpy. *)
From Coq Require Import ZArith Reals List Bool.
From Verif Require Import Py ExactReal ModState ModUnits ModRegion2 ModSelect ModXSteam SpecUnits SpecApi SpecThermo.
From Verif Require ProofRound2 ProofExamples9.
Open Scope R_scope.

(** C52: temperatures are compared in K and pressures in MPa, whatever the unit system of the call. *)
Theorem C52_t_ph : forall (F : Fuel) us p h, region_ph (si us Qp (Fin p)) (si us Qh (Fin h)) = Ok 2%Z ->
  exists t t', h2_pT (si us Qp (Fin p)) (si us QT (Fin t)) = Ok (si us Qh (Fin h)) /\ t_ph us (Fin p) (Fin h) = Ok (Fin t') /\
    273.15 <= to_si us QT t <= 1073.15 /\ Rabs (to_si us QT t' - to_si us QT t) <= 0.05.
Proof. exact @ProofRound2.from_ph_2. Qed.
Print Assumptions C52_t_ph.
Theorem C52_round_ph : forall (F : Fuel) us p t h, region_pT (si us Qp (Fin p)) (si us QT (Fin t)) = Ok 2%Z ->
  h_pt us (Fin p) (Fin t) = Ok (Fin h) ->
  0.000611657 <= to_si us Qp p < 16.529 \/ region_ph (si us Qp (Fin p)) (si us Qh (Fin h)) = Ok 2%Z ->
  exists t', t_ph us (Fin p) (Fin h) = Ok (Fin t') /\ Rabs (to_si us QT t' - to_si us QT t) <= 0.05.
Proof. exact @ProofRound2.there_ph_2. Qed.
Print Assumptions C52_round_ph.
Example C52_example : forall F : Fuel,
  (* steam at 1 MPa with 3000 kJ/kg and at 600 K; steam at 50 MPa and 1000 K *)
  region_ph (Fin 1) (Fin 3000) = Ok 2%Z /\ region_pT (Fin 1) (Fin 600) = Ok 2%Z /\
  region_pT (Fin 50) (Fin 1000) = Ok 2%Z /\
  exists h, h_pt BARE (Fin 50) (Fin 1000) = Ok (Fin h) /\ region_ph (Fin 50) (Fin h) = Ok 2%Z.
Proof. exact @ProofExamples9.round2_examples. Qed.
