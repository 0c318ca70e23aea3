(** * C57: superheated steam, temperature from pressure and entropy. *)
From Coq Require Import ZArith Reals List Bool.
From Verif Require Import Py ExactReal ModState ModUnits ModRegion2 ModSelect ModXSteam SpecUnits SpecApi SpecThermo.
From Verif Require ProofRound4.
Open Scope R_scope.

(** C57: temperatures are compared in K and pressures in MPa, whatever the unit system of the call. *)
Theorem C57_t_ps : forall (F : Fuel) us p s, region_ps (si us Qp (Fin p)) (si us Qs (Fin s)) = Ok 2%Z ->
  exists t t', s2_pT (si us Qp (Fin p)) (si us QT (Fin t)) = Ok (si us Qs (Fin s)) /\ t_ps us (Fin p) (Fin s) = Ok (Fin t') /\
    273.15 <= to_si us QT t <= 1073.15 /\ Rabs (to_si us QT t' - to_si us QT t) <= 0.05.
Proof. exact @ProofRound4.from_ps_2. Qed.
Print Assumptions C57_t_ps.
Theorem C57_round_ps : forall (F : Fuel) us p t s, region_pT (si us Qp (Fin p)) (si us QT (Fin t)) = Ok 2%Z ->
  s_pt us (Fin p) (Fin t) = Ok (Fin s) ->
  0.000611657 <= to_si us Qp p < 16.529 \/ region_ps (si us Qp (Fin p)) (si us Qs (Fin s)) = Ok 2%Z ->
  exists t', t_ps us (Fin p) (Fin s) = Ok (Fin t') /\ Rabs (to_si us QT t' - to_si us QT t) <= 0.05.
Proof. exact @ProofRound4.there_ps_2. Qed.
Print Assumptions C57_round_ps.
Example C57_example : forall F : Fuel,
  (* steam at 1 MPa and 600 K; steam at 50 MPa and 1000 K *)
  region_pT (Fin 1) (Fin 600) = Ok 2%Z /\ region_pT (Fin 50) (Fin 1000) = Ok 2%Z /\
  exists s, s_pt BARE (Fin 50) (Fin 1000) = Ok (Fin s) /\ region_ps (Fin 50) (Fin s) = Ok 2%Z.
Proof. exact @ProofRound4.round4_examples. Qed.
