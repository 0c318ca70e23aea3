(** * C53: region 3, temperature and volume from pressure and enthalpy. *)
From Coq Require Import ZArith Reals List Bool.
From Verif Require Import Py ExactReal ModState ModUnits ModRegion3 ModSelect ModXSteam SpecUnits SpecApi SpecThermo.
From Verif Require ProofRound3 ProofExamples7.
Open Scope R_scope.

(** C53: residuals in MPa and kJ/kg, whatever the unit system of the call. *)
Theorem C53_solves : forall (F : Fuel) us p h, region_ph (si us Qp (Fin p)) (si us Qh (Fin h)) = Ok 3%Z ->
  exists t v P H, t_ph us (Fin p) (Fin h) = Ok (Fin t) /\ v_ph us (Fin p) (Fin h) = Ok (Fin v) /\ 0 < to_si us Qv v /\
    p3_rhoT (Fin (1 / to_si us Qv v)) (si us QT (Fin t)) = Ok (Fin P) /\ Rabs (P - to_si us Qp p) <= 0.05 /\
    h3_rhoT (Fin (1 / to_si us Qv v)) (si us QT (Fin t)) = Ok (Fin H) /\ Rabs (H - to_si us Qh h) <= 0.25.
Proof. exact @ProofRound3.from_ph_3. Qed.
Print Assumptions C53_solves.
Example C53_example :
  (* among others, a supercritical state at 25 MPa *)
  region_ph (Fin 1) (Fin 500) = Ok 1%Z /\ region_ph (Fin 1) (Fin 3000) = Ok 2%Z /\
  region_ph (Fin 25) (Fin 2000) = Ok 3%Z /\ region_ph (Fin 1) (Fin 1500) = Ok 4%Z.
Proof. exact ProofExamples7.four_regions. Qed.
