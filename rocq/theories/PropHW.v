(** * C40: heavy water. *)
From Coq Require Import Reals Lra.
From Verif Require Import Py ModState ModXSteamHW ExactReal SpecUnits SpecHW.
From Verif Require ProofHW ProofExamples.
Open Scope R_scope.

(** Inside its range my_rhoT answers the IAPWS R4 viscosity, but of the density converted as
    if it were a pressure, and converted back as if it were a temperature. *)
Theorem C40_viscosity : forall us rho T, 277 <= to_si us QT T <= 775 ->
  hw_my_rhoT us (Fin rho) (Fin T) =
    Ok (Fin (to_user us QT (R4_viscosity (to_si us Qp rho) (to_si us QT T)))).
Proof. exact ProofHW.hw_my_in. Qed.
Print Assumptions C40_viscosity.
Theorem C40_viscosity_outside : forall us rho T, ~ 277 <= to_si us QT T <= 775 ->
  hw_my_rhoT us rho (Fin T) = Ok NaN.
Proof. exact ProofHW.hw_my_out. Qed.
Print Assumptions C40_viscosity_outside.
Theorem C40_viscosity_nan : forall us rho T, rho = NaN \/ T = NaN -> hw_my_rhoT us rho T = Ok NaN.
Proof. exact ProofHW.hw_my_nan. Qed.
Print Assumptions C40_viscosity_nan.
Theorem C40_viscosity_positive : forall rho T, 277 <= T <= 775 -> 0 < R4_viscosity rho T.
Proof. exact ProofHW.R4_viscosity_pos. Qed.
Print Assumptions C40_viscosity_positive.

(** The same for thermal conductivity, whose result is converted properly. *)
Theorem C40_conductivity : forall us rho T, 277 <= to_si us QT T <= 825 ->
  hw_tc_rhoT us (Fin rho) (Fin T) =
    Ok (Fin (to_user us Qtc (R4_conductivity (to_si us Qp rho) (to_si us QT T)))).
Proof. exact ProofHW.hw_tc_in. Qed.
Print Assumptions C40_conductivity.
Theorem C40_conductivity_outside : forall us rho T, ~ 277 <= to_si us QT T <= 825 ->
  hw_tc_rhoT us rho (Fin T) = Ok NaN.
Proof. exact ProofHW.hw_tc_out. Qed.
Print Assumptions C40_conductivity_outside.
Theorem C40_conductivity_nan : forall us rho T, rho = NaN \/ T = NaN -> hw_tc_rhoT us rho T = Ok NaN.
Proof. exact ProofHW.hw_tc_nan. Qed.
Print Assumptions C40_conductivity_nan.

(** In the default unit system nothing is converted. *)
Theorem C40_default : forall rho T,
  (277 <= T <= 775 -> hw_my_rhoT BARE (Fin rho) (Fin T) = Ok (Fin (R4_viscosity rho T))) /\
  (277 <= T <= 825 -> hw_tc_rhoT BARE (Fin rho) (Fin T) = Ok (Fin (R4_conductivity rho T))).
Proof. exact ProofExamples.hw_default. Qed.
Print Assumptions C40_default.

Example C40_example : 277 <= to_si MKS QT 26.85 <= 775 /\ ~ 277 <= to_si BARE QT 276.9 <= 775.
Proof. exact ProofExamples.ex_hw. Qed.
