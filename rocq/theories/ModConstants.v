(** GENERATED by tools/translate.py from pyXSteam/Constants.py -- do not edit.
    Text of the Python source, function by function; see DESIGN.md. *)
From Coq Require Import ZArith List Bool.
From Verif Require Import Py.
Import ListNotations.
Open Scope Z_scope.
Open Scope num_scope.

Section Model.
Context {N : Num} {F : Fuel}.

(* pyXSteam/Constants.py:14 *)
Definition SPECIFIC_GAS_CONSTANT : num := #0.461526.

(* pyXSteam/Constants.py:15 *)
Definition CRITICAL_TEMPERATURE : num := #647.096.

(* pyXSteam/Constants.py:16 *)
Definition CRITICAL_PRESSURE : num := #22.06395.

(* pyXSteam/Constants.py:17 *)
Definition CRITICAL_DENSITY : num := #322.

(* pyXSteam/Constants.py:18 *)
Definition TRIPLE_POINT_TEMPERATURE : num := #273.16.

(* pyXSteam/Constants.py:19 *)
Definition TRIPLE_POINT_PRESSURE : num := #0.000611657.

(* pyXSteam/Constants.py:20 *)
Definition TRIPLE_POINT_SPECIFIC_ENTHALPY : num := #0.611783e-3.

(* pyXSteam/Constants.py:26 *)
Definition CRITICAL_TEMPERATURE_H20_1992 : num := #647.096.

(* pyXSteam/Constants.py:27 *)
Definition CRITICAL_PRESSURE_H20_1992 : num := #22.067.

(* pyXSteam/Constants.py:28 *)
Definition CRITICAL_DENSITY_H20_1992 : num := #322.

(* pyXSteam/Constants.py:30 *)
Definition CRITICAL_TEMPERATURE_D20_1992 : num := #643.847.

(* pyXSteam/Constants.py:31 *)
Definition CRITICAL_PRESSURE_D20_1992 : num := #21.671.

(* pyXSteam/Constants.py:32 *)
Definition CRITICAL_DENSITY_D20_1992 : num := #356.

(* pyXSteam/Constants.py:36 *)
Definition ABSOLUTE_ZERO_CELSIUS : num := #(-273.15).

(* pyXSteam/Constants.py:37 *)
Definition ABSOLUTE_ZERO_FAHRENHEIT : num := #(-459.67).

(* pyXSteam/Constants.py:41 *)
Definition SPECIFIC_GAS_CONSTANT_IAPWS_R15_11 : num := #0.46151805.

(* pyXSteam/Constants.py:42 *)
Definition CRITICAL_TEMPERATURE_IAPWS_R15_11 : num := #647.096.

(* pyXSteam/Constants.py:43 *)
Definition CRITICAL_DENSITY_IAPWS_R15_11 : num := #322.0.

End Model.
