(** GENERATED by tools/translate.py from pyXSteam/XSteam_HW.py, class XSteam_HW (names prefixed hw_) -- do not edit.
    Text of the Python source, function by function; see DESIGN.md. *)
From Coq Require Import ZArith List Bool.
From Verif Require Import Py ModConstants ModState ModUnits ModR4.
Import ListNotations.
Open Scope Z_scope.
Open Scope num_scope.

Section Model.
Context {N : Num} {F : Fuel}.

(* pyXSteam/XSteam_HW.py:32-36, XSteam_HW.criticalTemperatur *)
Definition hw_criticalTemperatur (us : unit_system) : res num :=
  fromSIunit_T us CRITICAL_TEMPERATURE_D20_1992.

(* pyXSteam/XSteam_HW.py:38-42, XSteam_HW.criticalPressure *)
Definition hw_criticalPressure (us : unit_system) : res num :=
  fromSIunit_p us CRITICAL_PRESSURE_D20_1992.

(* pyXSteam/XSteam_HW.py:44-46, XSteam_HW.criticalDensity *)
Definition hw_criticalDensity (us : unit_system) : res num :=
  fromSIunit_p us CRITICAL_DENSITY_D20_1992.

(* pyXSteam/XSteam_HW.py:48-73, XSteam_HW.my_rhoT *)
Definition hw_my_rhoT (us : unit_system) (rho T : num) : res num :=
  let* rho := toSIunit_p us rho in
  let* T := toSIunit_T us T in
  if ((T <? #277.0) || (T >? #775.0))%num then
    Ok nan
  else
  let* q3 := myHW_rhoT_R4 rho T in
  fromSIunit_T us q3.

(* pyXSteam/XSteam_HW.py:75-100, XSteam_HW.tc_rhoT *)
Definition hw_tc_rhoT (us : unit_system) (rho T : num) : res num :=
  let* rho := toSIunit_p us rho in
  let* T := toSIunit_T us T in
  if ((T <? #277.0) || (T >? #825.0))%num then
    Ok nan
  else
  let* q3 := tcHW_rhoT_R4 rho T in
  fromSIunit_tc us q3.

End Model.
