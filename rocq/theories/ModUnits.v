(** GENERATED by tools/translate.py from pyXSteam/UnitConverter.py -- do not edit.
    Text of the Python source, function by function; see DESIGN.md. *)
From Coq Require Import ZArith List Bool.
From Verif Require Import Py ModConstants ModState.
Import ListNotations.
Open Scope Z_scope.
Open Scope num_scope.

Section Model.
Context {N : Num} {F : Fuel}.

(* pyXSteam/UnitConverter.py:36-42, UnitConverter.toSIunit_p *)
Definition toSIunit_p (us : unit_system) (ins : num) : res num :=
  if (is_MKS us)%num then
    div ins #10
  else
    if (is_FLS us)%num then
      Ok (ins * #0.00689475729)
    else
    Ok ins.

(* pyXSteam/UnitConverter.py:44-50, UnitConverter.fromSIunit_p *)
Definition fromSIunit_p (us : unit_system) (ins : num) : res num :=
  if (is_MKS us)%num then
    Ok (ins * #10)
  else
    if (is_FLS us)%num then
      div ins #0.00689475729
    else
    Ok ins.

(* pyXSteam/UnitConverter.py:52-60, UnitConverter.toSIunit_T *)
Definition toSIunit_T (us : unit_system) (ins : num) : res num :=
  if (is_MKS us)%num then
    Ok (ins - ABSOLUTE_ZERO_CELSIUS)
  else
    if (is_FLS us)%num then
      let* q1 := div #5 #9 in
      Ok (q1 * (ins - #32) - ABSOLUTE_ZERO_CELSIUS)
    else
    Ok ins.

(* pyXSteam/UnitConverter.py:62-70, UnitConverter.fromSIunit_T *)
Definition fromSIunit_T (us : unit_system) (ins : num) : res num :=
  if (is_MKS us)%num then
    Ok (ins + ABSOLUTE_ZERO_CELSIUS)
  else
    if (is_FLS us)%num then
      let* q1 := div #9 #5 in
      Ok ((ins + ABSOLUTE_ZERO_CELSIUS) * q1 + #32)
    else
    Ok ins.

(* pyXSteam/UnitConverter.py:72-76, UnitConverter.toSIunit_h *)
Definition toSIunit_h (us : unit_system) (ins : num) : res num :=
  if (is_FLS us)%num then
    Ok (#2.32600 * ins)
  else
  Ok ins.

(* pyXSteam/UnitConverter.py:78-82, UnitConverter.fromSIunit_h *)
Definition fromSIunit_h (us : unit_system) (ins : num) : res num :=
  if (is_FLS us)%num then
    div ins #2.32600
  else
  Ok ins.

(* pyXSteam/UnitConverter.py:84-88, UnitConverter.toSIunit_v *)
Definition toSIunit_v (us : unit_system) (ins : num) : res num :=
  if (is_FLS us)%num then
    Ok (ins * #0.0624279606)
  else
  Ok ins.

(* pyXSteam/UnitConverter.py:90-94, UnitConverter.fromSIunit_v *)
Definition fromSIunit_v (us : unit_system) (ins : num) : res num :=
  if (is_FLS us)%num then
    div ins #0.0624279606
  else
  Ok ins.

(* pyXSteam/UnitConverter.py:96-100, UnitConverter.toSIunit_s *)
Definition toSIunit_s (us : unit_system) (ins : num) : res num :=
  if (is_FLS us)%num then
    div ins #0.238845896627
  else
  Ok ins.

(* pyXSteam/UnitConverter.py:102-106, UnitConverter.fromSIunit_s *)
Definition fromSIunit_s (us : unit_system) (ins : num) : res num :=
  if (is_FLS us)%num then
    Ok (ins * #0.238845896627)
  else
  Ok ins.

(* pyXSteam/UnitConverter.py:108-112, UnitConverter.toSIunit_u *)
Definition toSIunit_u (us : unit_system) (ins : num) : res num :=
  if (is_FLS us)%num then
    Ok (ins * #2.32600)
  else
  Ok ins.

(* pyXSteam/UnitConverter.py:114-118, UnitConverter.fromSIunit_u *)
Definition fromSIunit_u (us : unit_system) (ins : num) : res num :=
  if (is_FLS us)%num then
    div ins #2.32600
  else
  Ok ins.

(* pyXSteam/UnitConverter.py:120-124, UnitConverter.toSIunit_Cp *)
Definition toSIunit_Cp (us : unit_system) (ins : num) : res num :=
  if (is_FLS us)%num then
    div ins #0.238846
  else
  Ok ins.

(* pyXSteam/UnitConverter.py:126-130, UnitConverter.fromSIunit_Cp *)
Definition fromSIunit_Cp (us : unit_system) (ins : num) : res num :=
  if (is_FLS us)%num then
    Ok (ins * #0.238846)
  else
  Ok ins.

(* pyXSteam/UnitConverter.py:132-136, UnitConverter.toSIunit_Cv *)
Definition toSIunit_Cv (us : unit_system) (ins : num) : res num :=
  if (is_FLS us)%num then
    div ins #0.238846
  else
  Ok ins.

(* pyXSteam/UnitConverter.py:138-142, UnitConverter.fromSIunit_Cv *)
Definition fromSIunit_Cv (us : unit_system) (ins : num) : res num :=
  if (is_FLS us)%num then
    Ok (ins * #0.238846)
  else
  Ok ins.

(* pyXSteam/UnitConverter.py:144-148, UnitConverter.toSIunit_w *)
Definition toSIunit_w (us : unit_system) (ins : num) : res num :=
  if (is_FLS us)%num then
    Ok (ins * #0.3048)
  else
  Ok ins.

(* pyXSteam/UnitConverter.py:150-154, UnitConverter.fromSIunit_w *)
Definition fromSIunit_w (us : unit_system) (ins : num) : res num :=
  if (is_FLS us)%num then
    div ins #0.3048
  else
  Ok ins.

(* pyXSteam/UnitConverter.py:156-160, UnitConverter.toSIunit_tc *)
Definition toSIunit_tc (us : unit_system) (ins : num) : res num :=
  if (is_FLS us)%num then
    div ins #0.577789
  else
  Ok ins.

(* pyXSteam/UnitConverter.py:162-166, UnitConverter.fromSIunit_tc *)
Definition fromSIunit_tc (us : unit_system) (ins : num) : res num :=
  if (is_FLS us)%num then
    Ok (ins * #0.577789)
  else
  Ok ins.

(* pyXSteam/UnitConverter.py:168-172, UnitConverter.toSIunit_st *)
Definition toSIunit_st (us : unit_system) (ins : num) : res num :=
  if (is_FLS us)%num then
    div ins #0.068521766
  else
  Ok ins.

(* pyXSteam/UnitConverter.py:174-178, UnitConverter.fromSIunit_st *)
Definition fromSIunit_st (us : unit_system) (ins : num) : res num :=
  if (is_FLS us)%num then
    Ok (ins * #0.068521766)
  else
  Ok ins.

(* pyXSteam/UnitConverter.py:180-185, UnitConverter.toSIunit_x *)
Definition toSIunit_x (us : unit_system) (ins : num) : res num :=
  if ((#0.0 <=? ins) && (ins <=? #1.0))%num then
    Ok ins
  else
  Err ValueError.

(* pyXSteam/UnitConverter.py:187-192, UnitConverter.fromSIunit_x *)
Definition fromSIunit_x (us : unit_system) (ins : num) : res num :=
  if ((#0.0 <=? ins) && (ins <=? #1.0))%num then
    Ok ins
  else
  Err ValueError.

(* pyXSteam/UnitConverter.py:194-199, UnitConverter.toSIunit_vx *)
Definition toSIunit_vx (us : unit_system) (ins : num) : res num :=
  if ((#0.0 <=? ins) && (ins <=? #1.0))%num then
    Ok ins
  else
  Err ValueError.

(* pyXSteam/UnitConverter.py:201-206, UnitConverter.fromSIunit_vx *)
Definition fromSIunit_vx (us : unit_system) (ins : num) : res num :=
  if ((#0.0 <=? ins) && (ins <=? #1.0))%num then
    Ok ins
  else
  Err ValueError.

(* pyXSteam/UnitConverter.py:208-212, UnitConverter.toSIunit_my *)
Definition toSIunit_my (us : unit_system) (ins : num) : res num :=
  if (is_FLS us)%num then
    div ins #2419.088311
  else
  Ok ins.

(* pyXSteam/UnitConverter.py:214-218, UnitConverter.fromSIunit_my *)
Definition fromSIunit_my (us : unit_system) (ins : num) : res num :=
  if (is_FLS us)%num then
    Ok (ins * #2419.088311)
  else
  Ok ins.

End Model.
