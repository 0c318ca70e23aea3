(** Object state of [UnitConverter] and [XSteam]: the unit system.  Written by hand. *)
From Coq Require Import ZArith List Bool String.
From Verif Require Import Py.
Open Scope Z_scope.

(* pyXSteam/UnitConverter.py:14-16, the values [_unit_system] can hold *)
Inductive unit_system : Set := BARE | MKS | FLS.

(* pyXSteam/UnitConverter.py:14-16, XSteam.py:24-26, XSteam_HW.py:20-22 *)
Definition UNIT_SYSTEM_BARE : Z := 0.
Definition UNIT_SYSTEM_MKS : Z := 1.
Definition UNIT_SYSTEM_FLS : Z := 2.

(* [self._unit_system is self.__UNIT_SYSTEM_MKS__], UnitConverter.py:38 and following *)
Definition is_MKS (us : unit_system) : bool := match us with MKS => true | _ => false end.
(* [self._unit_system is self.__UNIT_SYSTEM_FLS__], UnitConverter.py:40 and following *)
Definition is_FLS (us : unit_system) : bool := match us with FLS => true | _ => false end.

(* pyXSteam/UnitConverter.py:24-34, UnitConverter.set_unitSystem.  [None] is the state
   before the first assignment (the attribute does not exist yet).  The second component
   is the state after the call: unchanged when the call raises. *)
Definition set_unitSystem (st : option unit_system) (unitSystem : pyobj)
  : res unit * option unit_system :=
  if is_int unitSystem UNIT_SYSTEM_BARE then (Ok tt, Some BARE)
  else if is_int unitSystem UNIT_SYSTEM_MKS then (Ok tt, Some MKS)
  else if is_int unitSystem UNIT_SYSTEM_FLS then (Ok tt, Some FLS)
  else (Err ValueError, st).

(* pyXSteam/UnitConverter.py:18-22 and XSteam.py:34-39, XSteam_HW.py:24-30: the constructor
   runs set_unitSystem on a fresh object; an exception means there is no object. *)
Definition construct (unitSystem : pyobj) : res unit_system :=
  match set_unitSystem None unitSystem with
  | (Ok _, Some us) => Ok us
  | (Ok _, None) => Err ValueError (* cannot happen *)
  | (Err e, _) => Err e
  end.

(* pyXSteam/XSteam.py:34 and UnitConverter.py:18, the default argument *)
Definition construct_default : res unit_system := construct (PInt UNIT_SYSTEM_BARE).

(* pyXSteam/UnitConverter.py:220-229, UnitConverter.__str__ (degree signs dropped) *)
Definition unit_str (us : unit_system) : string :=
  if is_FLS us then "FLS (ft/lb/sec/F/psi/btu)"
  else if is_MKS us then "MKS (m/kg/sec/C/bar/W)"
  else "BARE (m/kg/sec/K/MPa/W)".

(* pyXSteam/IAPWS_R14.py:13-17 and XSteam.py:28-32 *)
Definition TYPE_ICE_Ih : Z := 1.
Definition TYPE_ICE_III : Z := 3.
Definition TYPE_ICE_V : Z := 5.
Definition TYPE_ICE_VI : Z := 6.
Definition TYPE_ICE_VII : Z := 7.
