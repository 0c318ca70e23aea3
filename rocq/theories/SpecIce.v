(** * Melting curves: ice types, their hints and temperature ranges. *)
From Coq Require Import ZArith Reals.
From Verif Require Import Py.
Open Scope R_scope.

Inductive ice := Ih | III | V | VI | VII.
(** The hint constants documented in XSteam.pmelt_t. *)
Definition hint_of (i : ice) : pyobj :=
  PInt match i with Ih => 1 | III => 3 | V => 5 | VI => 6 | VII => 7 end.
(** Temperature ranges (K) as coded, lower limit included, upper limit excluded. *)
Definition t_low (i : ice) : R :=
  match i with Ih => 251.165 | III => 251.165 | V => 256.164 | VI => 273.31 | VII => 355 end.
Definition t_high (i : ice) : R :=
  match i with Ih => 273.16 | III => 256.164 | V => 273.31 | VI => 355 | VII => 751 end.
(** Upper end of the ice VII curve in IAPWS R14-08(2011). *)
Definition r14_high (i : ice) : R := match i with VII => 715 | _ => t_high i end.
Definition ice_at (i : ice) (T : R) : Prop := t_low i <= T < t_high i.
