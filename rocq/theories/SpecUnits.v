(** * Specification of the unit systems, independent of the code.

    What one SI unit (K, MPa, kJ, kg, m, s as the K/MPa system uses them) is in user
    units: [user = (si - origin) * factor + shift]. *)
From Coq Require Import Reals.
From Verif Require Import Py ModState ModUnits ExactReal.
Open Scope R_scope.

Inductive quantity : Set :=
| Qp | QT | Qh | Qv | Qs | Qu | QCp | QCv | Qw | Qtc | Qst | Qmy
| Qrho            (* density: reciprocal of Qv *)
| Qone.           (* dimensionless: quality, volume fraction, Prandtl number; also the gas
                     constant, which the API does not convert *)

(** User units per SI unit. *)
Definition factor (us : unit_system) (q : quantity) : R :=
  match us, q with
  | BARE, _ => 1
  | MKS, Qp => 10                       (* bar per MPa *)
  | MKS, _ => 1
  | FLS, Qp => / 0.00689475729          (* psi per MPa *)
  | FLS, QT => 9 / 5
  | FLS, Qh => / 2.326                  (* btu/lb per kJ/kg *)
  | FLS, Qu => / 2.326
  | FLS, Qv => / 0.0624279606           (* ft^3/lb per m^3/kg *)
  | FLS, Qrho => 0.0624279606
  | FLS, Qs => 0.238845896627
  | FLS, QCp => 0.238846
  | FLS, QCv => 0.238846
  | FLS, Qw => / 0.3048
  | FLS, Qtc => 0.577789
  | FLS, Qst => 0.068521766
  | FLS, Qmy => 2419.088311
  | FLS, Qone => 1
  end.

(** SI value of the zero of the user scale, before shifting: 0 degree C in K. *)
Definition origin (us : unit_system) (q : quantity) : R :=
  match us, q with
  | MKS, QT | FLS, QT => 273.15
  | _, _ => 0
  end.
(** The user reading of [origin]. *)
Definition shift (us : unit_system) (q : quantity) : R :=
  match us, q with
  | FLS, QT => 32
  | _, _ => 0
  end.

Definition to_user (us : unit_system) (q : quantity) (x : R) : R :=
  (x - origin us q) * factor us q + shift us q.
Definition to_si (us : unit_system) (q : quantity) (y : R) : R :=
  (y - shift us q) / factor us q + origin us q.

(** The same on the model's numbers; NaN stays NaN. *)
Definition user (us : unit_system) (q : quantity) : xr -> xr := lift1 (to_user us q).
Definition si (us : unit_system) (q : quantity) : xr -> xr := lift1 (to_si us q).

(** What the unit of each quantity is by definition, as SI per user unit in the
    ft/lb/s system.  1 ft = 0.3048 m, 1 lb = 0.45359237 kg, 1 lbf = 1 lb * 9.80665 m/s^2,
    1 btu (IT) = 2.326 kJ/kg * 1 lb, 1 degree F = 5/9 K, all exact. *)
Definition ft := 0.3048.
Definition lb := 0.45359237.
Definition lbf := lb * 9.80665.                      (* N *)
Definition btu := 2.326 * lb.                        (* kJ *)
Definition degF := 5 / 9.                            (* K *)

Definition defined_factor (q : quantity) : R :=
  match q with
  | Qp => / (lbf / ((ft / 12) * (ft / 12)) / 1000000)  (* psi per MPa *)
  | QT => / degF
  | Qh | Qu => / (btu / lb)
  | Qv => / (ft * ft * ft / lb)
  | Qrho => ft * ft * ft / lb
  | Qs | QCp | QCv => / (btu / (lb * degF))
  | Qw => / ft
  | Qtc => / (btu * 1000 / 3600 / (ft * degF))         (* btu/(h ft F) per W/(m K) *)
  | Qst => / (lbf / ft)                                (* lbf/ft per N/m *)
  | Qmy => / (lb / (ft * 3600))                        (* lb/(ft h) per Pa s *)
  | Qone => 1
  end.

(** How far the factors of the code may be from the defined ones, relative. *)
Definition rel_tol (q : quantity) : R :=
  match q with
  | Qh | Qu | Qw | QT | Qone => 0
  | Qp | Qv | Qrho | Qs => 2e-9
  | _ => 2e-6
  end.


(** The converter functions of the code, by quantity.  There is none for density. *)
Definition code_to {N : Num} (q : quantity) (us : unit_system) (x : num) : res num :=
  match q with
  | Qp => toSIunit_p us x | QT => toSIunit_T us x | Qh => toSIunit_h us x
  | Qv => toSIunit_v us x | Qs => toSIunit_s us x | Qu => toSIunit_u us x
  | QCp => toSIunit_Cp us x | QCv => toSIunit_Cv us x | Qw => toSIunit_w us x
  | Qtc => toSIunit_tc us x | Qst => toSIunit_st us x | Qmy => toSIunit_my us x
  | Qrho | Qone => Ok x
  end.
Definition code_from {N : Num} (q : quantity) (us : unit_system) (x : num) : res num :=
  match q with
  | Qp => fromSIunit_p us x | QT => fromSIunit_T us x | Qh => fromSIunit_h us x
  | Qv => fromSIunit_v us x | Qs => fromSIunit_s us x | Qu => fromSIunit_u us x
  | QCp => fromSIunit_Cp us x | QCv => fromSIunit_Cv us x | Qw => fromSIunit_w us x
  | Qtc => fromSIunit_tc us x | Qst => fromSIunit_st us x | Qmy => fromSIunit_my us x
  | Qrho | Qone => Ok x
  end.
Definition has_converter (q : quantity) : bool :=
  match q with Qrho | Qone => false | _ => true end.

(** Quantities converted by a factor alone. *)
Definition multiplicative (q : quantity) : bool :=
  match q with QT | Qrho | Qone => false | _ => true end.
