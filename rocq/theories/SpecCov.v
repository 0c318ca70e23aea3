(** * Unit covariance: what it means for a call to give the same physical answer. *)
From Coq Require Import Reals.
From Verif Require Import Py ModState ExactReal SpecUnits SpecApi.

(** The same call, arguments given in the units of [us] instead of K, MPa, ... *)
Definition in_units (us : unit_system) (c : @call RNum) : @call RNum :=
  match c with
  | Call0 f => Call0 f
  | Call1 f x => Call1 f (user us (fst (sig1 f)) x)
  | Call2 f x y => Call2 f (user us (fst (fst (sig2 f))) x) (user us (snd (fst (sig2 f))) y)
  | CallMelt t hint => CallMelt (user us QT t) hint
  | CallHW0 f => CallHW0 f
  | CallHWmy rho T => CallHWmy (user us Qrho rho) (user us QT T)
  | CallHWtc rho T => CallHWtc (user us Qrho rho) (user us QT T)
  end.
(** The quantity of the answer. *)
Definition answer_quantity (c : @call RNum) : quantity :=
  match c with
  | Call0 f => sig0 f
  | Call1 f _ => snd (sig1 f)
  | Call2 f _ _ => snd (sig2 f)
  | CallMelt _ _ => Qp
  | CallHW0 HW_criticalTemperatur => QT
  | CallHW0 HW_criticalPressure => Qp
  | CallHW0 HW_criticalDensity => Qrho
  | CallHWmy _ _ => Qmy
  | CallHWtc _ _ => Qtc
  end.
(** The answer [r] of the K/MPa system in the units of [us]; exceptions stay. *)
Definition answer_in (us : unit_system) (q : quantity) (r : res xr) : res xr :=
  match r with Ok x => Ok (user us q x) | Err e => Err e end.

Definition covariant {F : Fuel} (us : unit_system) (c : @call RNum) : Prop :=
  answer us (in_units us c) = answer_in us (answer_quantity c) (answer BARE c).

(** Calls that convert with the wrong quantity. *)
Definition wrong_quantity (c : @call RNum) : bool :=
  match c with
  | Call0 F_criticalDensity | CallHW0 HW_criticalDensity | CallHWmy _ _ | CallHWtc _ _
  | Call2 F_p_hrho _ _ => true
  | _ => false
  end.
