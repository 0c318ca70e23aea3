(** * Vocabulary for C10 and C15. *)
From Coq Require Import ZArith Reals.
From Verif Require Import Py ExactReal ModState ModXSteam SpecUnits.
Open Scope R_scope.

(** The internal marker -99999 kJ/kg as it appears in the caller's units. *)
Definition marker (us : unit_system) : xr := Fin (to_user us Qh (-99999)).

(** Temperatures (K) at which [psat_t] is outside the range of the saturation enthalpies in [h4L_p] and [h4V_p]. *)
Definition off_table (T : R) : Prop :=
  exists ps, psat_t BARE (Fin T) = Ok (Fin ps) /\ (ps <= 0.000611657 \/ 22.06395 <= ps).

(** Entropies (kJ/kg/K) for which [T4_hs] assigns no saturation pressure. *)
Definition unset (s : R) : Prop := 5.210887663 < s <= 5.210887825 \/ 9.15546555571324 <= s.
