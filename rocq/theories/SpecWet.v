(** * Wet steam: the saturation values at a pressure and interpolation between them. *)
From Coq Require Import ZArith Reals List.
From Verif Require Import Py ExactReal ModState ModXSteam SpecUnits SpecApi.
Open Scope R_scope.

(** Pressures (in the user's unit) where the saturated states are on regions 1 and 2. *)
Definition in_low us p := 0.000611657 < to_si us Qp p < 16.529.

(** What the API reports for saturated liquid and vapour at a pressure. *)
Definition saturated {F : Fuel} us p hl hv sl sv vl vv ul uv : Prop :=
  hL_p us (Fin p) = Ok (Fin hl) /\ hV_p us (Fin p) = Ok (Fin hv) /\
  sL_p us (Fin p) = Ok (Fin sl) /\ sV_p us (Fin p) = Ok (Fin sv) /\
  vL_p us (Fin p) = Ok (Fin vl) /\ vV_p us (Fin p) = Ok (Fin vv) /\
  uL_p us (Fin p) = Ok (Fin ul) /\ uV_p us (Fin p) = Ok (Fin uv).

(** Linear interpolation. *)
Definition mix (a b x : R) : R := a + x * (b - a).
