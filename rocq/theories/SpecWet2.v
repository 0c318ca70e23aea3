(** * Wet steam up to the critical point: the whole saturation range. *)
From Coq Require Import ZArith Reals List.
From Verif Require Import Py ExactReal ModState ModXSteam SpecUnits SpecApi SpecWet.
Open Scope R_scope.

(** Pressures (in the user's unit) at which the saturation functions answer. *)
Definition in_sat us p := 0.000611657 < to_si us Qp p < 22.06395.
(** From 16.529 MPa on the saturated states are found by bisection: 32 rounds are enough. *)
Definition enough {F : Fuel} us p := 16.529 <= to_si us Qp p -> (32 <= Z.of_nat fuel)%Z.
