(** The saturation line of IAPWS-IF97, from the published equation 29 and not from the code. *)
From Coq Require Import Reals.
Open Scope R_scope.

(** Equation 29 with table 34: beta^4 = p/1MPa, theta = T/1K + n9 / (T/1K - n10). *)
Definition if97_saturation (p T : R) : Prop := exists beta, 0 < beta /\ beta ^ 4 = p /\
  let theta := T + -0.23855557567849 / (T - 650.17534844798) in
  beta ^ 2 * theta ^ 2 + 1167.0521452767 * (beta ^ 2 * theta) + -724213.16703206 * beta ^ 2
  + -17.073846940092 * (beta * theta ^ 2) + 12020.82470247 * (beta * theta) + -3232555.0322333 * beta
  + 14.91510861353 * theta ^ 2 + -4823.2657361591 * theta + 405113.40542057 = 0.
