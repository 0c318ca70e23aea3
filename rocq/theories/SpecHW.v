(** * IAPWS R4-84(2007): viscosity and thermal conductivity of heavy water.

    Reduced temperature t = T/643.847 K, reduced density r = rho/358 kg/m^3; viscosity in
    micro Pa s, thermal conductivity in mW/(m K). *)
From Coq Require Import Reals List.
Import ListNotations.
Open Scope R_scope.

Fixpoint sumf {X} (f : X -> R) (l : list X) : R :=
  match l with [] => 0 | x :: l => f x + sumf f l end.

(** ** Viscosity (appendix A) *)
Definition R4_mu0 (t : R) : R :=
  sqrt t / (1 + 0.940695 / t + 0.578377 / t ^ 2 - 0.202044 / t ^ 3).
(** (i, j, B_ij): coefficient of (1/t - 1)^i (r - 1)^j *)
Definition B (i j : nat) (b : R) := (i, j, b).
Definition R4_B : list (nat * nat * R) := [
  B 0 0 0.4864192; B 1 0 (-0.2448372); B 2 0 (-0.8702035); B 3 0 0.8716056;
  B 4 0 (-1.051126); B 5 0 0.3458395;
  B 0 1 0.3509007; B 1 1 1.315436; B 2 1 1.297752; B 3 1 1.353448;
  B 0 2 (-0.2847572); B 1 2 (-1.037026); B 2 2 (-1.287846); B 5 2 (-0.02148229);
  B 0 3 0.07013759; B 1 3 0.4660127; B 2 3 0.2292075; B 3 3 (-0.4857462);
  B 0 4 0.01641220; B 1 4 (-0.02884911); B 3 4 0.1607171; B 5 4 (-0.009603846);
  B 0 5 (-0.01163815); B 1 5 (-0.008239587); B 5 5 0.004559914;
  B 3 6 (-0.003886659)].
Definition R4_mu1 (t r : R) : R :=
  exp (r * sumf (fun '(i, j, b) => b * (/ t - 1) ^ i * (r - 1) ^ j) R4_B).
Definition R4_viscosity (rho T : R) : R :=
  let t := T / 643.847 in let r := rho / 358 in 55.2651 * (R4_mu0 t * R4_mu1 t r).

(** ** Thermal conductivity (appendix B) *)
Definition R4_conductivity (rho T : R) : R :=
  let t := T / 643.847 in let r := rho / 358 in
  let l0 := 1 + 37.3223 * t + 22.5485 * t ^ 2 + 13.0465 * t ^ 3 - 2.60735 * t ^ 5 in
  let dl := -167.31 * (1 - exp (-2.506 * r)) + 483.656 * r - 191.039 * r ^ 2 + 73.0358 * r ^ 3
            - 7.57467 * r ^ 4 in
  let f1 := exp (0.144847 * t - 5.64493 * t ^ 2) in
  let f2 := exp (-2.8 * (r - 1) ^ 2) - 0.080738543 * exp (-17.943 * (r - 0.125698) ^ 2) in
  let tau := t / (Rabs (t - 1.1) + 1.1) in
  let f3 := 1 + exp (60 * (tau - 1) + 20) in
  let f4 := 1 + exp (100 * (tau - 1) + 15) in
  let dlc := 35429.6 * f1 * f2 * (1 + f2 ^ 2 * (5000000000 * f1 ^ 4 / f3 + 3.5 * f2 / f4)) in
  let dlL := -741.112 * Rpower f1 1.2 * (1 - exp (- (r / 2.5) ^ 10)) in
  0.742128 * (l0 + dl + dlc + dlL).
