(** * Viscosity of water: IAPS formulation 1985 (revised 2003).

    Reduced temperature t = T/647.226 K, reduced density r = rho/317.763 kg/m^3; viscosity in Pa s. *)
From Coq Require Import Reals List.
From Verif Require Import SpecHW.
Import ListNotations.
Open Scope R_scope.

Definition visc_mu0 (t : R) : R :=
  sqrt t / (1 + 0.978197 / t + 0.579829 / t ^ 2 - 0.202354 / t ^ 3).
(** (i, j, H_ij): coefficient of (1/t - 1)^i (r - 1)^j *)
Definition visc_H : list (nat * nat * R) := [
  B 0 0 0.5132047; B 1 0 0.3205656; B 4 0 (-0.7782567); B 5 0 0.1885447;
  B 0 1 0.2151778; B 1 1 0.7317883; B 2 1 1.241044; B 3 1 1.476783;
  B 0 2 (-0.2818107); B 1 2 (-1.070786); B 2 2 (-1.263184);
  B 0 3 0.1778064; B 1 3 0.460504; B 2 3 0.2340379; B 3 3 (-0.4924179);
  B 0 4 (-0.0417661); B 3 4 0.1600435;
  B 1 5 (-0.01578386);
  B 3 6 (-0.003629481)].
Definition visc_mu1 (t r : R) : R :=
  exp (r * sumf (fun '(i, j, b) => b * (/ t - 1) ^ i * (r - 1) ^ j) visc_H).
Definition viscosity (rho T : R) : R :=
  let t := T / 647.226 in let r := rho / 317.763 in 0.000055071 * (visc_mu0 t * visc_mu1 t r).

(** * Thermal conductivity of water: IAPS formulation 1985 for industrial use.

    t = T/647.26 K, r = rho/317.7 kg/m^3; conductivity in W/(m K). *)
Definition cond_0 (t : R) : R :=
  sqrt t * (0.0102811 + 0.0299621 * t + 0.0156146 * t ^ 2 - 0.00422464 * t ^ 3).
Definition cond_1 (r : R) : R := -0.39707 + 0.400302 * r + 1.06 * exp (-0.171587 * (r + 2.39219) ^ 2).
Definition cond_dT (t : R) : R := Rabs (t - 1) + 0.00308976.
Definition cond_Q (t : R) : R := 2 + 0.0822994 / Rpower (cond_dT t) (3 / 5).
(** [s] is 1/dT from the critical temperature on and 10.0932/dT^(3/5) below *)
Definition cond_2 (t r s : R) : R :=
  let q := cond_Q t in
  (0.0701309 / t ^ 10 + 0.011852) * Rpower r (9 / 5) * exp (0.642857 * (1 - Rpower r (14 / 5)))
  + 0.00169937 * s * Rpower r q * exp (q / (1 + q) * (1 - Rpower r (1 + q)))
  - 1.02 * exp (-4.11717 * Rpower t (3 / 2) - 6.17937 / r ^ 5).
Definition is_conductivity (rho T k : R) : Prop :=
  let t := T / 647.26 in let r := rho / 317.7 in
  exists s, (1 <= t /\ s = 1 / cond_dT t \/ t < 1 /\ s = 10.0932 / Rpower (cond_dT t) (3 / 5)) /\
    k = cond_0 t + cond_1 r + cond_2 t r s.
(** Where the formulation is stated: up to 100 MPa below 773.15 K, up to 70 MPa to 923.15 K, up to 40 MPa above. *)
Definition cond_range (p T : R) : Prop :=
  273.15 <= T /\ (T < 773.15 /\ p <= 100 \/ 773.15 <= T <= 923.15 /\ p <= 70 \/ 923.15 < T /\ p <= 40).
