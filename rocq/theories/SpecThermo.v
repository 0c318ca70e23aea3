(** * Vocabulary for statements about derivatives of what the code computes. *)
From Coq Require Import ZArith Reals.
From Coquelicot Require Import Coquelicot.
From Verif Require Import Py ExactReal ModState ModSelect ModXSteam.
Open Scope R_scope.

(** The real number a call returned.  Statements that use it also say that the call returns
    a number. *)
Definition val (r : res xr) : R := match r with Ok (Fin x) => x | _ => 0 end.
Definition answers (r : res xr) : Prop := exists x, r = Ok (Fin x).

(** Saturation pressure as the API answers it. *)
Definition psatR (T : R) : R := val (psat_t BARE (Fin T)).

(** A state (p,T) inside region [r]: the region does not change when p and T change a bit. *)
Definition inside (r : Z) (p T : R) : Prop :=
  exists eps, 0 < eps /\ forall p' T', Rabs (p' - p) < eps -> Rabs (T' - T) < eps ->
    region_pT (Fin p') (Fin T') = Ok r.

(** The regions with one formula in (p,T). *)
Definition single_phase (r : Z) : Prop := (r = 1 \/ r = 2 \/ r = 5)%Z.

(** The region map of IF97 in (p,T) as the code uses it: regions 1 and 2 apart by the
    saturation line [psat], 2 and 3 by the parabola [p23]; states closer than 1e-5 MPa to the
    saturation line count as wet (4). *)
Definition p23 (T : R) : R := 348.05185628969 - 1.1671859879975 * T + 1.0192970039326e-03 * T ^ 2.
Definition in_range (p T : R) : Prop := 0.000611 < p <= 100 /\ 273.15 < T <= 1073.15.
Definition at_saturation (psat : R -> R) (p T : R) : Prop := Rabs (p - psat T) < 0.00001.

Definition if97_region (psat : R -> R) (p T : R) (r : Z) : Prop :=
  r = 1%Z /\ in_range p T /\ T <= 623.15 /\ psat T < p /\ ~ at_saturation psat p T \/
  r = 2%Z /\ in_range p T /\ T <= 623.15 /\ p < psat T /\ ~ at_saturation psat p T \/
  r = 2%Z /\ in_range p T /\ 623.15 < T /\ p <= p23 T \/
  r = 3%Z /\ in_range p T /\ 623.15 < T /\ p23 T < p /\
      ~ (T < 647.096 /\ at_saturation psat p T) \/
  r = 4%Z /\ in_range p T /\ T <= 623.15 /\ at_saturation psat p T \/
  r = 4%Z /\ in_range p T /\ 623.15 < T < 647.096 /\ p23 T < p /\ at_saturation psat p T \/
  r = 5%Z /\ 0.000611 < p < 50 /\ 1073.15 < T < 2273.15 \/
  r = 0%Z /\ ~ in_range p T /\ ~ (0.000611 < p < 50 /\ 1073.15 < T < 2273.15).

(** *** Thermodynamics in (p,T)

    Volume, enthalpy, entropy and heat capacity come from one Gibbs function.  Units as in
    the code: MPa, m^3/kg, kJ, K; 1 MPa m^3 = 1000 kJ. *)
Definition one_gibbs_function (v h s cp : R -> R -> R) (p T : R) : Prop :=
  exists vT vp : R,
    is_derive (fun T => v p T) T vT /\ is_derive (fun p => v p T) p vp /\
    is_derive (fun T => h p T) T (cp p T) /\
    is_derive (fun T => s p T) T (cp p T / T) /\
    is_derive (fun p => s p T) p (- (1000 * vT)) /\
    is_derive (fun p => h p T) p (1000 * (v p T - T * vT)).

(** What Cv and the speed of sound (m/s) must be, given v and Cp. *)
Definition cv_follows (v cp : R -> R -> R) (p T c : R) : Prop :=
  let vT := Derive (fun T => v p T) T in
  let vp := Derive (fun p => v p T) p in
  vp <> 0 /\ cp p T - c = - (1000 * T * vT ^ 2 / vp).
Definition w_follows (v cp : R -> R -> R) (p T w : R) : Prop :=
  let vT := Derive (fun T => v p T) T in
  let vp := Derive (fun p => v p T) p in
  cp p T <> 0 /\ vp + 1000 * T / cp p T * vT ^ 2 <> 0 /\ 0 <= w /\
  w ^ 2 = - (10 ^ 6 * v p T ^ 2 / (vp + 1000 * T / cp p T * vT ^ 2)).

(** *** Thermodynamics in (rho,T): one Helmholtz function *)
Definition one_helmholtz_function (pr u h s cv : R -> R -> R) (rho T : R) : Prop :=
  h rho T = u rho T + 1000 * pr rho T / rho /\
  exists pT prho : R,
    is_derive (fun T => pr rho T) T pT /\ is_derive (fun rho => pr rho T) rho prho /\
    is_derive (fun T => u rho T) T (cv rho T) /\
    is_derive (fun T => s rho T) T (cv rho T / T) /\
    is_derive (fun rho => s rho T) rho (- (1000 * pT / rho ^ 2)) /\
    is_derive (fun rho => u rho T) rho (1000 * (pr rho T - T * pT) / rho ^ 2).
Definition cp_follows_rho (pr cv : R -> R -> R) (rho T c : R) : Prop :=
  let pT := Derive (fun T => pr rho T) T in
  let prho := Derive (fun rho => pr rho T) rho in
  prho <> 0 /\ c - cv rho T = 1000 * T * pT ^ 2 / (rho ^ 2 * prho).
Definition w_follows_rho (pr cv : R -> R -> R) (rho T w : R) : Prop :=
  let pT := Derive (fun T => pr rho T) T in
  let prho := Derive (fun rho => pr rho T) rho in
  cv rho T <> 0 /\ 0 <= w /\
  w ^ 2 = 10 ^ 6 * (prho + 1000 * T * pT ^ 2 / (rho ^ 2 * cv rho T)).

(** The real function behind a function of the code. *)
Definition real2 (f : xr -> xr -> res xr) (x y : R) : R := val (f (Fin x) (Fin y)).
