(** * Documented ranges of the saturation functions, and binary64 vocabulary. *)
From Coq Require Import ZArith Reals Bool.
From Flocq Require Import Core BinarySingleNaN.
From Verif Require Import Py ModState ExactReal Float64 SpecUnits SpecApi.
Open Scope R_scope.

(** The range of the argument in SI units, both ends excluded. *)
Definition range1 (f : fn1) : option (dec * dec) :=
  match f with
  | F_tsat_p | F_hV_p | F_hL_p | F_vV_p | F_vL_p | F_rhoV_p | F_rhoL_p | F_sV_p | F_sL_p | F_uV_p | F_uL_p
  | F_CpV_p | F_CpL_p | F_CvV_p | F_CvL_p | F_wV_p | F_wL_p => Some (0.000611657%dec, 22.06395%dec)
  | F_hV_t | F_hL_t | F_vV_t | F_vL_t | F_rhoV_t | F_rhoL_t | F_sV_t | F_sL_t | F_uV_t | F_uL_t
  | F_CpV_t | F_CpL_t | F_CvV_t | F_CvL_t | F_wV_t | F_wL_t => Some (273.15%dec, 647.096%dec)
  | F_psat_t => Some (273.1%dec, 647.096%dec)
  | F_tsat_s | F_psat_s => Some ((-0.0001545495919)%dec, 9.155759395%dec)
  | _ => None
  end.

(** A binary64 number strictly between two literals (rounded to binary64); NaN and the
    infinities are not. *)
Definition fbetween (lo hi : dec) (x : f64) : Prop :=
  is_finite x = true /\ rnd (D lo) < B2R x < rnd (D hi).

(** Unit roundoff 2^-53. *)
Definition u64 : R := / 2 * bpow radix2 (- 53 + 1).

(** [y] is [x] up to two roundings. *)
Definition near_id (x y : f64) : Prop :=
  is_finite y = true /\ Rabs (B2R y - B2R x) <= (2 * u64 + u64 * u64) * Rabs (B2R x).

(** The functions of pressure and temperature that select a region and nothing else. *)
Definition direct_pt (f : fn2) : bool :=
  match f with
  | F_h_pt | F_v_pt | F_s_pt | F_u_pt | F_Cp_pt | F_Cv_pt | F_w_pt | F_my_pt | F_rho_pt => true
  | _ => false
  end.

(** Density functions and the volume functions they belong to. *)
Definition volume1 (f : fn1) : option fn1 :=
  match f with
  | F_rhoV_p => Some F_vV_p | F_rhoL_p => Some F_vL_p
  | F_rhoV_t => Some F_vV_t | F_rhoL_t => Some F_vL_t
  | _ => None
  end.
Definition volume2 (f : fn2) : option fn2 :=
  match f with
  | F_rho_pt => Some F_v_pt | F_rho_ph => Some F_v_ph | F_rho_ps => Some F_v_ps
  | _ => None
  end.
(** What a density call answers when the volume call answers [v]. *)
Definition reciprocal (v rho : res xr) : Prop :=
  match v with
  | Err e => rho = Err e
  | Ok NaN => rho = Ok NaN
  | Ok (Fin x) =>
      x = 0 /\ rho = Err ZeroDivisionError \/ x <> 0 /\ exists r, rho = Ok (Fin r) /\ r * x = 1
  end.

(** A quality (or volume fraction) in [0,1]. *)
Definition is_fraction (x : xr) : Prop := exists r, x = Fin r /\ 0 <= r <= 1.
Definition f_fraction (x : f64) : Prop := is_finite x = true /\ 0 <= B2R x <= 1.

(** The functions returning a quality or a volume fraction. *)
Definition of_quality (f : fn2) : bool :=
  match f with F_x_ph | F_x_ps | F_vx_ph | F_vx_ps => true | _ => false end.
