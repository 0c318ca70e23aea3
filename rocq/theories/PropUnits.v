(** * C01 - C06: unit conversion, unit system selection, history, covariance. *)
From Coq Require Import ZArith Reals List Lra.
From Flocq Require Import Core BinarySingleNaN.
From Verif Require Import Py ModState ModUnits ExactReal Float64 SpecUnits SpecApi SpecRange SpecCov.
From Verif Require ProofUnits ProofApi ProofCov2 ProofFloat ProofRange ProofExamples.
Import ListNotations.
Open Scope R_scope.

(** C01: conversions are inverse to each other and never raise ... *)
Theorem C01_round_trip : forall us q (x : xr), has_converter q = true ->
  (let* y := code_from q us x in code_to q us y) = Ok x /\
  (let* y := code_to q us x in code_from q us y) = Ok x.
Proof. exact ProofUnits.round_trip. Qed.
Print Assumptions C01_round_trip.

(** ... and keep the order of numbers. *)
Theorem C01_order : forall us q, has_converter q = true -> forall x y : R,
  exists a b c d, code_from q us (Fin x) = Ok (Fin a) /\ code_from q us (Fin y) = Ok (Fin b) /\
    code_to q us (Fin x) = Ok (Fin c) /\ code_to q us (Fin y) = Ok (Fin d) /\
    (x < y <-> a < b) /\ (x < y <-> c < d).
Proof. exact ProofUnits.order. Qed.
Print Assumptions C01_order.

Theorem C01_nan : forall us q, has_converter q = true ->
  code_from q us NaN = Ok NaN /\ code_to q us NaN = Ok NaN.
Proof. exact ProofUnits.nan_conv. Qed.
Print Assumptions C01_nan.

(** Quality and volume fraction: unchanged in [0,1], ValueError elsewhere. *)
Theorem C01_fraction : forall us x,
  (is_fraction x -> toSIunit_x us x = Ok x /\ fromSIunit_x us x = Ok x /\
                    toSIunit_vx us x = Ok x /\ fromSIunit_vx us x = Ok x) /\
  (~ is_fraction x -> toSIunit_x us x = Err ValueError /\ fromSIunit_x us x = Err ValueError /\
                    toSIunit_vx us x = Err ValueError /\ fromSIunit_vx us x = Err ValueError).
Proof. exact ProofRange.fraction_conv. Qed.
Print Assumptions C01_fraction.

Example C01_example : has_converter QT = true /\
  code_from QT FLS (Fin 373.15) = Ok (Fin 212) /\ code_to QT FLS (Fin 212) = Ok (Fin 373.15) /\
  is_fraction (Fin 0.25) /\ ~ is_fraction (Fin 1.25) /\ ~ is_fraction NaN.
Proof. exact ProofExamples.ex_units. Qed.

(** C02: the same in binary64, for every implementation [L] of pow, log, exp.  The default
    unit system changes nothing; elsewhere a round trip is off by two roundings. *)
Theorem C02_default_exact : forall (L : libm) q (x : f64),
  code_to (N := FNum L) q BARE x = Ok x /\ code_from (N := FNum L) q BARE x = Ok x.
Proof. exact ProofFloat.code_bare. Qed.
Print Assumptions C02_default_exact.

Theorem C02_round_trip : forall (L : libm) q us (x : f64),
  multiplicative q = true -> is_finite x = true ->
  bpow radix2 (-1000) <= Rabs (B2R x) <= bpow radix2 1000 ->
  exists y z,
    (let* t := code_to (N := FNum L) q us x in code_from q us t) = Ok y /\
    (let* t := code_from (N := FNum L) q us x in code_to q us t) = Ok z /\
    is_finite y = true /\ Rabs (B2R y - B2R x) <= (2 * u64 + u64 * u64) * Rabs (B2R x) /\
    is_finite z = true /\ Rabs (B2R z - B2R x) <= (2 * u64 + u64 * u64) * Rabs (B2R x).
Proof. exact ProofFloat.float_round_trip. Qed.
Print Assumptions C02_round_trip.

Example C02_example : multiplicative Qp = true /\ is_finite (flit 3.7%dec) = true /\
  bpow radix2 (-1000) <= Rabs (B2R (flit 3.7%dec)) <= bpow radix2 1000.
Proof. exact ProofExamples.ex_float. Qed.

(** C03: conversion factors of the ft/lb/s system against the definitions of the units. *)
Theorem C03_factors : forall q, has_converter q = true -> exists f,
  (forall x, code_from q FLS (Fin x) = Ok (Fin ((x - origin FLS q) * f + shift FLS q))) /\
  Rabs (f / defined_factor q - 1) <= rel_tol q.
Proof. exact ProofUnits.factors. Qed.
Print Assumptions C03_factors.

Theorem C03_factors_MKS : forall x,
  fromSIunit_p MKS (Fin x) = Ok (Fin (10 * x)) /\
  fromSIunit_T MKS (Fin x) = Ok (Fin (x - 273.15)) /\
  forall q, has_converter q = true -> q <> Qp -> q <> QT -> code_from q MKS (Fin x) = Ok (Fin x).
Proof. exact ProofUnits.factors_MKS. Qed.
Print Assumptions C03_factors_MKS.

Example C03_example : has_converter Qp = true /\ rel_tol Qp = 2e-9 /\
  defined_factor Qp = 1000000 / (0.45359237 * 9.80665 / (0.0254 * 0.0254)).
Proof. exact ProofExamples.ex_factor. Qed.

(** C04: which objects select a unit system, and what a failed selection leaves behind. *)
Theorem C04_valid : forall st o us, valid_unit o = Some us -> set_unitSystem st o = (Ok tt, Some us).
Proof. exact ProofApi.set_unitSystem_valid. Qed.
Print Assumptions C04_valid.

Theorem C04_invalid : forall st o, valid_unit o = None -> set_unitSystem st o = (Err ValueError, st).
Proof. exact ProofApi.set_unitSystem_invalid. Qed.
Print Assumptions C04_invalid.

Theorem C04_construct : forall o,
  (forall us, valid_unit o = Some us -> construct o = Ok us) /\
  (valid_unit o = None -> construct o = Err ValueError) /\ construct_default = Ok BARE.
Proof. exact ProofExamples.constructing. Qed.
Print Assumptions C04_construct.

Example C04_example : valid_unit (PInt 1) = Some MKS /\ valid_unit (PInt 3) = None /\
  valid_unit (PBool true) = None /\ valid_unit PNone = None /\ valid_unit (PFloat 1.0%dec) = None /\
  valid_unit (PInt (-1)) = None.
Proof. repeat split. Qed.

(** C05: after any program, in any arithmetic, object [i] answers a call as its unit system
    says, and that is the one last validly selected. *)
Theorem C05_history : forall (N : Num) (F : Fuel) ops i c,
  snd (run [] (ops ++ [Ask i c])) =
  snd (run [] ops) ++
  [match selected 0 i None ops with
   | Some us => Answered (answer us c)
   | None => NoObject
   end].
Proof. exact @ProofApi.history_independence. Qed.
Print Assumptions C05_history.

Theorem C05_fresh : forall (N : Num) (F : Fuel) o us c, valid_unit o = Some us ->
  snd (run [] [New o; Ask 0 c]) = [Created 0; Answered (answer us c)].
Proof. exact @ProofApi.fresh_answer. Qed.
Print Assumptions C05_fresh.

Example C05_example : forall (N : Num) (x : num),
  selected 0 1 None [New (PInt 0); New (PInt 2); Ask 1 (Call1 F_tsat_p x); Switch 1 (PInt 1);
                     Switch 1 (PBool true); Switch 0 (PInt 2)] = Some MKS.
Proof. reflexivity. Qed.

(** C06: same physical answer in every unit system, exceptions included ... *)
Theorem C06_covariant : forall (F : Fuel) us c, wrong_quantity c = false -> covariant us c.
Proof. exact @ProofCov2.covariance. Qed.
Print Assumptions C06_covariant.

Example C06_example : forall p h, wrong_quantity (Call2 F_t_ph (Fin p) (Fin h)) = false /\
  in_units MKS (Call2 F_t_ph (Fin p) (Fin h)) = Call2 F_t_ph (Fin (to_user MKS Qp p)) (Fin (to_user MKS Qh h)) /\
  to_user MKS Qp 1 = 10.
Proof. exact ProofExamples.ex_cov. Qed.

(** ... except for the five functions that convert with the wrong quantity: four give
    different physical answers, p_hrho is saved by answering 10 MPa always. *)
Theorem C06_criticalDensity_refuted : forall F : Fuel, exists us, ~ covariant us (Call0 F_criticalDensity).
Proof. exact @ProofCov2.criticalDensity_refuted. Qed.
Print Assumptions C06_criticalDensity_refuted.
Theorem C06_hw_criticalDensity_refuted : forall F : Fuel, exists us, ~ covariant us (CallHW0 HW_criticalDensity).
Proof. exact @ProofCov2.hw_criticalDensity_refuted. Qed.
Print Assumptions C06_hw_criticalDensity_refuted.
Theorem C06_hw_my_refuted : forall F : Fuel, exists us rho T, ~ covariant us (CallHWmy (Fin rho) (Fin T)).
Proof. exact @ProofCov2.hw_my_refuted. Qed.
Print Assumptions C06_hw_my_refuted.
Theorem C06_hw_tc_refuted : forall F : Fuel, exists us rho T, ~ covariant us (CallHWtc (Fin rho) (Fin T)).
Proof. exact @ProofCov2.hw_tc_refuted. Qed.
Print Assumptions C06_hw_tc_refuted.
Theorem C06_p_hrho : forall (F : Fuel) us h rho r r',
  answer us (in_units us (Call2 F_p_hrho h rho)) = Ok r -> answer BARE (Call2 F_p_hrho h rho) = Ok r' ->
  r = user us Qp r'.
Proof. exact @ProofCov2.p_hrho_covariant. Qed.
Print Assumptions C06_p_hrho.
