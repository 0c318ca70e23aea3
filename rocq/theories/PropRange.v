(** * C07 - C09, C16: ranges, NaN, quality outside [0,1], density. *)
From Coq Require Import ZArith Reals List Lra.
From Flocq Require Import Core BinarySingleNaN.
From Verif Require Import Py ModState ModUnits ModXSteam ExactReal Float64 SpecUnits SpecApi SpecRange.
From Verif Require ProofRange ProofExamples.
Import ListNotations.
Open Scope R_scope.

(** C07, exact arithmetic: outside the documented range the saturation functions answer NaN;
    NaN included. *)
Theorem C07_outside : forall (F : Fuel) f lo hi us x, range1 f = Some (lo, hi) ->
  (forall y, x = Fin y -> ~ D lo < to_si us (fst (sig1 f)) y < D hi) -> run1 f us x = Ok NaN.
Proof. exact @ProofRange.range_R. Qed.
Print Assumptions C07_outside.

(** C07, binary64, for every implementation of pow, log and exp; NaN and infinities included. *)
Theorem C07_outside_float : forall (L : libm) (F : Fuel) f lo hi us (x x' : f64),
  range1 f = Some (lo, hi) -> code_to (N := FNum L) (fst (sig1 f)) us x = Ok x' ->
  ~ fbetween lo hi x' -> run1 (N := FNum L) f us x = Ok B754_nan.
Proof. exact @ProofRange.range_F. Qed.
Print Assumptions C07_outside_float.

Example C07_example : forall L : libm,
  range1 F_hV_p = Some (0.000611657%dec, 22.06395%dec) /\
  ~ 0.000611657 < to_si MKS Qp 250 < 22.06395 /\
  code_to (N := FNum L) Qp BARE (B754_infinity false) = Ok (B754_infinity false : f64) /\
  ~ fbetween 0.000611657%dec 22.06395%dec (B754_infinity false).
Proof. exact ProofExamples.ex_range. Qed.

(** C08: a NaN argument of a (p,t) function makes the answer NaN, as does a NaN argument of a
    saturation function (C07) ... *)
Theorem C08_pt_nan : forall (F : Fuel) f us (p t : xr), direct_pt f = true -> p = NaN \/ t = NaN ->
  run2 f us p t = Ok NaN.
Proof. exact @ProofRange.pt_nan_R. Qed.
Print Assumptions C08_pt_nan.
Theorem C08_pt_nan_float : forall (L : libm) (F : Fuel) f us (p t : f64), direct_pt f = true ->
  p = B754_nan \/ t = B754_nan -> run2 (N := FNum L) f us p t = Ok B754_nan.
Proof. exact @ProofRange.pt_nan_F. Qed.
Print Assumptions C08_pt_nan_float.
Theorem C08_sat_nan_float : forall (L : libm) (F : Fuel) f lo hi us, range1 f = Some (lo, hi) ->
  run1 (N := FNum L) f us B754_nan = Ok B754_nan.
Proof. exact @ProofRange.sat_nan_F. Qed.
Print Assumptions C08_sat_nan_float.
(** ... but quality and volume fraction of a NaN enthalpy or entropy raise, at every pressure
    in range. *)
Theorem C08_quality_refuted : forall (F : Fuel) f us p, of_quality f = true ->
  0.000611657 < to_si us Qp p < 22.06395 -> exists e, run2 f us (Fin p) NaN = Err e.
Proof. exact @ProofRange.quality_nan_R. Qed.
Print Assumptions C08_quality_refuted.
Theorem C08_quality_float_refuted : forall (L : libm) (F : Fuel) f us (p p' : f64), of_quality f = true ->
  toSIunit_p (N := FNum L) us p = Ok p' -> fbetween 0.000611657%dec 22.06395%dec p' ->
  exists e, run2 (N := FNum L) f us p B754_nan = Err e.
Proof. exact @ProofRange.quality_nan_F. Qed.
Print Assumptions C08_quality_float_refuted.

Example C08_example : direct_pt F_h_pt = true /\ of_quality F_x_ph = true /\
  0.000611657 < to_si MKS Qp 10 < 22.06395 /\ fbetween 0.000611657%dec 22.06395%dec (flit 1.0%dec).
Proof. exact ProofExamples.ex_nan. Qed.

(** C09: h_px and h_tx raise ValueError for a quality outside [0,1], whatever the other
    argument. *)
Theorem C09_quality : forall (F : Fuel) us (y x : xr), ~ is_fraction x ->
  h_px us y x = Err ValueError /\ h_tx us y x = Err ValueError.
Proof. exact @ProofRange.quality_R. Qed.
Print Assumptions C09_quality.
Theorem C09_quality_float : forall (L : libm) (F : Fuel) us (y x : f64), ~ f_fraction x ->
  h_px (N := FNum L) us y x = Err ValueError /\ h_tx (N := FNum L) us y x = Err ValueError.
Proof. exact @ProofRange.quality_F. Qed.
Print Assumptions C09_quality_float.

Example C09_example : ~ is_fraction (Fin 1.5) /\ ~ is_fraction NaN /\ ~ f_fraction B754_nan /\
  ~ f_fraction (flit 1.5%dec).
Proof. exact ProofExamples.ex_quality. Qed.

(** C16: density is the reciprocal of volume, with the same NaN and the same exceptions; a
    zero volume would raise ZeroDivisionError. *)
Theorem C16_density1 : forall (F : Fuel) f g us x, volume1 f = Some g ->
  reciprocal (run1 g us x) (run1 f us x).
Proof. exact @ProofRange.density1_R. Qed.
Print Assumptions C16_density1.
Theorem C16_density2 : forall (F : Fuel) f g us x y, volume2 f = Some g ->
  reciprocal (run2 g us x y) (run2 f us x y).
Proof. exact @ProofRange.density2_R. Qed.
Print Assumptions C16_density2.
(** In any arithmetic: the division 1 / volume. *)
Theorem C16_density_any : forall (N : Num) (F : Fuel),
  (forall f g us x, volume1 f = Some g -> run1 f us x = (let* v := run1 g us x in div #1%num v)) /\
  (forall f g us x y, volume2 f = Some g -> run2 f us x y = (let* v := run2 g us x y in div #1%num v)).
Proof. exact @ProofExamples.density_any. Qed.
Print Assumptions C16_density_any.

Example C16_example : volume2 F_rho_pt = Some F_v_pt /\ forall F : Fuel, exists v,
  v_pt BARE (Fin 1) (Fin 400) = Ok (Fin v) /\ 0.00105 < v < 0.00108.
Proof. exact ProofExamples.ex_density. Qed.
