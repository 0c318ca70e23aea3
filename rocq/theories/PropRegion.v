(** * C11 - C13, C32, C33: region selection and what depends on it. *)
From Coq Require Import ZArith Reals List Bool Lra.
From Verif Require Import Py ModState ModUnits ModSelect ModXSteam ExactReal SpecUnits SpecApi SpecRange SpecThermo.
From Verif Require ProofGeneric ProofRange ProofThermoApi ProofMisc ProofExamples.
Open Scope R_scope.

(** C11: region numbers, in any arithmetic. *)
Theorem C11_regions : forall (N : Num) (F : Fuel) (x y : num) r,
  (region_pT x y = Ok r -> (0 <= r <= 5)%Z) /\ (region_ph x y = Ok r -> (0 <= r <= 5)%Z) /\
  (region_ps x y = Ok r -> (0 <= r <= 5)%Z) /\ (region_prho x y = Ok r -> (0 <= r <= 5)%Z) /\
  (region_hs x y = Ok r -> (0 <= r <= 4)%Z).
Proof. exact @ProofExamples.region_numbers. Qed.
Print Assumptions C11_regions.

Example C11_example : forall F : Fuel, region_pT (Fin 1) (Fin 1500) = Ok 5%Z /\
  region_ph (Fin 1) (Fin 1500) = Ok 4%Z /\ region_ps (Fin 1) (Fin 4) = Ok 4%Z.
Proof. exact @ProofExamples.ex_regions. Qed.

(** C12: region_pT is the IF97 region map and never raises. *)
Theorem C12_region_map : forall (F : Fuel) p T r,
  region_pT (Fin p) (Fin T) = Ok r <-> if97_region psatR p T r.
Proof. exact @ProofExamples.region_map_F. Qed.
Print Assumptions C12_region_map.
Theorem C12_total : forall (F : Fuel) p T, exists! r, region_pT (Fin p) (Fin T) = Ok r.
Proof. exact @ProofExamples.region_total. Qed.
Print Assumptions C12_total.
Theorem C12_nan : forall (F : Fuel) x y, x = NaN \/ y = NaN -> region_pT x y = Ok 0%Z.
Proof. exact @ProofExamples.region_nan_F. Qed.
Print Assumptions C12_nan.

Example C12_example : if97_region psatR 1 400 1 /\ if97_region psatR 1 600 2 /\
  if97_region psatR 1 1500 5 /\ if97_region psatR 101 400 0 /\ if97_region psatR 30 650 3 /\
  if97_region psatR (psatR 400) 400 4.
Proof. exact ProofExamples.ex_map. Qed.

(** C13: whenever p_hrho answers, the answer is 10 MPa. *)
Theorem C13_p_hrho : forall (F : Fuel) us h rho r, p_hrho us h rho = Ok r -> r = user us Qp (Fin 10).
Proof. exact @ProofRange.p_hrho_R. Qed.
Print Assumptions C13_p_hrho.

(** C32: in the wet region temperature is the saturation temperature. *)
Theorem C32_wet_ph : forall (F : Fuel) us p h,
  region_ph (Fin (to_si us Qp p)) (Fin (to_si us Qh h)) = Ok 4%Z ->
  0.000611657 < to_si us Qp p < 22.06395 -> t_ph us (Fin p) (Fin h) = tsat_p us (Fin p).
Proof. exact @ProofMisc.wet_ph_R. Qed.
Print Assumptions C32_wet_ph.
Theorem C32_wet_ps : forall (F : Fuel) us p s,
  region_ps (Fin (to_si us Qp p)) (Fin (to_si us Qs s)) = Ok 4%Z ->
  0.000611657 < to_si us Qp p < 22.06395 -> t_ps us (Fin p) (Fin s) = tsat_p us (Fin p).
Proof. exact @ProofMisc.wet_ps_R. Qed.
Print Assumptions C32_wet_ps.
(** In any arithmetic. *)
Theorem C32_wet_any : forall (N : Num) (F : Fuel) us p y p',
  toSIunit_p us p = Ok p' -> ((#0.000611657 <? p') && (p' <? #22.06395))%num = true ->
  (forall h', toSIunit_h us y = Ok h' -> region_ph p' h' = Ok 4%Z -> t_ph us p y = tsat_p us p) /\
  (forall s', toSIunit_s us y = Ok s' -> region_ps p' s' = Ok 4%Z -> t_ps us p y = tsat_p us p).
Proof. exact @ProofExamples.wet_any. Qed.
Print Assumptions C32_wet_any.

Example C32_example : forall F : Fuel,
  region_ph (Fin (to_si BARE Qp 1)) (Fin (to_si BARE Qh 1500)) = Ok 4%Z /\
  region_ps (Fin (to_si BARE Qp 1)) (Fin (to_si BARE Qs 4)) = Ok 4%Z /\
  0.000611657 < to_si BARE Qp 1 < 22.06395.
Proof. exact @ProofExamples.ex_wet. Qed.

(** C33: the (p,h), (p,s) and (p,rho) selections never choose region 5 above 10 MPa, although
    the (p,t) functions answer there. *)
Theorem C33_region_5 : forall (F : Fuel) p y, 10 < p ->
  region_ph (Fin p) (Fin y) <> Ok 5%Z /\ region_ps (Fin p) (Fin y) <> Ok 5%Z /\
  region_prho (Fin p) (Fin y) <> Ok 5%Z.
Proof. exact @ProofMisc.region_5_R. Qed.
Print Assumptions C33_region_5.
Theorem C33_refuted : forall F : Fuel, exists p t h,
  h_pt BARE (Fin p) (Fin t) = Ok (Fin h) /\ t_ph BARE (Fin p) (Fin h) = Ok NaN.
Proof. exact @ProofExamples.gap. Qed.
Print Assumptions C33_refuted.
