(** * C20 - C22, C35, C43: thermodynamic identities and stability. *)
From Coq Require Import ZArith Reals List Lra.
From Coquelicot Require Import Coquelicot.
From Verif Require Import Py ModState ModRegion3 ModSelect ModXSteam ExactReal SpecUnits SpecApi SpecThermo.
From Verif Require ProofThermoApi ProofMisc ProofExamples ProofSigns ProofMono.
Open Scope R_scope.

(** C20: u = h - p v (1 MPa m^3 = 1000 kJ), in every unit system. *)
Theorem C20_energy : forall (F : Fuel) us r p t, single_phase r ->
  region_pT (Fin (to_si us Qp p)) (Fin (to_si us QT t)) = Ok r ->
  exists u h v, u_pt us (Fin p) (Fin t) = Ok (Fin u) /\ h_pt us (Fin p) (Fin t) = Ok (Fin h) /\
    v_pt us (Fin p) (Fin t) = Ok (Fin v) /\
    to_si us Qu u = to_si us Qh h - 1000 * to_si us Qp p * to_si us Qv v.
Proof. exact @ProofThermoApi.energy. Qed.
Print Assumptions C20_energy.

(** C20, C21 in region 3, by density and temperature. *)
Theorem C21_helmholtz : forall rho T, 0 < rho /\ 0 < T ->
  one_helmholtz_function (real2 p3_rhoT) (real2 u3_rhoT) (real2 h3_rhoT) (real2 s3_rhoT) (real2 Cv3_rhoT) rho T.
Proof. exact ProofThermoApi.helmholtz3. Qed.
Print Assumptions C21_helmholtz.
Theorem C21_helmholtz_answers : forall rho T, 0 < rho /\ 0 < T ->
  answers (p3_rhoT (Fin rho) (Fin T)) /\ answers (u3_rhoT (Fin rho) (Fin T)) /\
  answers (h3_rhoT (Fin rho) (Fin T)) /\ answers (s3_rhoT (Fin rho) (Fin T)) /\
  answers (Cv3_rhoT (Fin rho) (Fin T)).
Proof. exact ProofExamples.answers3. Qed.
Print Assumptions C21_helmholtz_answers.

(** C21: one Gibbs function in regions 1, 2 and 5. *)
Theorem C21_gibbs : forall (F : Fuel) r p T, single_phase r -> inside r p T ->
  one_gibbs_function (real2 (v_pt BARE)) (real2 (h_pt BARE)) (real2 (s_pt BARE)) (real2 (Cp_pt BARE)) p T.
Proof. exact @ProofThermoApi.gibbs_api. Qed.
Print Assumptions C21_gibbs.
Theorem C21_answers : forall (F : Fuel) r p T, single_phase r -> region_pT (Fin p) (Fin T) = Ok r ->
  answers (v_pt BARE (Fin p) (Fin T)) /\ answers (h_pt BARE (Fin p) (Fin T)) /\
  answers (s_pt BARE (Fin p) (Fin T)) /\ answers (u_pt BARE (Fin p) (Fin T)) /\
  answers (Cp_pt BARE (Fin p) (Fin T)).
Proof. exact @ProofThermoApi.answers_api. Qed.
Print Assumptions C21_answers.

Example C21_example : forall F : Fuel, (single_phase 1 /\ inside 1 1 400) /\ (single_phase 2 /\ inside 2 1 600) /\
  (single_phase 5 /\ inside 5 1 1500).
Proof. exact @ProofExamples.ex_inside. Qed.

(** C22: Cv and the speed of sound exist, are positive and follow from v and Cp. *)
Theorem C22_cv : forall (F : Fuel) r p T, single_phase r -> inside r p T ->
  exists c, Cv_pt BARE (Fin p) (Fin T) = Ok (Fin c) /\ 0 < c /\
    cv_follows (real2 (v_pt BARE)) (real2 (Cp_pt BARE)) p T c.
Proof. exact @ProofSigns.cv_always. Qed.
Print Assumptions C22_cv.
Theorem C22_w : forall (F : Fuel) r p T, single_phase r -> inside r p T ->
  exists c, w_pt BARE (Fin p) (Fin T) = Ok (Fin c) /\ 0 < c /\
    w_follows (real2 (v_pt BARE)) (real2 (Cp_pt BARE)) p T c.
Proof. exact @ProofSigns.w_always. Qed.
Print Assumptions C22_w.
Theorem C22_region3_cp : forall rho T, 0 < rho /\ 0 < T -> forall c, Cp3_rhoT (Fin rho) (Fin T) = Ok (Fin c) ->
  cp_follows_rho (real2 p3_rhoT) (real2 Cv3_rhoT) rho T c.
Proof. exact ProofThermoApi.cp3. Qed.
Print Assumptions C22_region3_cp.
Theorem C22_region3_w : forall rho T, 0 < rho /\ 0 < T -> forall c, w3_rhoT (Fin rho) (Fin T) = Ok (Fin c) ->
  w_follows_rho (real2 p3_rhoT) (real2 Cv3_rhoT) rho T c.
Proof. exact ProofThermoApi.w3. Qed.
Print Assumptions C22_region3_w.

Example C22_example : forall F : Fuel, answers (Cv_pt BARE (Fin 1) (Fin 400)) /\
  answers (w_pt BARE (Fin 1) (Fin 400)) /\ answers (Cp3_rhoT (Fin 500) (Fin 650)) /\
  answers (w3_rhoT (Fin 500) (Fin 650)).
Proof. exact @ProofExamples.ex_cv. Qed.

(** C35: in regions 1, 2 and 5 volume, both heat capacities and the speed of sound are
    positive and Cv <= Cp. *)
Theorem C35_stable : forall (F : Fuel) us r p t, single_phase r ->
  region_pT (Fin (to_si us Qp p)) (Fin (to_si us QT t)) = Ok r ->
  exists v cp cv w, v_pt us (Fin p) (Fin t) = Ok (Fin v) /\ Cp_pt us (Fin p) (Fin t) = Ok (Fin cp) /\
    Cv_pt us (Fin p) (Fin t) = Ok (Fin cv) /\ w_pt us (Fin p) (Fin t) = Ok (Fin w) /\
    0 < v /\ 0 < cv <= cp /\ 0 < w.
Proof. exact @ProofSigns.stable_api. Qed.
Print Assumptions C35_stable.

(** C43: inside a region enthalpy and entropy rise with temperature, volume falls with pressure. *)
Theorem C43_temperature : forall (F : Fuel) us r p t1 t2, single_phase r ->
  region_pT (Fin (to_si us Qp p)) (Fin (to_si us QT t1)) = Ok r ->
  region_pT (Fin (to_si us Qp p)) (Fin (to_si us QT t2)) = Ok r -> t1 < t2 ->
  exists h1 h2 s1 s2, h_pt us (Fin p) (Fin t1) = Ok (Fin h1) /\ h_pt us (Fin p) (Fin t2) = Ok (Fin h2) /\
    s_pt us (Fin p) (Fin t1) = Ok (Fin s1) /\ s_pt us (Fin p) (Fin t2) = Ok (Fin s2) /\ h1 < h2 /\ s1 < s2.
Proof. exact @ProofMono.rise_api. Qed.
Print Assumptions C43_temperature.
Theorem C43_pressure : forall (F : Fuel) us r t p1 p2, single_phase r ->
  region_pT (Fin (to_si us Qp p1)) (Fin (to_si us QT t)) = Ok r ->
  region_pT (Fin (to_si us Qp p2)) (Fin (to_si us QT t)) = Ok r -> p1 < p2 ->
  exists v1 v2, v_pt us (Fin p1) (Fin t) = Ok (Fin v1) /\ v_pt us (Fin p2) (Fin t) = Ok (Fin v2) /\ v2 < v1.
Proof. exact @ProofMono.fall_api. Qed.
Print Assumptions C43_pressure.

Example C43_example : region_pT (Fin (to_si MKS Qp 10)) (Fin (to_si MKS QT 20)) = Ok 1%Z /\
  region_pT (Fin (to_si MKS Qp 10)) (Fin (to_si MKS QT 80)) = Ok 1%Z /\
  region_pT (Fin (to_si MKS Qp 500)) (Fin (to_si MKS QT 20)) = Ok 1%Z.
Proof. exact ProofExamples.ex_rise. Qed.
