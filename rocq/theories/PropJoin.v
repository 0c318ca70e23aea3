(** * C50, C51: the pieces of the formulation fit together. *)
From Coq Require Import ZArith Reals List Lra.
From Verif Require Import Py ModState ModBorders ModRegion1 ModRegion2 ModRegion3 ModRegion5 ModSelect ModXSteam ExactReal SpecUnits SpecApi
  SpecThermo SpecWet SpecWet2.
From Verif Require ProofJoin ProofExamples8.
Open Scope R_scope.

(** C50: above 16.529 MPa the saturated states satisfy the fundamental equation of region 3. *)
Theorem C50_fundamental : forall (F : Fuel) us p, 16.529 <= to_si us Qp p < 22.06395 -> enough us p ->
  exists hl hv vl vv T,
  hL_p us (Fin p) = Ok (Fin hl) /\ hV_p us (Fin p) = Ok (Fin hv) /\ vL_p us (Fin p) = Ok (Fin vl) /\ vV_p us (Fin p) = Ok (Fin vv) /\
  tsat_p us (Fin p) = Ok (Fin T) /\
  (exists q, p3_rhoT (Fin (1 / to_si us Qv vl)) (Fin (to_si us QT T)) = Ok (Fin q) /\ Rabs (q - to_si us Qp p) < 0.0004) /\
  (exists q, p3_rhoT (Fin (1 / to_si us Qv vv)) (Fin (to_si us QT T)) = Ok (Fin q) /\ Rabs (q - to_si us Qp p) < 0.0001) /\
  (exists q, h3_rhoT (Fin (1 / to_si us Qv vl)) (Fin (to_si us QT T)) = Ok (Fin q) /\ Rabs (q - to_si us Qh hl) < 0.006) /\
  (exists q, h3_rhoT (Fin (1 / to_si us Qv vv)) (Fin (to_si us QT T)) = Ok (Fin q) /\ Rabs (q - to_si us Qh hv) < 0.007).
Proof. exact @ProofJoin.fundamental. Qed.
Print Assumptions C50_fundamental.
Example C50_example : 16.529 <= to_si MKS Qp 200 < 22.06395 /\ forall F : Fuel, fuel = 32%nat -> enough MKS 200.
Proof. exact ProofExamples8.ex_fund. Qed.

(** C51: neighbouring equations agree on the border between their regions. *)
Theorem C51_regions_1_3 : forall p, 16.5292 <= p <= 100 -> exists v h s q h' s',
  v1_pT (Fin p) (Fin 623.15) = Ok (Fin v) /\ h1_pT (Fin p) (Fin 623.15) = Ok (Fin h) /\ s1_pT (Fin p) (Fin 623.15) = Ok (Fin s) /\
  p3_rhoT (Fin (1 / v)) (Fin 623.15) = Ok (Fin q) /\ h3_rhoT (Fin (1 / v)) (Fin 623.15) = Ok (Fin h') /\ s3_rhoT (Fin (1 / v)) (Fin 623.15) = Ok (Fin s') /\
  Rabs (q - p) < 0.016 /\ Rabs (h' - h) < 0.025 /\ Rabs (s' - s) < 0.00007.
Proof. exact ProofJoin.join13. Qed.
Print Assumptions C51_regions_1_3.
Theorem C51_regions_2_3 : forall t, 623.15 <= t <= 863.15 -> exists p v h s q h' s', B23p_T (Fin t) = Ok (Fin p) /\
  v2_pT (Fin p) (Fin t) = Ok (Fin v) /\ h2_pT (Fin p) (Fin t) = Ok (Fin h) /\ s2_pT (Fin p) (Fin t) = Ok (Fin s) /\
  p3_rhoT (Fin (1 / v)) (Fin t) = Ok (Fin q) /\ h3_rhoT (Fin (1 / v)) (Fin t) = Ok (Fin h') /\ s3_rhoT (Fin (1 / v)) (Fin t) = Ok (Fin s') /\
  Rabs (q - p) < 0.008 /\ Rabs (h' - h) < 0.1 /\ Rabs (s' - s) < 0.00012.
Proof. exact ProofJoin.join23. Qed.
Print Assumptions C51_regions_2_3.
Theorem C51_regions_2_5 : forall p, 0 < p <= 10 -> exists v h s v' h' s',
  v2_pT (Fin p) (Fin 1073.15) = Ok (Fin v) /\ h2_pT (Fin p) (Fin 1073.15) = Ok (Fin h) /\ s2_pT (Fin p) (Fin 1073.15) = Ok (Fin s) /\
  v5_pT (Fin p) (Fin 1073.15) = Ok (Fin v') /\ h5_pT (Fin p) (Fin 1073.15) = Ok (Fin h') /\ s5_pT (Fin p) (Fin 1073.15) = Ok (Fin s') /\
  Rabs (v' - v) < 0.00001 /\ Rabs (h' - h) < 0.021 /\ Rabs (s' - s) < 0.00005.
Proof. exact ProofJoin.join25. Qed.
Print Assumptions C51_regions_2_5.
Example C51_example : exists p h h', 16.5292 <= p <= 100 /\ h1_pT (Fin p) (Fin 623.15) = Ok (Fin h) /\ B23p_T (Fin 700) = Ok (Fin h') /\ 1600 < h < 1700 /\ 30 < h' < 31.
Proof. exact ProofExamples8.ex_join. Qed.
