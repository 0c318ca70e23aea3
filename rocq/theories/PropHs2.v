(** * C55: compressed water is recognised from (h,s); C56: water and steam expand when heated. *)
From Coq Require Import ZArith Reals.
From Verif Require Import Py ExactReal ModState ModUnits ModBorders ModRegion1 ModRegion2 ModSelect ModXSteam SpecUnits SpecThermo.
From Verif Require ProofHs4 ProofHs5.
Open Scope R_scope.

(** C55 *)
Theorem C55_region : forall (F : Fuel) us p t ps h s,
  region_pT (si us Qp (Fin p)) (si us QT (Fin t)) = Ok 1%Z -> psat_t us (Fin t) = Ok (Fin ps) ->
  to_si us QT t <= 623.05 -> to_si us Qp ps + 0.005 <= to_si us Qp p <= 99.8 ->
  h_pt us (Fin p) (Fin t) = Ok (Fin h) -> s_pt us (Fin p) (Fin t) = Ok (Fin s) -> 0 <= to_si us Qs s ->
  region_hs (si us Qh (Fin h)) (si us Qs (Fin s)) = Ok 1%Z.
Proof. exact @ProofHs4.found. Qed.
Print Assumptions C55_region.
Theorem C55_p_hs : forall (F : Fuel) us p t ps h s,
  region_pT (si us Qp (Fin p)) (si us QT (Fin t)) = Ok 1%Z -> psat_t us (Fin t) = Ok (Fin ps) ->
  to_si us QT t <= 623.05 -> to_si us Qp ps + 0.005 <= to_si us Qp p <= 99.8 ->
  h_pt us (Fin p) (Fin t) = Ok (Fin h) -> s_pt us (Fin p) (Fin t) = Ok (Fin s) -> 0 <= to_si us Qs s ->
  exists p', p_hs us (Fin h) (Fin s) = Ok (Fin p') /\ Rabs (to_si us Qp p' - to_si us Qp p) <= 0.015.
Proof. exact @ProofHs4.found_p. Qed.
Print Assumptions C55_p_hs.
Theorem C55_t_hs : forall (F : Fuel) us p t ps h s,
  region_pT (si us Qp (Fin p)) (si us QT (Fin t)) = Ok 1%Z -> psat_t us (Fin t) = Ok (Fin ps) ->
  to_si us QT t <= 623.05 -> to_si us Qp ps + 0.04 <= to_si us Qp p <= 99.8 ->
  h_pt us (Fin p) (Fin t) = Ok (Fin h) -> s_pt us (Fin p) (Fin t) = Ok (Fin s) -> 0 <= to_si us Qs s ->
  exists t', t_hs us (Fin h) (Fin s) = Ok (Fin t') /\ Rabs (to_si us QT t' - to_si us QT t) <= 0.042.
Proof. exact @ProofHs4.found_t. Qed.
Print Assumptions C55_t_hs.
Example C55_example : forall F : Fuel, exists ps h s,
  region_pT (Fin 50) (Fin 400) = Ok 1%Z /\ psat_t BARE (Fin 400) = Ok (Fin ps) /\ ps + 0.04 <= 50 <= 99.8 /\
  h_pt BARE (Fin 50) (Fin 400) = Ok (Fin h) /\ s_pt BARE (Fin 50) (Fin 400) = Ok (Fin s) /\ 0 <= s.
Proof. exact @ProofHs5.ex_found. Qed.

(** The border between water and the dense region, in the (h,s) plane, is the 623.15 K isotherm. *)
Theorem C55_border_13 : forall p h s, 16.53 <= p <= 99.99 ->
  h1_pT (Fin p) (Fin 623.15) = Ok (Fin h) -> s1_pT (Fin p) (Fin 623.15) = Ok (Fin s) ->
  (exists hB, hB13_s (Fin s) = Ok (Fin hB) /\ Rabs (hB - h) < 0.019) /\
  (forall h', region_hs (Fin h') (Fin s) = Ok 1%Z -> h' < h + 0.019) /\
  (forall h', region_hs (Fin h') (Fin s) = Ok 3%Z -> h - 0.019 < h').
Proof. exact ProofHs5.border_13. Qed.
Print Assumptions C55_border_13.
Theorem C55_border_23 : forall T p h s, 623.15 <= T <= 863.15 -> B23p_T (Fin T) = Ok (Fin p) ->
  h2_pT (Fin p) (Fin T) = Ok (Fin h) -> s2_pT (Fin p) (Fin T) = Ok (Fin s) ->
  exists T', TB23_hs (Fin h) (Fin s) = Ok (Fin T') /\ Rabs (T' - T) < 0.006.
Proof. exact ProofHs5.border_23. Qed.
Print Assumptions C55_border_23.
Example C55_border_example : exists h s p h' s',
  h1_pT (Fin 30) (Fin 623.15) = Ok (Fin h) /\ s1_pT (Fin 30) (Fin 623.15) = Ok (Fin s) /\
  B23p_T (Fin 700) = Ok (Fin p) /\ h2_pT (Fin p) (Fin 700) = Ok (Fin h') /\ s2_pT (Fin p) (Fin 700) = Ok (Fin s').
Proof. exact ProofHs5.ex_border. Qed.

(** C56 *)
Theorem C56_expands : forall (F : Fuel) us r p t1 t2, single_phase r -> (r = 1%Z -> 277.5 <= to_si us QT t1) ->
  region_pT (Fin (to_si us Qp p)) (Fin (to_si us QT t1)) = Ok r ->
  region_pT (Fin (to_si us Qp p)) (Fin (to_si us QT t2)) = Ok r -> t1 < t2 ->
  exists v1 v2, v_pt us (Fin p) (Fin t1) = Ok (Fin v1) /\ v_pt us (Fin p) (Fin t2) = Ok (Fin v2) /\ v1 < v2.
Proof. exact @ProofHs5.heat_api. Qed.
Print Assumptions C56_expands.
Theorem C56_entropy : forall (F : Fuel) us r t p1 p2, single_phase r -> (r = 1%Z -> 277.5 <= to_si us QT t) ->
  region_pT (Fin (to_si us Qp p1)) (Fin (to_si us QT t)) = Ok r ->
  region_pT (Fin (to_si us Qp p2)) (Fin (to_si us QT t)) = Ok r -> p1 < p2 ->
  exists s1 s2, s_pt us (Fin p1) (Fin t) = Ok (Fin s1) /\ s_pt us (Fin p2) (Fin t) = Ok (Fin s2) /\ s2 < s1.
Proof. exact @ProofHs5.squeeze_api. Qed.
Print Assumptions C56_entropy.
(** Without the 277.5 K hypothesis the first statement is false: cold water shrinks. *)
Theorem C56_cold_refuted : forall F : Fuel, exists p T1 T2 v1 v2, T1 < T2 /\
  region_pT (Fin p) (Fin T1) = Ok 1%Z /\ region_pT (Fin p) (Fin T2) = Ok 1%Z /\
  v_pt BARE (Fin p) (Fin T1) = Ok (Fin v1) /\ v_pt BARE (Fin p) (Fin T2) = Ok (Fin v2) /\ v2 < v1.
Proof. exact @ProofHs5.cold_shrinks. Qed.
Print Assumptions C56_cold_refuted.
Example C56_example : 277.5 <= to_si MKS QT 20 /\
  region_pT (Fin (to_si MKS Qp 10)) (Fin (to_si MKS QT 20)) = Ok 1%Z /\
  region_pT (Fin (to_si MKS Qp 10)) (Fin (to_si MKS QT 80)) = Ok 1%Z /\
  region_pT (Fin (to_si MKS Qp 500)) (Fin (to_si MKS QT 20)) = Ok 1%Z.
Proof. exact ProofHs5.ex_warm. Qed.
