(** * C10: the marker -99999. *)
From Coq Require Import ZArith Reals.
From Verif Require Import Py ExactReal ModState ModUnits ModRegion2 ModRegion5 ModSelect ModXSteam SpecUnits SpecApi SpecLoops SpecLeaks.
From Verif Require ProofLeaks ProofExamples5.
Open Scope R_scope.

(** C10 *)
Theorem C10_hL_t : forall (F : Fuel) us t, hL_t us (Fin t) = Ok (marker us) <->
  273.15 < to_si us QT t < 647.096 /\ off_table (to_si us QT t).
Proof. exact @ProofLeaks.hL_t_marker. Qed.
Print Assumptions C10_hL_t.
Theorem C10_hV_t : forall (F : Fuel) us t, hV_t us (Fin t) = Ok (marker us) <->
  273.15 < to_si us QT t < 647.096 /\ off_table (to_si us QT t).
Proof. exact @ProofLeaks.hV_t_marker. Qed.
Print Assumptions C10_hV_t.
Theorem C10_slivers : forall (F : Fuel) us t,
  273.15 < to_si us QT t <= 273.1599 \/ 647.0959 <= to_si us QT t < 647.096 ->
  hL_t us (Fin t) = Ok (marker us) /\ hV_t us (Fin t) = Ok (marker us).
Proof. exact @ProofLeaks.t_slivers. Qed.
Print Assumptions C10_slivers.
Theorem C10_refuted : forall F : Fuel, exists t,
  hL_t MKS (Fin t) = Ok (Fin (-99999)) /\ hV_t MKS (Fin t) = Ok (Fin (-99999)).
Proof. exact @ProofExamples5.C10_bad. Qed.
Print Assumptions C10_refuted.
Theorem C10_between : forall (F : Fuel) us t x, 273.16 <= to_si us QT t <= 647.0957 ->
  hL_t us (Fin t) = Ok (Fin x) \/ hV_t us (Fin t) = Ok (Fin x) -> -1 < to_si us Qh x.
Proof. exact @ProofLeaks.t_clean. Qed.
Print Assumptions C10_between.
Theorem C10_hL_p : forall (F : Fuel) us p x, hL_p us (Fin p) = Ok (Fin x) -> -1 < to_si us Qh x.
Proof. exact @ProofLeaks.hL_p_clean. Qed.
Print Assumptions C10_hL_p.
Theorem C10_hV_p : forall (F : Fuel) us p x, hV_p us (Fin p) = Ok (Fin x) -> -1 < to_si us Qh x.
Proof. exact @ProofLeaks.hV_p_clean. Qed.
Print Assumptions C10_hV_p.
Theorem C10_h_px : forall (F : Fuel) us p x, 0 <= x <= 1 -> (h_px us (Fin p) (Fin x) = Ok (marker us) <->
  to_si us Qp p < 22.064 /\ (to_si us Qp p <= 0.000611657 \/ 22.06395 <= to_si us Qp p)).
Proof. exact @ProofLeaks.h_px_marker. Qed.
Print Assumptions C10_h_px.
Theorem C10_h_px_nan : forall (F : Fuel) us x, 0 <= x <= 1 -> h_px us NaN (Fin x) = Ok (marker us).
Proof. exact @ProofLeaks.h_px_nan. Qed.
Print Assumptions C10_h_px_nan.
Theorem C10_h_tx : forall (F : Fuel) us t x, 0 <= x <= 1 -> 273.15 <= to_si us QT t ->
  (h_tx us (Fin t) (Fin x) = Ok (marker us) <-> to_si us QT t < 647.096 /\ off_table (to_si us QT t)).
Proof. exact @ProofLeaks.h_tx_marker. Qed.
Print Assumptions C10_h_tx.
Theorem C10_h_tx_nan : forall (F : Fuel) us x, 0 <= x <= 1 -> h_tx us NaN (Fin x) = Ok (marker us).
Proof. exact @ProofLeaks.h_tx_nan. Qed.
Print Assumptions C10_h_tx_nan.
Example C10_example : forall F : Fuel,
  (273.15 < to_si MKS QT 0.005 <= 273.1599 /\ hL_t MKS (Fin 0.005) = Ok (Fin (-99999))) /\
  (exists x, hL_t MKS (Fin 100) = Ok (Fin x)) /\
  h_px MKS (Fin 0.001) (Fin 0.5) = Ok (Fin (-99999)).
Proof. exact @ProofExamples5.ex_C10. Qed.
