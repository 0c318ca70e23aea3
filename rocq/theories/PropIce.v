(** * C14, C26, C29, C30: melting and sublimation curves, surface tension, region 2/3 border. *)
From Coq Require Import ZArith Reals List Lra.
From Verif Require Import Py ModState ModR14 ModBorders ModXSteam ExactReal SpecUnits SpecApi SpecIce.
From Verif Require ProofIce.
Open Scope R_scope.

(** C14: with a hint a pressure is returned exactly on the range of that ice. *)
Theorem C14_hint : forall us i t,
  (ice_at i (to_si us QT t) -> exists p, pmelt_t us (Fin t) (hint_of i) = Ok (Fin p) /\ 0 < p) /\
  (~ ice_at i (to_si us QT t) -> pmelt_t us (Fin t) (hint_of i) = Ok NaN) /\
  pmelt_t us NaN (hint_of i) = Ok NaN.
Proof. exact @ProofIce.melt_range. Qed.
Print Assumptions C14_hint.
(** Without a hint: ice V, VI or VII. *)
Theorem C14_no_hint : forall us t,
  (forall i, i = V \/ i = VI \/ i = VII -> ice_at i (to_si us QT t) ->
     pmelt_t us (Fin t) PNone = pmelt_t us (Fin t) (hint_of i)) /\
  (~ 256.164 <= to_si us QT t < 751 -> pmelt_t us (Fin t) PNone = Ok NaN) /\
  pmelt_t us NaN PNone = Ok NaN.
Proof. exact @ProofIce.melt_none. Qed.
Print Assumptions C14_no_hint.
(** Without a hint a pressure is also returned where ice Ih could be meant. *)
Theorem C14_unique_refuted : exists us t a b,
  ice_at Ih (to_si us QT t) /\ pmelt_t us (Fin t) PNone = Ok (Fin a) /\
  pmelt_t us (Fin t) (hint_of Ih) = Ok (Fin b) /\ a <> b.
Proof. exact @ProofIce.melt_ambiguous. Qed.
Print Assumptions C14_unique_refuted.
Theorem C14_unknown_hint : forall us t hint, hint <> PNone -> (forall i, hint <> hint_of i) ->
  pmelt_t us t hint = Err ValueError.
Proof. exact @ProofIce.melt_unknown. Qed.
Print Assumptions C14_unknown_hint.
Theorem C14_sublimation : forall us t,
  (50 <= to_si us QT t < 273.16 -> exists p, psubl_t us (Fin t) = Ok (Fin p) /\ 0 < p) /\
  (~ 50 <= to_si us QT t < 273.16 -> psubl_t us (Fin t) = Ok NaN) /\ psubl_t us NaN = Ok NaN.
Proof. exact @ProofIce.subl_range. Qed.
Print Assumptions C14_sublimation.
Example C14_example : ice_at Ih (to_si MKS QT (-10)) /\ ice_at III (to_si MKS QT (-18)) /\
  ice_at V (to_si MKS QT (-10)) /\ ice_at VI (to_si MKS QT 20) /\ ice_at VII (to_si MKS QT 100) /\
  ~ ice_at VII (to_si MKS QT 20) /\
  (forall i, PInt 2 <> hint_of i) /\ (forall i, PBool true <> hint_of i).
Proof. exact ProofIce.ex_ice. Qed.

(** C30 *)
Theorem C30_ice_Ih : forall us t1 t2 p1 p2, t1 < t2 ->
  pmelt_t us (Fin t1) (hint_of Ih) = Ok (Fin p1) -> pmelt_t us (Fin t2) (hint_of Ih) = Ok (Fin p2) -> p2 < p1.
Proof. exact @ProofIce.melt_falls. Qed.
Print Assumptions C30_ice_Ih.
(** The other curves rise, ice VII up to 715 K, the end of its curve in IAPWS R14. *)
Theorem C30_other_ices : forall us i t1 t2 p1 p2, i <> Ih -> t1 < t2 -> to_si us QT t2 <= r14_high i ->
  pmelt_t us (Fin t1) (hint_of i) = Ok (Fin p1) -> pmelt_t us (Fin t2) (hint_of i) = Ok (Fin p2) -> p1 < p2.
Proof. exact @ProofIce.melt_rises. Qed.
Print Assumptions C30_other_ices.
(** The code answers up to 751 K, where the formula falls again. *)
Theorem C30_ice_VII_refuted : exists us t1 t2 p1 p2, t1 < t2 /\
  pmelt_t us (Fin t1) (hint_of VII) = Ok (Fin p1) /\ pmelt_t us (Fin t2) (hint_of VII) = Ok (Fin p2) /\ p2 < p1.
Proof. exact @ProofIce.melt_VII_falls. Qed.
Print Assumptions C30_ice_VII_refuted.
Theorem C30_sublimation : forall us t1 t2 p1 p2, t1 < t2 ->
  psubl_t us (Fin t1) = Ok (Fin p1) -> psubl_t us (Fin t2) = Ok (Fin p2) -> p1 < p2.
Proof. exact @ProofIce.subl_rises. Qed.
Print Assumptions C30_sublimation.
Theorem C30_triple_point :
  pmelt_T_iceIh (Fin 273.16) = Ok (Fin 0.000611657) /\ psubl_T (Fin 273.16) = Ok (Fin 0.000611657).
Proof. exact ProofIce.triple_api. Qed.
Print Assumptions C30_triple_point.
Example C30_example : exists p1 p2 q1 q2 s1 s2,
  pmelt_t MKS (Fin (-20)) (hint_of Ih) = Ok (Fin p1) /\ pmelt_t MKS (Fin (-10)) (hint_of Ih) = Ok (Fin p2) /\
  pmelt_t MKS (Fin 100) (hint_of VII) = Ok (Fin q1) /\ pmelt_t MKS (Fin 200) (hint_of VII) = Ok (Fin q2) /\
  to_si MKS QT 200 <= r14_high VII /\
  psubl_t MKS (Fin (-20)) = Ok (Fin s1) /\ psubl_t MKS (Fin (-10)) = Ok (Fin s2).
Proof. exact @ProofIce.ex_curves. Qed.

(** C29 *)
Theorem C29_range : forall us t, let T := to_si us QT t in
  (0.01 <= T < 647.096 -> exists y, st_t us (Fin t) = Ok (Fin y) /\ 0 < y) /\
  (T = 647.096 -> st_t us (Fin t) = Ok (Fin 0)) /\
  (T < 0.01 \/ 647.096 < T -> st_t us (Fin t) = Ok NaN) /\ st_t us NaN = Ok NaN.
Proof. exact @ProofIce.st_api. Qed.
Print Assumptions C29_range.
Theorem C29_falls : forall us t1 t2 y1 y2, 273.16 <= to_si us QT t1 -> t1 < t2 ->
  st_t us (Fin t1) = Ok (Fin y1) -> st_t us (Fin t2) = Ok (Fin y2) -> y2 < y1.
Proof. exact @ProofIce.st_api_falls. Qed.
Print Assumptions C29_falls.
Example C29_example : exists y1 y2, st_t MKS (Fin 20) = Ok (Fin y1) /\ st_t MKS (Fin 200) = Ok (Fin y2) /\
  273.16 <= to_si MKS QT 20.
Proof. exact @ProofIce.ex_st. Qed.

(** C26 *)
Theorem C26_inverse_T : forall T, 623.15 <= T <= 863.15 -> exists p T', B23p_T (Fin T) = Ok (Fin p) /\
  B23T_p (Fin p) = Ok (Fin T') /\ Rabs (T' - T) < 0.000001.
Proof. exact ProofIce.border_T. Qed.
Print Assumptions C26_inverse_T.
Theorem C26_inverse_p : forall p, 16.529 <= p <= 100 -> exists T p', B23T_p (Fin p) = Ok (Fin T) /\
  B23p_T (Fin T) = Ok (Fin p') /\ Rabs (p' - p) < 0.000001.
Proof. exact ProofIce.border_p. Qed.
Print Assumptions C26_inverse_p.
Theorem C26_rises :
  (forall a b pa pb, 623.15 <= a < b -> B23p_T (Fin a) = Ok (Fin pa) -> B23p_T (Fin b) = Ok (Fin pb) -> pa < pb) /\
  (forall a b Ta Tb, 16.529 <= a < b -> B23T_p (Fin a) = Ok (Fin Ta) -> B23T_p (Fin b) = Ok (Fin Tb) -> Ta < Tb).
Proof. exact ProofIce.border_rises. Qed.
Print Assumptions C26_rises.
Example C26_example : 623.15 <= 700 <= 863.15 /\ 16.529 <= 20 < 50.
Proof. lra. Qed.
