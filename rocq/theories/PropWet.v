(** * C27, C31, C39: wet steam up to the critical point. *)
From Coq Require Import ZArith Reals List Lra.
From Verif Require Import Py ModState ModRegion1 ModRegion2 ModRegion5 ModSelect ModXSteam ExactReal SpecUnits SpecApi
  SpecThermo SpecWet SpecWet2.
From Verif Require ProofWet3 ProofWet4 ProofExamples2 ProofExamples8.
Open Scope R_scope.

(** C31: vapour lies above liquid. *)
Theorem C31_vapour_above : forall (F : Fuel) us p, in_sat us p -> enough us p ->
  exists hl hv sl sv vl vv ul uv, saturated us p hl hv sl sv vl vv ul uv /\
    hl < hv /\ sl < sv /\ 0 < vl < vv /\ ul < uv.
Proof. exact @ProofWet4.above_all. Qed.
Print Assumptions C31_vapour_above.

(** C27: the quality is a fraction, is the position between the saturation lines, and inverts h_px. *)
Theorem C27_x_ph : forall (F : Fuel) us p h, in_sat us p -> enough us p -> exists hl hv x,
  hL_p us (Fin p) = Ok (Fin hl) /\ hV_p us (Fin p) = Ok (Fin hv) /\ x_ph us (Fin p) (Fin h) = Ok (Fin x) /\
  0 <= x <= 1 /\ (h <= hl -> x = 0) /\ (hv <= h -> x = 1) /\ (hl <= h <= hv -> h = hl + x * (hv - hl)).
Proof. exact @ProofWet4.x_ph_all. Qed.
Print Assumptions C27_x_ph.
Theorem C27_x_ps : forall (F : Fuel) us p s, in_sat us p -> enough us p -> exists sl sv x,
  sL_p us (Fin p) = Ok (Fin sl) /\ sV_p us (Fin p) = Ok (Fin sv) /\ x_ps us (Fin p) (Fin s) = Ok (Fin x) /\
  0 <= x <= 1 /\ (s <= sl -> x = 0) /\ (sv <= s -> x = 1) /\ (sl <= s <= sv -> s = sl + x * (sv - sl)).
Proof. exact @ProofWet4.x_ps_all. Qed.
Print Assumptions C27_x_ps.
Theorem C27_h_px : forall (F : Fuel) us p x, in_sat us p -> enough us p -> 0 <= x <= 1 -> exists hl hv h,
  hL_p us (Fin p) = Ok (Fin hl) /\ hV_p us (Fin p) = Ok (Fin hv) /\
  h_px us (Fin p) (Fin x) = Ok (Fin h) /\ h = hl + x * (hv - hl) /\ x_ph us (Fin p) (Fin h) = Ok (Fin x).
Proof. exact @ProofWet4.h_px_all. Qed.
Print Assumptions C27_h_px.

Example C27_example : (in_sat MKS 10 /\ in_sat FLS 100 /\ in_sat BARE 22) /\
  (forall F : Fuel, enough MKS 10 /\ enough FLS 100) /\ (forall F : Fuel, fuel = 32%nat -> enough BARE 22).
Proof. exact ProofExamples8.ex_sat. Qed.

(** C39: the volume fraction. *)
Theorem C39_vx_ph : forall (F : Fuel) us p h, in_sat us p -> enough us p -> exists x vl vv vx,
  x_ph us (Fin p) (Fin h) = Ok (Fin x) /\ vL_p us (Fin p) = Ok (Fin vl) /\ vV_p us (Fin p) = Ok (Fin vv) /\
  vx_ph us (Fin p) (Fin h) = Ok (Fin vx) /\
  0 <= vx <= 1 /\ vx * (x * vv + (1 - x) * vl) = x * vv /\ 0 < x * vv + (1 - x) * vl.
Proof. exact @ProofWet4.vx_ph_all. Qed.
Print Assumptions C39_vx_ph.
Theorem C39_vx_ps : forall (F : Fuel) us p s, in_sat us p -> enough us p -> exists x vl vv vx,
  x_ps us (Fin p) (Fin s) = Ok (Fin x) /\ vL_p us (Fin p) = Ok (Fin vl) /\ vV_p us (Fin p) = Ok (Fin vv) /\
  vx_ps us (Fin p) (Fin s) = Ok (Fin vx) /\
  0 <= vx <= 1 /\ vx * (x * vv + (1 - x) * vl) = x * vv /\ 0 < x * vv + (1 - x) * vl.
Proof. exact @ProofWet4.vx_ps_all. Qed.
Print Assumptions C39_vx_ps.
