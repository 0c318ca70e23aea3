(** * C28, C49: wet states and phase equilibrium. *)
From Coq Require Import ZArith Reals List Lra.
From Verif Require Import Py ModState ModRegion1 ModRegion2 ModRegion5 ModSelect ModXSteam ExactReal SpecUnits SpecApi
  SpecThermo SpecWet SpecWet2.
From Verif Require ProofWet3 ProofWet4 ProofExamples2 ProofExamples8.
Open Scope R_scope.

(** C28: wet states are the mixture of the saturated states; below 16.529 MPa wet means between the saturation lines. *)
Theorem C28_ph_low : forall (F : Fuel) us p h hl hv sl sv vl vv ul uv,
  in_low us p -> saturated us p hl hv sl sv vl vv ul uv -> hl < h < hv ->
  exists x, 0 < x < 1 /\ x_ph us (Fin p) (Fin h) = Ok (Fin x) /\
    h = mix hl hv x /\
    v_ph us (Fin p) (Fin h) = Ok (Fin (mix vl vv x)) /\
    s_ph us (Fin p) (Fin h) = Ok (Fin (mix sl sv x)) /\
    u_ph us (Fin p) (Fin h) = Ok (Fin (mix ul uv x)) /\
    t_ph us (Fin p) (Fin h) = tsat_p us (Fin p).
Proof. exact @ProofWet3.wet_ph_api. Qed.
Print Assumptions C28_ph_low.
Theorem C28_ps_low : forall (F : Fuel) us p s hl hv sl sv vl vv ul uv,
  in_low us p -> saturated us p hl hv sl sv vl vv ul uv -> 0 <= s -> sl < s <= sv ->
  exists x, 0 < x <= 1 /\ x_ps us (Fin p) (Fin s) = Ok (Fin x) /\
    s = mix sl sv x /\
    v_ps us (Fin p) (Fin s) = Ok (Fin (mix vl vv x)) /\
    h_ps us (Fin p) (Fin s) = Ok (Fin (mix hl hv x)) /\
    u_ps us (Fin p) (Fin s) = Ok (Fin (mix ul uv x)) /\
    t_ps us (Fin p) (Fin s) = tsat_p us (Fin p).
Proof. exact @ProofWet3.wet_ps_api. Qed.
Print Assumptions C28_ps_low.
Theorem C28_between : forall a b x, a < b -> 0 < x < 1 -> a < mix a b x < b.
Proof. exact ProofWet3.mix_between. Qed.
Print Assumptions C28_between.
Theorem C28_inverse_low : forall (F : Fuel) us p h s hl hv sl sv vl vv ul uv,
  in_low us p -> saturated us p hl hv sl sv vl vv ul uv -> hl < h < hv ->
  s_ph us (Fin p) (Fin h) = Ok (Fin s) -> 0 <= s ->
  h_ps us (Fin p) (Fin s) = Ok (Fin h) /\ x_ps us (Fin p) (Fin s) = x_ph us (Fin p) (Fin h) /\
  v_ps us (Fin p) (Fin s) = v_ph us (Fin p) (Fin h) /\ u_ps us (Fin p) (Fin s) = u_ph us (Fin p) (Fin h) /\
  t_ps us (Fin p) (Fin s) = t_ph us (Fin p) (Fin h).
Proof. exact @ProofWet3.wet_inverse. Qed.
Print Assumptions C28_inverse_low.

(** up to the critical point: every state the library puts in region 4 *)
Theorem C28_region4_ph : forall (F : Fuel) us p h, in_sat us p -> enough us p ->
  region_ph (Fin (to_si us Qp p)) (Fin (to_si us Qh h)) = Ok 4%Z ->
  exists hl hv sl sv vl vv ul uv x, saturated us p hl hv sl sv vl vv ul uv /\ 0 <= x <= 1 /\ x_ph us (Fin p) (Fin h) = Ok (Fin x) /\
    v_ph us (Fin p) (Fin h) = Ok (Fin (mix vl vv x)) /\ s_ph us (Fin p) (Fin h) = Ok (Fin (mix sl sv x)) /\
    u_ph us (Fin p) (Fin h) = Ok (Fin (mix ul uv x)) /\ t_ph us (Fin p) (Fin h) = tsat_p us (Fin p).
Proof. exact @ProofWet4.region4_ph. Qed.
Print Assumptions C28_region4_ph.
Theorem C28_region4_ps : forall (F : Fuel) us p s, in_sat us p -> enough us p ->
  region_ps (Fin (to_si us Qp p)) (Fin (to_si us Qs s)) = Ok 4%Z ->
  exists hl hv sl sv vl vv ul uv x, saturated us p hl hv sl sv vl vv ul uv /\ 0 <= x <= 1 /\ x_ps us (Fin p) (Fin s) = Ok (Fin x) /\
    v_ps us (Fin p) (Fin s) = Ok (Fin (mix vl vv x)) /\ h_ps us (Fin p) (Fin s) = Ok (Fin (mix hl hv x)) /\
    u_ps us (Fin p) (Fin s) = Ok (Fin (mix ul uv x)) /\ t_ps us (Fin p) (Fin s) = tsat_p us (Fin p).
Proof. exact @ProofWet4.region4_ps. Qed.
Print Assumptions C28_region4_ps.
Theorem C28_region4_inverse : forall (F : Fuel) us p h s hl hv, in_sat us p -> enough us p ->
  region_ph (Fin (to_si us Qp p)) (Fin (to_si us Qh h)) = Ok 4%Z -> s_ph us (Fin p) (Fin h) = Ok (Fin s) ->
  region_ps (Fin (to_si us Qp p)) (Fin (to_si us Qs s)) = Ok 4%Z ->
  hL_p us (Fin p) = Ok (Fin hl) -> hV_p us (Fin p) = Ok (Fin hv) ->
  (hl <= h <= hv -> h_ps us (Fin p) (Fin s) = Ok (Fin h)) /\ x_ps us (Fin p) (Fin s) = x_ph us (Fin p) (Fin h) /\
  v_ps us (Fin p) (Fin s) = v_ph us (Fin p) (Fin h) /\ u_ps us (Fin p) (Fin s) = u_ph us (Fin p) (Fin h) /\
  t_ps us (Fin p) (Fin s) = t_ph us (Fin p) (Fin h).
Proof. exact @ProofWet4.region4_inverse. Qed.
Print Assumptions C28_region4_inverse.
(** without 0 <= s the inverse fails: a wet state just above the triple point has negative entropy, which region_ps rejects *)
Theorem C28_inverse_refuted : forall F : Fuel, exists p h s, in_low BARE p /\ region_ph (Fin p) (Fin h) = Ok 4%Z /\
  s_ph BARE (Fin p) (Fin h) = Ok (Fin s) /\ h_ps BARE (Fin p) (Fin s) = Ok NaN.
Proof. exact @ProofWet4.no_inverse. Qed.
Print Assumptions C28_inverse_refuted.

Example C28_example : forall F : Fuel, exists hl hv sl sv vl vv ul uv, saturated MKS 10 hl hv sl sv vl vv ul uv /\
  hl < 1500 < hv /\ sl < 4 <= sv /\ exists s, s_ph MKS (Fin 10) (Fin 1500) = Ok (Fin s) /\ 0 <= s.
Proof. exact @ProofExamples2.ex_wet. Qed.
Example C28_region4_example : in_sat BARE 20 /\ region_ph (Fin 20) (Fin 2200) = Ok 4%Z /\ region_ps (Fin 20) (Fin 4.6) = Ok 4%Z.
Proof. exact ProofExamples8.ex_wet20. Qed.

(** C49: the saturated phases are in equilibrium, h - T s is the same in both. *)
Theorem C49_gibbs : forall (F : Fuel) us p, in_sat us p -> enough us p -> exists hl hv sl sv T,
  hL_p us (Fin p) = Ok (Fin hl) /\ hV_p us (Fin p) = Ok (Fin hv) /\ sL_p us (Fin p) = Ok (Fin sl) /\ sV_p us (Fin p) = Ok (Fin sv) /\
  tsat_p us (Fin p) = Ok (Fin T) /\
  Rabs (to_si us Qh hv - to_si us Qh hl - to_si us QT T * (to_si us Qs sv - to_si us Qs sl)) < 0.015.
Proof. exact @ProofWet4.gibbs_all. Qed.
Print Assumptions C49_gibbs.
Example C49_example : (in_sat MKS 10 /\ in_sat FLS 100 /\ in_sat BARE 22) /\
  (forall F : Fuel, enough MKS 10 /\ enough FLS 100) /\ (forall F : Fuel, fuel = 32%nat -> enough BARE 22).
Proof. exact ProofExamples8.ex_sat. Qed.
