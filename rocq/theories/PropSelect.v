(** * C44: region selection by (p,h) and (p,s) below 16.529 MPa. *)
From Coq Require Import ZArith Reals List Lra.
From Verif Require Import Py ModState ModRegion1 ModRegion2 ModRegion5 ModSelect ModXSteam ExactReal SpecUnits SpecApi
  SpecThermo.
From Verif Require ProofReg ProofExamples2.
Open Scope R_scope.

(** C44: the region map by (p,h) and by (p,s), with the real saturation lines as borders although the code first
    uses two approximations, and its agreement with the map by (p,T). *)
Theorem C44_map_ph : forall (F : Fuel) p h, 0.000611657 < p < 16.529 -> exists h0 hl hv h2 h5,
  h1_pT (Fin p) (Fin 273.15) = Ok (Fin h0) /\ hL_p BARE (Fin p) = Ok (Fin hl) /\ hV_p BARE (Fin p) = Ok (Fin hv) /\
  h2_pT (Fin p) (Fin 1073.15) = Ok (Fin h2) /\ h5_pT (Fin p) (Fin 2273.15) = Ok (Fin h5) /\
  h0 < hl < hv /\ hv < h2 /\
  (region_ph (Fin p) (Fin h) = Ok 1%Z <-> h0 <= h <= hl) /\
  (region_ph (Fin p) (Fin h) = Ok 4%Z <-> hl < h < hv) /\
  (region_ph (Fin p) (Fin h) = Ok 2%Z <-> hv <= h <= h2) /\
  (region_ph (Fin p) (Fin h) = Ok 5%Z <-> h2 < h < h5 /\ p <= 10) /\
  (region_ph (Fin p) (Fin h) = Ok 0%Z <-> h < h0 \/ h2 < h /\ (10 < p \/ h5 <= h)).
Proof. exact @ProofReg.map_ph. Qed.
Print Assumptions C44_map_ph.
Theorem C44_map_ps : forall (F : Fuel) p s, 0.000611657 < p < 16.529 -> exists sl sv s2 s5,
  sL_p BARE (Fin p) = Ok (Fin sl) /\ sV_p BARE (Fin p) = Ok (Fin sv) /\
  s2_pT (Fin p) (Fin 1073.15) = Ok (Fin s2) /\ s5_pT (Fin p) (Fin 2273.15) = Ok (Fin s5) /\
  sl < sv < s2 /\ s2 < s5 /\
  (region_ps (Fin p) (Fin s) = Ok 1%Z <-> 0 <= s <= sl) /\
  (region_ps (Fin p) (Fin s) = Ok 4%Z <-> 0 <= s /\ sl < s <= sv) /\
  (region_ps (Fin p) (Fin s) = Ok 2%Z <-> 0 <= s /\ sv < s <= s2) /\
  (region_ps (Fin p) (Fin s) = Ok 5%Z <-> 0 <= s /\ s2 < s <= s5 /\ p <= 10) /\
  (region_ps (Fin p) (Fin s) = Ok 0%Z <-> s < 0 \/ s5 < s \/ s2 < s /\ 10 < p).
Proof. exact @ProofReg.map_ps. Qed.
Print Assumptions C44_map_ps.
Theorem C44_agree_ph : forall (F : Fuel) p T r, 0.000611657 <= p < 16.529 -> r = 1%Z \/ r = 2%Z ->
  region_pT (Fin p) (Fin T) = Ok r ->
  exists h, h_pt BARE (Fin p) (Fin T) = Ok (Fin h) /\ region_ph (Fin p) (Fin h) = Ok r.
Proof. exact @ProofReg.agree_ph. Qed.
Print Assumptions C44_agree_ph.
Theorem C44_agree_ps : forall (F : Fuel) p T r, 0.000611657 <= p < 16.529 -> r = 1%Z \/ r = 2%Z ->
  region_pT (Fin p) (Fin T) = Ok r ->
  exists s, s_pt BARE (Fin p) (Fin T) = Ok (Fin s) /\ (0 <= s -> region_ps (Fin p) (Fin s) = Ok r).
Proof. exact @ProofReg.agree_ps. Qed.
Print Assumptions C44_agree_ps.
(** Region 5 states just above 1073.15 K are taken for region 2. *)
Theorem C44_region5_refuted : forall F : Fuel, exists p T h,
  region_pT (Fin p) (Fin T) = Ok 5%Z /\ h_pt BARE (Fin p) (Fin T) = Ok (Fin h) /\ region_ph (Fin p) (Fin h) = Ok 2%Z.
Proof. exact @ProofReg.seam_refuted. Qed.
Print Assumptions C44_region5_refuted.

Example C44_example : region_pT (Fin 1) (Fin 400) = Ok 1%Z /\ region_pT (Fin 1) (Fin 600) = Ok 2%Z /\
  region_pT (Fin 10) (Fin 1073.155) = Ok 5%Z.
Proof. exact ProofExamples2.ex_seam. Qed.
