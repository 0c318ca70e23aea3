(** * C17, C18, C19: the iterations end, stay in their brackets and meet their equations. *)
From Coq Require Import ZArith Reals.
From Flocq Require Import Core BinarySingleNaN.
From Verif Require Import Py ExactReal Float64 ModState ModUnits ModBorders ModRegion3 ModRegion5 ModSelect ModXSteam SpecUnits SpecApi SpecLoops.
From Verif Require ProofEnds ProofNoEnd ProofFuel ProofLoopsApi ProofExamples4.
Open Scope R_scope.

(** C17 *)
Theorem C17_ends : forall (L : libm) (F : Fuel), (160 <= Z.of_nat fuel)%Z -> forall us c,
  asks_hs (N := FNum L) c = false -> (rounds (N := FNum L) c <= Z.of_nat fuel)%Z ->
  answer (N := FNum L) us c <> Err Diverges.
Proof. exact ProofEnds.ends. Qed.
Print Assumptions C17_ends.
(** The search behind t_hs, p_hs and tc_hs, whose upper end is p3sat_h(h). *)
Theorem C17_hs : forall (L : libm) (F : Fuel), (160 <= Z.of_nat fuel)%Z -> forall us f h s, of_hs f = true ->
  (forall h' q, toSIunit_h (N := FNum L) us h = Ok h' -> p3sat_h (N := FNum L) h' = Ok q -> tame q) ->
  answer (N := FNum L) us (Call2 (N := FNum L) f h s) <> Err Diverges.
Proof. exact ProofEnds.ends_hs. Qed.
Print Assumptions C17_hs.
(** Without the bound on p3sat_h(h) it is false: a C library can make them run forever. *)
Theorem C17_hs_refuted : exists (L : libm) h s, is_finite h = true /\ is_finite s = true /\
  forall F : Fuel, t_hs (N := FNum L) BARE h s = Err Diverges /\ p_hs (N := FNum L) BARE h s = Err Diverges.
Proof. exact ProofNoEnd.hs_no_end. Qed.
Print Assumptions C17_hs_refuted.
Theorem C17_fuel : forall (N : Num) (F F' : Fuel) us c, (fuel (Fuel := F) <= fuel (Fuel := F'))%nat ->
  answer (F := F) us c <> Err Diverges -> answer (F := F') us c = answer (F := F) us c.
Proof. exact @ProofFuel.fuel_enough. Qed.
Print Assumptions C17_fuel.
Example C17_example : forall L : libm,
  (asks_hs (N := FNum L) (Call2 (N := FNum L) F_h_pt B754_nan (B754_infinity true)) = false /\
   rounds (N := FNum L) (Call2 (N := FNum L) F_h_pt B754_nan (B754_infinity true)) = 5300%Z) /\
  of_hs F_t_hs = true /\
  (forall h' q, toSIunit_h (N := FNum ProofExamples4.powers_only) BARE (flit 2000%dec) = Ok h' ->
   p3sat_h (N := FNum ProofExamples4.powers_only) h' = Ok q -> tame q) /\
  exists x, hL_p (N := FNum ProofExamples4.powers_only) (F := 200%nat) BARE (flit 20%dec) = Ok x.
Proof.
  intros L. exact (conj (conj eq_refl eq_refl) (conj (proj2 ProofExamples4.ex_tame)
    (conj (proj1 ProofExamples4.ex_tame) ProofExamples4.ex_runL))).
Qed.

(** C18 *)
Theorem C18_hL : forall (F : Fuel) us p x, dense us p -> hL_p us (Fin p) = Ok x ->
  exists h, x = Fin (to_user us Qh h) /\ 1670.858218 < h < 2087.23500164864.
Proof. exact @ProofLoopsApi.hL_inside. Qed.
Print Assumptions C18_hL.
Theorem C18_hV : forall (F : Fuel) us p x, dense us p -> hV_p us (Fin p) = Ok x ->
  exists h, x = Fin (to_user us Qh h) /\ 2087.23500164864 < h < 2568.592004.
Proof. exact @ProofLoopsApi.hV_inside. Qed.
Print Assumptions C18_hV.
Theorem C18_t_ph : forall (F : Fuel) us p h x, region_ph (si us Qp p) (si us Qh h) = Ok 5%Z -> t_ph us p h = Ok x ->
  exists T, x = Fin (to_user us QT T) /\ 1073.15 < T < 2273.15.
Proof. exact @ProofLoopsApi.t_ph_inside. Qed.
Print Assumptions C18_t_ph.
Theorem C18_t_ps : forall (F : Fuel) us p s x, region_ps (si us Qp p) (si us Qs s) = Ok 5%Z -> t_ps us p s = Ok x ->
  exists T, x = Fin (to_user us QT T) /\ 1073.15 < T < 2273.15.
Proof. exact @ProofLoopsApi.t_ps_inside. Qed.
Print Assumptions C18_t_ps.
Theorem C18_hL_binary64 : forall (L : libm) (F : Fuel) p x, in_dense (N := FNum L) p ->
  hL_p (N := FNum L) BARE p = Ok x -> fbetween (flit 1670.858218%dec) (flit 2087.23500164864%dec) x.
Proof. exact @ProofLoopsApi.hL_between. Qed.
Print Assumptions C18_hL_binary64.
Theorem C18_hV_binary64 : forall (L : libm) (F : Fuel) p x, in_dense (N := FNum L) p ->
  hV_p (N := FNum L) BARE p = Ok x ->
  fbetween (flit 2087.23500164864%dec) (Bplus mode_NE (flit 2563.592004%dec) (flit 5%dec)) x.
Proof. exact @ProofLoopsApi.hV_between. Qed.
Print Assumptions C18_hV_binary64.
Theorem C18_t_ph_binary64 : forall (L : libm) (F : Fuel) p h x, region_ph (N := FNum L) p h = Ok 5%Z ->
  t_ph (N := FNum L) BARE p h = Ok x -> fbetween (flit 1073.15%dec) (flit 2273.15%dec) x.
Proof. exact @ProofLoopsApi.t_ph_between. Qed.
Print Assumptions C18_t_ph_binary64.
Theorem C18_t_ps_binary64 : forall (L : libm) (F : Fuel) p s x, region_ps (N := FNum L) p s = Ok 5%Z ->
  t_ps (N := FNum L) BARE p s = Ok x -> fbetween (flit 1073.15%dec) (flit 2273.15%dec) x.
Proof. exact @ProofLoopsApi.t_ps_between. Qed.
Print Assumptions C18_t_ps_binary64.
Example C18_example : (dense BARE 20 /\ dense MKS 200) /\ (forall L, in_dense (N := FNum L) (flit 20%dec)) /\
  region_ph (N := FNum ProofExamples4.powers_only) (flit 1%dec) (flit 5000%dec) = Ok 5%Z /\
  exists x, t_ph (N := FNum ProofExamples4.powers_only) (F := 200%nat) BARE (flit 1%dec) (flit 5000%dec) = Ok x.
Proof.
  exact (conj (proj2 ProofExamples4.ex_in_dense_R) (conj ProofExamples4.ex_in_dense
    (conj ProofExamples4.ex_run5 ProofExamples4.ex_runt))).
Qed.

(** C19 *)
Theorem C19_hL : forall (F : Fuel) us p, dense us p -> (32 <= Z.of_nat fuel)%Z -> exists h,
  hL_p us (Fin p) = Ok (Fin (to_user us Qh h)) /\ 1670.858218 < h < 2087.23500164864 /\
  Rabs (P3sat h - to_si us Qp p) <= 0.00001.
Proof. exact @ProofLoopsApi.hL_converges. Qed.
Print Assumptions C19_hL.
Theorem C19_hV : forall (F : Fuel) us p, dense us p -> (32 <= Z.of_nat fuel)%Z -> exists h,
  hV_p us (Fin p) = Ok (Fin (to_user us Qh h)) /\ 2087.23500164864 < h < 2568.592004 /\
  Rabs (P3sat h - to_si us Qp p) <= 0.000001.
Proof. exact @ProofLoopsApi.hV_converges. Qed.
Print Assumptions C19_hV.
Theorem C19_hL_any : forall (N : Num) (F : Fuel) us (p p' r : num), toSIunit_p us p = Ok p' -> in_dense p' ->
  hL_p us p = Ok r -> exists h, fromSIunit_h us h = Ok r /\ met p3sat_h p' (lit (-1000)%dec) (lit 0.00001%dec) h.
Proof. exact @ProofLoopsApi.hL_met. Qed.
Print Assumptions C19_hL_any.
Theorem C19_hV_any : forall (N : Num) (F : Fuel) us (p p' r : num), toSIunit_p us p = Ok p' -> in_dense p' ->
  hV_p us p = Ok r -> exists h, fromSIunit_h us h = Ok r /\ met p3sat_h p' (lit (-1000)%dec) (lit 0.000001%dec) h.
Proof. exact @ProofLoopsApi.hV_met. Qed.
Print Assumptions C19_hV_any.
Theorem C19_t_ph_any : forall (N : Num) (F : Fuel) us (p h p' h' r : num), toSIunit_p us p = Ok p' ->
  toSIunit_h us h = Ok h' -> region_ph p' h' = Ok 5%Z -> t_ph us p h = Ok r ->
  exists T, fromSIunit_T us T = Ok r /\ met (h5_pT p') h' (sub h' (lit 1%dec)) (lit 0.00001%dec) T.
Proof. exact @ProofLoopsApi.t_ph_met. Qed.
Print Assumptions C19_t_ph_any.
Theorem C19_t_ps_any : forall (N : Num) (F : Fuel) us (p s p' s' r : num), toSIunit_p us p = Ok p' ->
  toSIunit_s us s = Ok s' -> region_ps p' s' = Ok 5%Z -> t_ps us p s = Ok r ->
  exists T, fromSIunit_T us T = Ok r /\ met (s5_pT p') s' (sub s' (lit 1%dec)) (lit 0.00001%dec) T.
Proof. exact @ProofLoopsApi.t_ps_met. Qed.
Print Assumptions C19_t_ps_any.
Theorem C19_h_pt_any : forall (N : Num) (F : Fuel) us (p t p' T' r : num), toSIunit_p us p = Ok p' ->
  toSIunit_T us t = Ok T' -> region_pT p' T' = Ok 3%Z -> h_pt us p t = Ok r ->
  exists h, fromSIunit_h us h = Ok r /\ met (T3_ph p') T' (add T' (lit 1%dec)) (lit 0.00001%dec) h.
Proof. exact @ProofLoopsApi.h_pt_met. Qed.
Print Assumptions C19_h_pt_any.
Theorem C19_t_ph_inverse : forall (F : Fuel) p T h, p <= 10 -> region_pT (Fin p) (Fin T) = Ok 5%Z ->
  h_pt BARE (Fin p) (Fin T) = Ok (Fin h) ->
  region_ph (Fin p) (Fin h) = Ok 5%Z -> h_pt BARE (Fin p) (Fin 1673.15) <> Ok (Fin (h - 1)) ->
  (40 <= Z.of_nat fuel)%Z -> exists T' h',
  t_ph BARE (Fin p) (Fin h) = Ok (Fin T') /\ Rabs (T' - T) <= 0.00001 /\
  h_pt BARE (Fin p) (Fin T') = Ok (Fin h') /\ Rabs (h' - h) <= 0.00001.
Proof. exact @ProofLoopsApi.round5_ph. Qed.
Print Assumptions C19_t_ph_inverse.
Theorem C19_t_ps_inverse : forall (F : Fuel) p T s, p <= 10 -> region_pT (Fin p) (Fin T) = Ok 5%Z ->
  s_pt BARE (Fin p) (Fin T) = Ok (Fin s) ->
  region_ps (Fin p) (Fin s) = Ok 5%Z -> s_pt BARE (Fin p) (Fin 1673.15) <> Ok (Fin (s - 1)) ->
  (40 <= Z.of_nat fuel)%Z -> exists T' s',
  t_ps BARE (Fin p) (Fin s) = Ok (Fin T') /\ Rabs (T' - T) <= 0.1 /\
  s_pt BARE (Fin p) (Fin T') = Ok (Fin s') /\ Rabs (s' - s) <= 0.00001.
Proof. exact @ProofLoopsApi.round5_ps. Qed.
Print Assumptions C19_t_ps_inverse.
(** Without the exception above the inverse is off by a whole unit: the loop's first guess is h - 1. *)
Theorem C19_first_guess_refuted : forall F : Fuel, (0 < Z.of_nat fuel)%Z -> exists p h T h',
  region_ph (Fin p) (Fin h) = Ok 5%Z /\ t_ph BARE (Fin p) (Fin h) = Ok (Fin T) /\
  h_pt BARE (Fin p) (Fin T) = Ok (Fin h') /\ h' = h - 1.
Proof. exact @ProofLoopsApi.guess5_refuted. Qed.
Print Assumptions C19_first_guess_refuted.
Example C19_example : forall F : Fuel, in_dense (N := RNum) (Fin 20) /\ (dense BARE 20 /\ dense MKS 200) /\
  exists h s, region_pT (Fin 1) (Fin 1500) = Ok 5%Z /\
  h_pt BARE (Fin 1) (Fin 1500) = Ok (Fin h) /\ region_ph (Fin 1) (Fin h) = Ok 5%Z /\
  h_pt BARE (Fin 1) (Fin 1673.15) <> Ok (Fin (h - 1)) /\
  s_pt BARE (Fin 1) (Fin 1500) = Ok (Fin s) /\ region_ps (Fin 1) (Fin s) = Ok 5%Z /\
  s_pt BARE (Fin 1) (Fin 1673.15) <> Ok (Fin (s - 1)).
Proof.
  intros F. exact (conj (proj1 ProofExamples4.ex_in_dense_R) (conj (proj2 ProofExamples4.ex_in_dense_R)
    (ProofExamples4.ex_round5 F))).
Qed.
