(** * C15, C34: entropies without a saturation pressure, and h_prho in region 5. *)
From Coq Require Import ZArith Reals.
From Verif Require Import Py ExactReal ModState ModUnits ModRegion2 ModRegion5 ModSelect ModXSteam SpecUnits SpecApi SpecLoops SpecLeaks.
From Verif Require ProofHs ProofPrho ProofExamples5.
Open Scope R_scope.

(** C15 *)
Theorem C15_raises : forall (F : Fuel) us h s,
  region_hs (si us Qh h) (Fin (to_si us Qs s)) = Ok 4%Z -> unset (to_si us Qs s) ->
  t_hs us h (Fin s) = Err UnboundLocalError /\ p_hs us h (Fin s) = Err UnboundLocalError /\
  tc_hs us h (Fin s) = Err UnboundLocalError.
Proof. exact @ProofHs.hs_raises. Qed.
Print Assumptions C15_raises.
Theorem C15_slivers : forall (F : Fuel) s,
  5.210887663 < s <= 5.210887825 \/ 9.15546555571324 <= s < 9.155759395 ->
  exists h, region_hs (Fin h) (Fin s) = Ok 4%Z /\ t_hs BARE (Fin h) (Fin s) = Err UnboundLocalError /\
    p_hs BARE (Fin h) (Fin s) = Err UnboundLocalError.
Proof. exact @ProofHs.slivers_refuted. Qed.
Print Assumptions C15_slivers.
Theorem C15_refuted : forall F : Fuel, exists h s, region_hs (Fin h) (Fin s) = Ok 4%Z /\
  t_hs BARE (Fin h) (Fin s) = Err UnboundLocalError /\ p_hs BARE (Fin h) (Fin s) = Err UnboundLocalError.
Proof. exact @ProofExamples5.C15_bad. Qed.
Print Assumptions C15_refuted.
Example C15_example : region_hs (si MKS Qh (Fin 2000)) (Fin (to_si MKS Qs 5.2108877)) = Ok 4%Z /\
  unset (to_si MKS Qs 5.2108877).
Proof. exact ProofExamples5.ex_C15. Qed.

(** C34 *)
Theorem C34_region2_volume : forall (N : Num) (F : Fuel) us p rho p' q v' rho' r,
  toSIunit_p us p = Ok p' -> div #1%num rho = Ok q -> toSIunit_v us q = Ok v' -> div #1%num v' = Ok rho' ->
  region_prho p' rho' = Ok 5%Z -> h_prho us p rho = Ok r ->
  exists T h, met (fun T => let* v := v2_pT p' T in div #1%num v) rho' #(-1000)%num #0.000001%num T /\
    h5_pT p' T = Ok h /\ fromSIunit_h us h = Ok r.
Proof. exact @ProofPrho.h_prho_met. Qed.
Print Assumptions C34_region2_volume.
Theorem C34_refuted : forall F : Fuel, (4 <= Z.of_nat fuel)%Z -> exists p T rho h h',
  region_pT (Fin p) (Fin T) = Ok 5%Z /\ rho_pt BARE (Fin p) (Fin T) = Ok (Fin rho) /\
  h_pt BARE (Fin p) (Fin T) = Ok (Fin h) /\ region_prho (Fin p) (Fin rho) = Ok 5%Z /\
  h_prho BARE (Fin p) (Fin rho) = Ok (Fin h') /\ 1 < h' - h.
Proof. exact @ProofPrho.prho5_refuted. Qed.
Print Assumptions C34_refuted.
Theorem C34_above_2073 : forall (F : Fuel) p T rho, p <= 10 -> 2073.15 < T -> region_pT (Fin p) (Fin T) = Ok 5%Z ->
  rho_pt BARE (Fin p) (Fin T) = Ok (Fin rho) -> region_prho (Fin p) (Fin rho) <> Ok 5%Z.
Proof. exact @ProofPrho.above_2073. Qed.
Print Assumptions C34_above_2073.
Example C34_example : forall F : Fuel, (exists rho, region_prho (Fin 10) (Fin rho) = Ok 5%Z) /\
  exists rho, region_pT (Fin 10) (Fin 2200) = Ok 5%Z /\ rho_pt BARE (Fin 10) (Fin 2200) = Ok (Fin rho).
Proof. exact @ProofExamples5.ex_C34. Qed.
