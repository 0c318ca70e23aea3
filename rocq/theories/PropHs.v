(** * C54: wet steam by enthalpy and entropy. *)
From Coq Require Import ZArith Reals.
From Verif Require Import Py ExactReal ModState ModUnits ModSelect ModXSteam SpecUnits.
From Verif Require ProofHs2.
Open Scope R_scope.

(** C54 *)
Theorem C54_refuted : forall F : Fuel, (0 < fuel)%nat -> exists p h s T,
  region_ph (Fin p) (Fin h) = Ok 4%Z /\ s_ph BARE (Fin p) (Fin h) = Ok (Fin s) /\ t_ph BARE (Fin p) (Fin h) = Ok (Fin T) /\
  region_hs (Fin h) (Fin s) = Ok 4%Z /\ t_hs BARE (Fin h) (Fin s) = Err ValueError /\ p_hs BARE (Fin h) (Fin s) = Err ValueError.
Proof. exact @ProofHs2.wet_hs_fails. Qed.
Print Assumptions C54_refuted.
Theorem C54_raises : forall (F : Fuel) us h s, (0 < fuel)%nat ->
  3.77828134 < to_si us Qs s <= 5.210887663 -> to_si us Qh h <= 1390 ->
  region_hs (Fin (to_si us Qh h)) (Fin (to_si us Qs s)) = Ok 4%Z ->
  t_hs us (Fin h) (Fin s) = Err ValueError /\ p_hs us (Fin h) (Fin s) = Err ValueError /\ tc_hs us (Fin h) (Fin s) = Err ValueError.
Proof. exact @ProofHs2.hs_fails. Qed.
Print Assumptions C54_raises.
(** The states C54_raises is about: everything above the straight line through the triple point states. *)
Theorem C54_where : forall h s, 3.77828134 < s <= 5.210887663 -> 273.155 * s <= h <= 1390 ->
  region_hs (Fin h) (Fin s) = Ok 4%Z.
Proof. exact ProofHs2.wet_low. Qed.
Print Assumptions C54_where.
Example C54_example : exists h s, 3.77828134 < s <= 5.210887663 /\ h <= 1390 /\ region_hs (Fin h) (Fin s) = Ok 4%Z.
Proof. exact ProofHs2.some_wet. Qed.
