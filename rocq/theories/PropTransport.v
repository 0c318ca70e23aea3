(** * C36, C37, C45: viscosity, Prandtl number, thermal conductivity. *)
From Coq Require Import ZArith Reals List Lra.
From Verif Require Import Py ModState ModSelect ModXSteam ExactReal SpecUnits SpecApi SpecTransport.
From Verif Require ProofTransport ProofConduct ProofTph ProofExamples3.
Open Scope R_scope.

(** C36: my_pt is the viscosity formula at the density rho_pt reports, and answers exactly
    where there is a density and the temperature is at most 1173.15 K. *)
Theorem C36_my_pt : forall (F : Fuel) us p t m,
  my_pt us (Fin p) (Fin t) = Ok (Fin m) <->
  exists rho, rho_pt us (Fin p) (Fin t) = Ok (Fin rho) /\ to_si us QT t <= 1173.15 /\
    m = to_user us Qmy (viscosity (to_si us Qrho rho) (to_si us QT t)).
Proof. exact @ProofTransport.my_pt_any. Qed.
Print Assumptions C36_my_pt.
Theorem C36_my_pt_positive : forall (F : Fuel) us p t m, my_pt us (Fin p) (Fin t) = Ok (Fin m) -> 0 < m.
Proof. exact @ProofTransport.my_pt_pos. Qed.
Print Assumptions C36_my_pt_positive.
(** my_ph is the same formula at the density and temperature of rho_ph and t_ph, and answers exactly
    where these do, outside the wet region, up to 1173.15 K. *)
Theorem C36_my_ph : forall (F : Fuel) us p h m, my_ph us (Fin p) (Fin h) = Ok (Fin m) <->
  exists r rho T, region_ph (Fin (to_si us Qp p)) (Fin (to_si us Qh h)) = Ok r /\ r <> 4%Z /\
    t_ph us (Fin p) (Fin h) = Ok (Fin T) /\ rho_ph us (Fin p) (Fin h) = Ok (Fin rho) /\
    to_si us QT T <= 1173.15 /\ m = to_user us Qmy (viscosity (to_si us Qrho rho) (to_si us QT T)).
Proof. exact @ProofTph.my_ph_iff. Qed.
Print Assumptions C36_my_ph.
Theorem C36_my_ph_positive : forall (F : Fuel) us p h m, my_ph us (Fin p) (Fin h) = Ok (Fin m) -> 0 < m.
Proof. exact @ProofTph.my_ph_positive. Qed.
Print Assumptions C36_my_ph_positive.
Example C36_example : forall F : Fuel,
  (exists m, my_pt BARE (Fin 1) (Fin 400) = Ok (Fin m)) /\ (exists m, my_ph BARE (Fin 1) (Fin 500) = Ok (Fin m)) /\
  region_ph (Fin 1) (Fin 500) = Ok 1%Z /\
  exists T rho, t_ph BARE (Fin 1) (Fin 500) = Ok (Fin T) /\ 392 < T < 393 /\
    rho_ph BARE (Fin 1) (Fin 500) = Ok (Fin rho) /\ 0 < rho.
Proof.
  intros F. exact (conj ProofExamples3.ex_my_pt (conj ProofExamples3.ex_my_ph
    (conj ProofExamples3.region_1_500 ProofExamples3.t_1_500))).
Qed.

(** C37 *)
Theorem C37_pr_pt : forall (F : Fuel) us p t x, pr_pt us (Fin p) (Fin t) = Ok (Fin x) <->
  exists cp m k, Cp_pt us (Fin p) (Fin t) = Ok (Fin cp) /\ my_pt us (Fin p) (Fin t) = Ok (Fin m) /\
    tc_pt us (Fin p) (Fin t) = Ok (Fin k) /\ to_si us Qtc k <> 0 /\
    x = to_si us QCp cp * 1000 * to_si us Qmy m / to_si us Qtc k.
Proof. exact @ProofTransport.pr_pt_any. Qed.
Print Assumptions C37_pr_pt.
Theorem C37_pr_ph : forall (F : Fuel) us p h x, pr_ph us (Fin p) (Fin h) = Ok (Fin x) <->
  exists cp m k, Cp_ph us (Fin p) (Fin h) = Ok (Fin cp) /\ my_ph us (Fin p) (Fin h) = Ok (Fin m) /\
    tc_ph us (Fin p) (Fin h) = Ok (Fin k) /\ to_si us Qtc k <> 0 /\
    x = to_si us QCp cp * 1000 * to_si us Qmy m / to_si us Qtc k.
Proof. exact @ProofTransport.pr_ph_any. Qed.
Print Assumptions C37_pr_ph.
Theorem C37_pr_pt_units : forall (F : Fuel) us p t, pr_pt us p t = pr_pt BARE (si us Qp p) (si us QT t).
Proof. exact @ProofTransport.pr_pt_units. Qed.
Print Assumptions C37_pr_pt_units.
Theorem C37_pr_ph_units : forall (F : Fuel) us p h, pr_ph us p h = pr_ph BARE (si us Qp p) (si us Qh h).
Proof. exact @ProofTransport.pr_ph_units. Qed.
Print Assumptions C37_pr_ph_units.
Example C37_example : forall F : Fuel, exists x, pr_pt BARE (Fin 1) (Fin 400) = Ok (Fin x).
Proof. exact @ProofExamples3.ex_pr_pt. Qed.

(** C45 *)
Theorem C45_tc_pt : forall (F : Fuel) us p t k, tc_pt us (Fin p) (Fin t) = Ok (Fin k) <->
  exists rho, rho_pt us (Fin p) (Fin t) = Ok (Fin rho) /\ 0 < rho /\ cond_range (to_si us Qp p) (to_si us QT t) /\
    is_conductivity (to_si us Qrho rho) (to_si us QT t) (to_si us Qtc k).
Proof. exact @ProofConduct.tc_pt_any. Qed.
Print Assumptions C45_tc_pt.
Theorem C45_tc_ph : forall (F : Fuel) us p h k, tc_ph us (Fin p) (Fin h) = Ok (Fin k) <->
  exists rho T, rho_ph us (Fin p) (Fin h) = Ok (Fin rho) /\ t_ph us (Fin p) (Fin h) = Ok (Fin T) /\
    0 < rho /\ cond_range (to_si us Qp p) (to_si us QT T) /\
    is_conductivity (to_si us Qrho rho) (to_si us QT T) (to_si us Qtc k).
Proof. exact @ProofConduct.tc_ph_any. Qed.
Print Assumptions C45_tc_ph.
Theorem C45_tc_pt_positive : forall (F : Fuel) us p t k, tc_pt us (Fin p) (Fin t) = Ok (Fin k) -> 0 < k.
Proof. exact @ProofConduct.tc_pt_pos. Qed.
Print Assumptions C45_tc_pt_positive.
Theorem C45_tc_ph_positive : forall (F : Fuel) us p h k, tc_ph us (Fin p) (Fin h) = Ok (Fin k) -> 0 < k.
Proof. exact @ProofTph.tc_ph_positive. Qed.
Print Assumptions C45_tc_ph_positive.
Example C45_example : forall F : Fuel,
  (exists k, tc_pt BARE (Fin 1) (Fin 400) = Ok (Fin k)) /\ (exists k, tc_ph BARE (Fin 1) (Fin 500) = Ok (Fin k)).
Proof. intros F. exact (conj ProofExamples3.ex_tc_pt ProofExamples3.ex_tc_ph). Qed.
