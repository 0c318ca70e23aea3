(** * C46: different ways to ask for the same property give the same answer. *)
From Coq Require Import ZArith Reals List Bool.
From Verif Require Import Py ExactReal ModState ModUnits ModSelect ModXSteam SpecUnits SpecApi SpecThermo SpecAgree.
From Verif Require ProofAgree ProofExamples6.
Open Scope R_scope.

(** C46 *)
Theorem C46_ph : forall (F : Fuel) us f g p h t r, twin_ph f = Some g -> single_phase r ->
  region_ph (si us Qp p) (si us Qh h) = Ok r -> t_ph us p h = Ok t -> region_pT (si us Qp p) (si us QT t) = Ok r ->
  run2 f us p h = run2 g us p t.
Proof. exact @ProofAgree.agree_ph_units. Qed.
Print Assumptions C46_ph.
Theorem C46_ps : forall (F : Fuel) us f g p s t r, twin_ps f = Some g -> single_phase r ->
  region_ps (si us Qp p) (si us Qs s) = Ok r -> t_ps us p s = Ok t -> region_pT (si us Qp p) (si us QT t) = Ok r ->
  run2 f us p s = run2 g us p t.
Proof. exact @ProofAgree.agree_ps_units. Qed.
Print Assumptions C46_ps.
Theorem C46_hs : forall (F : Fuel) us h s p r, (r = 1 \/ r = 2 \/ r = 3)%Z ->
  region_hs (si us Qh h) (si us Qs s) = Ok r -> p_hs us h s = Ok p -> region_ph (si us Qp p) (si us Qh h) = Ok r ->
  t_hs us h s = t_ph us p h.
Proof. exact @ProofAgree.agree_hs_units. Qed.
Print Assumptions C46_hs.
Theorem C46_ph_any : forall (N : Num) (F : Fuel) f g p h T r, twin_ph f = Some g -> single_phase r ->
  region_ph p h = Ok r -> t_ph BARE p h = Ok T -> region_pT p T = Ok r -> run2 f BARE p h = run2 g BARE p T.
Proof. exact @ProofAgree.agree_ph. Qed.
Print Assumptions C46_ph_any.
Theorem C46_ps_any : forall (N : Num) (F : Fuel) f g p s T r, twin_ps f = Some g -> single_phase r ->
  region_ps p s = Ok r -> t_ps BARE p s = Ok T -> region_pT p T = Ok r -> run2 f BARE p s = run2 g BARE p T.
Proof. exact @ProofAgree.agree_ps. Qed.
Print Assumptions C46_ps_any.
Theorem C46_hs_any : forall (N : Num) (F : Fuel) h s p r, (r = 1 \/ r = 2 \/ r = 3)%Z ->
  region_hs h s = Ok r -> p_hs BARE h s = Ok p -> region_ph p h = Ok r -> t_hs BARE h s = t_ph BARE p h.
Proof. exact @ProofAgree.agree_hs. Qed.
Print Assumptions C46_hs_any.
Theorem C46_region3_ph : forall (N : Num) (F : Fuel) f e p h, eos3 f = Some e -> args_of f = (Qp, Qh) ->
  region_ph p h = Ok 3%Z ->
  run2 f BARE p h = (let* rho := rho_ph BARE p h in let* T := t_ph BARE p h in e rho T).
Proof. exact @ProofAgree.region3_ph. Qed.
Print Assumptions C46_region3_ph.
Theorem C46_region3_ps : forall (N : Num) (F : Fuel) f e p s, eos3 f = Some e -> args_of f = (Qp, Qs) ->
  region_ps p s = Ok 3%Z ->
  run2 f BARE p s = (let* rho := rho_ps BARE p s in let* T := t_ps BARE p s in e rho T).
Proof. exact @ProofAgree.region3_ps. Qed.
Print Assumptions C46_region3_ps.
Theorem C46_region3_pt : forall (N : Num) (F : Fuel) f e p T, eos3 f = Some e -> args_of f = (Qp, QT) ->
  region_pT p T = Ok 3%Z -> run2 f BARE p T = (let* rho := rho_pt BARE p T in e rho T).
Proof. exact @ProofAgree.region3_pt. Qed.
Print Assumptions C46_region3_pt.
Theorem C46_region3_v : forall (N : Num) (F : Fuel) p T h, region_pT p T = Ok 3%Z -> h_pt BARE p T = Ok h ->
  region_ph p h = Ok 3%Z -> v_pt BARE p T = v_ph BARE p h.
Proof. exact @ProofAgree.region3_v. Qed.
Print Assumptions C46_region3_v.
Theorem C46_wet_nan : forall (N : Num) (F : Fuel) f us x y x' y', one_phase_only f = true ->
  (args_of f = (Qp, Qh) -> toSIunit_p us x = Ok x' /\ toSIunit_h us y = Ok y' /\
     (region_ph x' y' = Ok 4%Z \/ region_ph x' y' = Ok 0%Z)) ->
  (args_of f = (Qp, Qs) -> toSIunit_p us x = Ok x' /\ toSIunit_s us y = Ok y' /\
     (region_ps x' y' = Ok 4%Z \/ region_ps x' y' = Ok 0%Z)) ->
  (args_of f = (Qp, QT) -> toSIunit_p us x = Ok x' /\ toSIunit_T us y = Ok y' /\
     (region_pT x' y' = Ok 4%Z \/ region_pT x' y' = Ok 0%Z)) ->
  run2 f us x y = Ok nan.
Proof. exact @ProofAgree.wet_nan. Qed.
Print Assumptions C46_wet_nan.

Example C46_example : let F : Fuel := 200%nat in
  (* water at 1 MPa and 500 kJ/kg, at 1 MPa and 1.5 kJ/(kg K), at 500 kJ/kg and 1.5 kJ/(kg K) *)
  (twin_ph F_Cp_ph = Some F_Cp_pt /\ exists T, region_ph (Fin 1) (Fin 500) = Ok 1%Z /\ t_ph BARE (Fin 1) (Fin 500) = Ok (Fin T) /\
     region_pT (Fin 1) (Fin T) = Ok 1%Z) /\
     (twin_ps F_h_ps = Some F_h_pt /\ exists T, region_ps (Fin 1) (Fin 1.5) = Ok 1%Z /\ t_ps BARE (Fin 1) (Fin 1.5) = Ok (Fin T) /\
     region_pT (Fin 1) (Fin T) = Ok 1%Z) /\
     (exists p, region_hs (Fin 500) (Fin 1.5) = Ok 1%Z /\ p_hs BARE (Fin 500) (Fin 1.5) = Ok (Fin p) /\
     region_ph (Fin p) (Fin 500) = Ok 1%Z) /\
     (* dense fluid at 25 MPa *)
  (eos3 F_s_ph = Some ModRegion3.s3_rhoT /\ region_ph (Fin 25) (Fin 2000) = Ok 3%Z /\
     region_ps (Fin 25) (Fin 4) = Ok 3%Z /\ region_pT (Fin 25) (Fin 650) = Ok 3%Z) /\
     (exists T h, region_pT (Fin 25) (Fin T) = Ok 3%Z /\ h_pt BARE (Fin 25) (Fin T) = Ok (Fin h) /\
     region_ph (Fin 25) (Fin h) = Ok 3%Z) /\
     (* wet steam at 1 MPa *)
  (one_phase_only F_w_ps = true /\ region_ps (Fin 1) (Fin 4) = Ok 4%Z).
Proof. exact (@ProofExamples6.agree_examples 200%nat eq_refl). Qed.
