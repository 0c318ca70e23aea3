(** Examples for C10, C15 and C34. *)
From Coq Require Import ZArith Reals Lra Lia List Bool.
From Interval Require Import Tactic.
From Verif Require Import Py ExactReal ModState ModUnits ModBorders ModRegion1 ModRegion2 ModRegion3 ModRegion4 ModRegion5 ModSelect ModXSteam
  SpecUnits SpecApi SpecLoops SpecLeaks ProofUnits ProofCovariance ProofGeneric RealSum ProofEos ProofThermo ProofSat ProofSatApi ProofThermoApi ProofMisc ProofMono
  ProofReg ProofWet ProofWetApi ProofLeaks SatS ProofHs ProofPrho.
Open Scope R_scope.
Section Real.
Context {F : Fuel}.
Lemma marker_MKS : marker MKS = Fin (-99999).
Proof. unfold marker, to_user. cbn [origin shift factor]. f_equal. lra. Qed.
Lemma ex_C10 :
  (273.15 < to_si MKS QT 0.005 <= 273.1599 /\ hL_t MKS (Fin 0.005) = Ok (Fin (-99999))) /\
  (exists x, hL_t MKS (Fin 100) = Ok (Fin x)) /\
  h_px MKS (Fin 0.001) (Fin 0.5) = Ok (Fin (-99999)).
Proof.
  assert (A : 273.15 < to_si MKS QT 0.005 <= 273.1599) by (unfold to_si; cbn [origin shift factor]; lra).
  split; [split; [exact A|]|split].
  - rewrite <- marker_MKS. apply t_slivers. now left.
  - assert (T : to_si MKS QT 100 = 373.15) by (unfold to_si; cbn [origin shift factor]; lra).
    unfold hL_t. rewrite to_T. cbn [bind si lift1]. rewrite T. cbn [ltb RNum lit cmp]. rewrite !Rltb_true by (undec; lra). cbn [andb].
    rewrite p4_closed by lra. cbn [bind].
    assert (P : 0.000611657 < p4R 373.15 < 16.529) by (unfold p4R, be, qA, qB, qC, th; split; interval with (i_prec 80)).
    rewrite (h4L_low (p4R 373.15) P). cbn [bind]. rewrite from_h. eexists. reflexivity.
  - rewrite <- marker_MKS. apply h_px_marker; [lra|]. unfold to_si; cbn [origin shift factor]; lra.
Qed.
Lemma C10_bad : exists t, hL_t MKS (Fin t) = Ok (Fin (-99999)) /\ hV_t MKS (Fin t) = Ok (Fin (-99999)).
Proof. exists 0.005. rewrite <- marker_MKS. apply t_slivers. unfold to_si; cbn [origin shift factor]; lra. Qed.
Lemma C15_bad : exists h s, region_hs (Fin h) (Fin s) = Ok 4%Z /\
  t_hs BARE (Fin h) (Fin s) = Err UnboundLocalError /\ p_hs BARE (Fin h) (Fin s) = Err UnboundLocalError.
Proof. destruct (slivers_refuted 5.2108877) as (h & H); [lra|]. now exists h, 5.2108877. Qed.
Lemma ex_C15 : region_hs (si MKS Qh (Fin 2000)) (Fin (to_si MKS Qs 5.2108877)) = Ok 4%Z /\ unset (to_si MKS Qs 5.2108877).
Proof.
  assert (S : to_si MKS Qs 5.2108877 = 5.2108877) by (unfold to_si; cbn [origin shift factor]; lra). rewrite S.
  split; [|unfold unset; lra]. cbn [si lift1]. replace (to_si MKS Qh 2000) with 2000 by (unfold to_si; cbn [origin shift factor]; lra).
  apply wet_c; [lra|]. pose proof (room_c 5.2108877 ltac:(lra)). lra.
Qed.
Lemma ex_C34 : (exists rho, region_prho (Fin 10) (Fin rho) = Ok 5%Z) /\
  exists rho, region_pT (Fin 10) (Fin 2200) = Ok 5%Z /\ rho_pt BARE (Fin 10) (Fin 2200) = Ok (Fin rho).
Proof.
  split; [exists rho3; apply region_rho3|]. eexists. split; [apply region5_intro; lra|]. apply rho_5; try lra.
  unfold v5R. apply Rgt_not_eq. reals. interval with (i_prec 60).
Qed.
End Real.
