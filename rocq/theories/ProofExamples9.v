(** Sample states for C52. *)
From Coq Require Import ZArith Reals Lra Lia List Bool.
From Interval Require Import Tactic.
From Verif Require Import Py ExactReal ModState ModConstants ModUnits ModRegion1 ModRegion2 ModRegion3 ModRegion4
  ModBorders ModSelect ModXSteam SpecUnits SpecApi SpecThermo SpecAgree RealSum ProofEos ProofSat ProofSatApi ProofThermoApi ProofThermo
  ProofMisc ProofWet ProofWetApi ProofExamples ProofExamples2 ProofExamples3 ProofBack SatS ProofBackS ProofExamples6 ProofRound ProofExamples7 ProofIce ProofTph ProofRound2.
Open Scope R_scope.

Section Ex.
Context {F : Fuel}.
Lemma steam_50 : region_pT (Fin 50) (Fin 1000) = Ok 2%Z.
Proof.
  unfold region_pT. cmps. cbn [bind]. unfold B23p_T. rewrite powz_pos. change (Pos.to_nat 2) with 2%nat.
  cbn [bind add sub mul RNum lit lift2 cmp]. rewrite Rltb_false; [reflexivity|]. undec. cbn [pow]. lra.
Qed.
Lemma h_50 : 3500 < h2R 50 1000 < 3800 /\ h1R 50 623.15 < 1700 /\ 3800 < h2R 50 1073.15.
Proof. repeat split; reals; interval with (i_prec 60). Qed.
Lemma region_50 h : 3500 < h < 3800 -> region_ph (Fin 50) (Fin h) = Ok 2%Z.
Proof.
  intros Hh. destruct h_50 as (_ & A & B). unfold region_ph. cbn [add mul RNum lit lift2]. cmps. cbn [bind]. cmps.
  change (D 623.15%dec) with 623.15. change (D 1073.15%dec) with 1073.15.
  destruct (eos1 50 623.15) as (_ & -> & _); [unfold dom1; lra|]. cbn [bind]. cmps. cbn [bind].
  rewrite B23T_closed by lra. cbn [bind]. assert (T := T23_in 50 ltac:(lra)).
  destruct (eos2 50 (T23 50)) as (_ & -> & _); [unfold dom2; lra|]. cbn [bind]. assert (X := h23_p 50 ltac:(lra)).
  cbn [cmp]. rewrite (Rltb_false h (h2R 50 (T23 50))) by lra.
  destruct (eos2 50 1073.15) as (_ & -> & _); [unfold dom2; lra|]. cbn [bind cmp]. now rewrite Rltb_true by lra.
Qed.
Lemma round2_examples : region_ph (Fin 1) (Fin 3000) = Ok 2%Z /\ region_pT (Fin 1) (Fin 600) = Ok 2%Z /\
  region_pT (Fin 50) (Fin 1000) = Ok 2%Z /\
  exists h, h_pt BARE (Fin 50) (Fin 1000) = Ok (Fin h) /\ region_ph (Fin 50) (Fin h) = Ok 2%Z.
Proof.
  split; [apply region_1_3000|]. split; [apply (proj1 (proj2 ex_seam))|]. split; [apply steam_50|].
  exists (h2R 50 1000). destruct (api_pT _ _ _ steam_50) as (_ & -> & _); [tauto|]. cbn [pick Z.eqb Pos.eqb].
  split; [apply eos2h; unfold dom2; lra|]. apply region_50, h_50.
Qed.
End Ex.
