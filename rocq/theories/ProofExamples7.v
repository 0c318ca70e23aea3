(** Sample states for C47. *)
From Coq Require Import ZArith Reals Lra Lia List Bool.
From Interval Require Import Tactic.
From Verif Require Import Py ExactReal ModState ModConstants ModUnits ModRegion1 ModRegion2 ModRegion3 ModRegion4
  ModBorders ModSelect ModXSteam SpecUnits SpecApi SpecThermo SpecAgree RealSum ProofEos ProofSat ProofSatApi ProofThermoApi ProofThermo
  ProofMisc ProofWet ProofWetApi ProofExamples ProofExamples2 ProofExamples3 ProofBack SatS ProofBackS ProofExamples6 ProofRound.
Import ListNotations.
Open Scope R_scope.

Section Ex.
Context {F : Fuel}.
Lemma water_50 : region_pT (Fin 50) (Fin 400) = Ok 1%Z.
Proof.
  apply region_map. left. rewrite !psatR_eq by lra.
  assert (p4R 400 < 0.3) by (unfold p4R, be, qA, qB, qC, th; interval with (i_prec 60)).
  unfold in_range, at_saturation. repeat split; try lra. rewrite psatR_eq by lra.
  rewrite Rabs_right by lra. lra.
Qed.
Lemma hs_50 : 567 < h1R 50 400 < 568 /\ 1.557 < s1R 50 400 < 1.558.
Proof. repeat split; reals; interval with (i_prec 60). Qed.
Lemma T1_100_s s : 1.557 < s < 1.558 -> 390 < S2 tabT1s 0 0 100 (s + 2) < 450.
Proof. intros; split; reals; interval with (i_prec 80). Qed.
Lemma T1_100_s' s : 1.557 < s < 1.558 -> 400 < S2 tabT1s 0 0 100 (s + 2).
Proof. intros; reals; interval with (i_prec 80). Qed.
Lemma H4_s s : 1.557 < s < 1.558 -> H4a s < 567.
Proof. intros. unfold H4a; reals; interval with (i_prec 80). Qed.
Lemma h1_100_568 T : 400 < T < 450 -> 568 < h1R 100 T.
Proof. intros; reals; interval with (i_prec 60, i_bisect T, i_taylor T, i_degree 4). Qed.
Lemma region_hs_50 h s : 567 < h < 568 -> 1.557 < s < 1.558 -> region_hs (Fin h) (Fin s) = Ok 1%Z.
Proof.
  intros Hh Hs.
  unfold region_hs. decide_s. red1. rewrite xdiv_Fin by known. cbn [bind]. red1.
  decide_s. rewrite h4a_closed by lra. cbn [bind]. decide_s. pose proof (H4_s s Hs).
  rewrite Rltb_false by lra. cbn [bind]. decide_s. change (D 100%dec) with 100.
  rewrite T1_ps_closed. cbn [bind]. pose proof (T1_100_s s Hs). pose proof (T1_100_s' s Hs). set (T := S2 tabT1s 0 0 100 (s + 2)) in *. clearbody T.
  destruct (eos1 100 T ltac:(unfold dom1; lra)) as (_ & -> & _). cbn [bind ltb RNum cmp].
  pose proof (h1_100_568 T ltac:(lra)). now rewrite Rltb_true by lra.
Qed.
Lemma round_examples :
  region_ph (Fin 1) (Fin 500) = Ok 1%Z /\ region_ps (Fin 1) (Fin 1.5) = Ok 1%Z /\
  region_pT (Fin 50) (Fin 400) = Ok 1%Z /\
  exists h s, h_pt BARE (Fin 50) (Fin 400) = Ok (Fin h) /\ s_pt BARE (Fin 50) (Fin 400) = Ok (Fin s) /\
    region_hs (Fin h) (Fin s) = Ok 1%Z.
Proof.
  split; [apply region_1_500|]. split; [apply region_1_s15|]. split; [apply water_50|].
  exists (h1R 50 400), (s1R 50 400). destruct hs_50 as [A B].
  destruct (api_pT _ _ _ water_50) as (_ & -> & -> & _); [tauto|]. cbn [pick Z.eqb Pos.eqb].
  split; [apply eos1h; unfold dom1; lra|]. split; [apply eos1s; unfold dom1; lra|]. now apply region_hs_50.
Qed.
Lemma region_1_3000 : region_ph (Fin 1) (Fin 3000) = Ok 2%Z.
Proof.
  unfold region_ph. cbn [add mul RNum lit lift2]. cmps. cbn [bind].
  rewrite (proj1 (T4_low 1 low_1)). cbn [bind]. rewrite log_Fin by lra. rewrite ln_1. cbn [bind].
  cbn [add mul sub fabs RNum lit lift2 lift1].
  rewrite (Rabs_pos_eq (3000 - _)) by (undec; lra). cmps. cbn [bind]. cmps. cbn [bind].
  rewrite Rabs_pos_eq by (undec; lra). cmps. cbn [bind]. cmps. reflexivity.
Qed.
Lemma four_regions : region_ph (Fin 1) (Fin 500) = Ok 1%Z /\ region_ph (Fin 1) (Fin 3000) = Ok 2%Z /\
  region_ph (Fin 25) (Fin 2000) = Ok 3%Z /\ region_ph (Fin 1) (Fin 1500) = Ok 4%Z.
Proof. repeat split; [apply region_1_500 | apply region_1_3000 | apply region_25; lra | apply region_1_1500]. Qed.
End Ex.
