(** Sample states for C27 and C49 to C51. *)
From Coq Require Import ZArith Reals Lra Lia List Bool.
From Interval Require Import Tactic.
From Verif Require Import Py ExactReal ModState ModConstants ModUnits ModRegion1 ModRegion2 ModRegion3 ModRegion4
  ModBorders ModSelect ModXSteam SpecUnits SpecApi SpecThermo SpecWet SpecWet2 SpecAgree RealSum ProofEos ProofSat ProofSatApi ProofThermoApi ProofThermo
  ProofMisc ProofIce ProofWet ProofWetApi ProofExamples ProofBack SatS ProofBackS ProofReg Sat3 ProofExamples6 ProofBisect ProofLoops ProofPrho.
Open Scope R_scope.

Lemma ex_sat : (in_sat MKS 10 /\ in_sat FLS 100 /\ in_sat BARE 22) /\
  (forall F : Fuel, enough MKS 10 /\ enough FLS 100) /\ (forall F : Fuel, fuel = 32%nat -> enough BARE 22).
Proof.
  unfold in_sat, enough, to_si; cbn [origin shift factor]. repeat split; try lra. intros F -> _. cbn. lia.
Qed.
Lemma ex_fund : 16.529 <= to_si MKS Qp 200 < 22.06395 /\ forall F : Fuel, fuel = 32%nat -> enough MKS 200.
Proof. unfold enough, to_si; cbn [origin shift factor]. repeat split; try lra. intros F -> _. cbn. lia. Qed.

Lemma b23_20 : 649.7 < T23 20 < 649.9.
Proof. unfold T23. split; interval with (i_prec 60). Qed.
Lemma h_20 : h1R 20 623.15 < 1650 /\ (forall T, 649.7 < T < 649.9 -> 2600 < h2R 20 T).
Proof. split; [reals; interval with (i_prec 60)|]. intros T H. reals; interval with (i_prec 60, i_bisect T). Qed.
Lemma P_20 : 20 < P3 2200 /\ 20 < S2 tabP3s 0 0 (4.6 / 5.2 - 1.03) (4.6 / 5.2 - 0.699) * 22.
Proof. unfold P3. split; reals; interval with (i_prec 80). Qed.
Lemma s_20 : s1R 20 623.15 < 4.6 /\ 4.6 < s2R 20 1073.15 /\ 4.6 < s5R 20 2273.15 /\ (forall T, 649.7 < T < 649.9 -> 4.6 < s2R 20 T).
Proof. repeat split; try (reals; interval with (i_prec 60)). intros T HT. reals; interval with (i_prec 60, i_bisect T). Qed.
Lemma ex_wet20 : in_sat BARE 20 /\ region_ph (Fin 20) (Fin 2200) = Ok 4%Z /\ region_ps (Fin 20) (Fin 4.6) = Ok 4%Z.
Proof.
  split; [unfold in_sat, to_si; cbn [origin shift factor]; lra|]. pose proof b23_20. destruct h_20 as (A1 & A2). specialize (A2 (T23 20) ltac:(lra)). destruct P_20 as (Q1 & Q2). split.
  - unfold region_ph. decide_s. cbn [add mul RNum lit lift2]. decide_s. cbn [bind].
    change (D 623.15%dec) with 623.15.
    destruct (eos1 20 623.15 ltac:(unfold dom1; lra)) as (_ & -> & _). cbn [bind]. decide_s.
    rewrite B23T_closed by lra. cbn [bind].
    destruct (eos2 20 (T23 20) ltac:(unfold dom2; lra)) as (_ & -> & _). cbn [bind]. decide_s.
    rewrite p3sat_closed. cbn [bind]. decide_s. reflexivity.
  - destruct s_20 as (A & B & C & E). specialize (E (T23 20) ltac:(lra)).
    unfold region_ps. cmps. unfold or_else, and_then. cbn [bind].
    change (lit 623.15%dec) with (Fin (D 623.15%dec)). change (lit 1073.15%dec) with (Fin (D 1073.15%dec)).
    change (lit 2273.15%dec) with (Fin (D 2273.15%dec)).
    change (D 623.15%dec) with 623.15. change (D 1073.15%dec) with 1073.15. change (D 2273.15%dec) with 2273.15.
    destruct (eos5 20 2273.15) as (_ & _ & _ & -> & _); [unfold dom5; lra|]. cbn [bind]. cmps. cbn [bind].
    destruct (eos2 20 1073.15) as (_ & _ & _ & -> & _); [unfold dom2; lra|]. cbn [bind]. cmps. cbn [bind].
    rewrite B23T_closed by lra. cbn [bind].
    destruct (eos2 20 (T23 20)) as (_ & _ & _ & -> & _); [unfold dom2; lra|]. cbn [bind]. cmps. cbn [bind].
    destruct (eos1 20 623.15) as (_ & _ & _ & -> & _); [unfold dom1; lra|]. cbn [bind]. cmps. cbn [bind].
    rewrite p3sat_s_closed. cbn [bind]. decide_s. reflexivity.
Qed.
Lemma ex_join : exists p h h', 16.5292 <= p <= 100 /\ h1_pT (Fin p) (Fin 623.15) = Ok (Fin h) /\ B23p_T (Fin 700) = Ok (Fin h') /\ 1600 < h < 1700 /\ 30 < h' < 31.
Proof.
  exists 25. do 2 eexists. split; [lra|]. split; [apply (eos1 25 623.15 ltac:(unfold dom1; lra))|]. split; [apply B23p_closed|].
  pose proof h1_25. unfold q23, n1, n2, n3. lra.
Qed.
