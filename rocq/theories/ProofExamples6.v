(** Sample states for C46. *)
From Coq Require Import ZArith Reals Lra Lia List Bool.
From Interval Require Import Tactic.
From Verif Require Import Py ExactReal ModState ModConstants ModUnits ModRegion1 ModRegion2 ModRegion3 ModRegion4
  ModBorders ModSelect ModXSteam SpecUnits SpecApi SpecThermo SpecAgree RealSum ProofEos ProofSat ProofSatApi ProofThermoApi ProofThermo
  ProofMisc ProofWet ProofWetApi ProofExamples ProofExamples2 ProofExamples3 ProofBack SatS ProofBackS ProofReg ProofMono BoundSat BoundPh Bound1 Bound2 ProofSigns Sat3 ProofBisect ProofLoops ProofPrho.
Import ListNotations.
Open Scope R_scope.

Section Ex.
Context {F : Fuel}.
Lemma liquid_at_1 T : 300 < T < 400 -> region_pT (Fin 1) (Fin T) = Ok 1%Z.
Proof.
  intros HT. apply region_map. left. rewrite !psatR_eq by lra.
  assert (p4R 400 < 0.3) by (unfold p4R, be, qA, qB, qC, th; interval with (i_prec 60)).
  pose proof (p4_incr T 400 ltac:(lra) ltac:(lra) ltac:(lra)).
  unfold in_range, at_saturation. repeat split; try lra. rewrite psatR_eq by lra.
  rewrite Rabs_right by lra. lra.
Qed.
Lemma liquid_1_500 : exists T, t_ph BARE (Fin 1) (Fin 500) = Ok (Fin T) /\ region_pT (Fin 1) (Fin T) = Ok 1%Z.
Proof. destruct t_1_500 as (T & _ & E & H & _). exists T. split; [exact E | apply liquid_at_1; lra]. Qed.
Lemma region_1_s15 : region_ps (Fin 1) (Fin 1.5) = Ok 1%Z.
Proof.
  rewrite (region_ps_low 1 ltac:(lra)). unfold regps. pose proof s_1_pos as A. destruct s_1_wet as (_ & B & C).
  pose proof (above_low 1 ltac:(lra)). repeat cases1; try reflexivity; exfalso; lra.
Qed.
Lemma T1_1_s15 : 390 < S2 tabT1s 0 0 1 (1.5 + 2) < 393.
Proof. split; reals; interval with (i_prec 80). Qed.
Lemma liquid_1_s15 : exists T, t_ps BARE (Fin 1) (Fin 1.5) = Ok (Fin T) /\ region_pT (Fin 1) (Fin T) = Ok 1%Z.
Proof.
  eexists. split; [unfold t_ps; bare; rewrite region_1_s15; cbn [bind Z.eqb Pos.eqb]; rewrite T1_ps_closed; cbn [bind]; reflexivity|].
  apply liquid_at_1. pose proof T1_1_s15. lra.
Qed.
Lemma p1_500_15 : 1 < S2 tabp1hs 0 0 (500 / 3400 + 0.05) (1.5 / 7.6 + 0.05) * 100 < 16.
Proof. split; reals; interval with (i_prec 80). Qed.
Lemma T1_100_15 : 390 < S2 tabT1s 0 0 100 (1.5 + 2) < 450.
Proof. split; reals; interval with (i_prec 80). Qed.
Lemma H4_15 : H4a 1.5 < 500.
Proof. unfold H4a; reals; interval with (i_prec 80). Qed.
Lemma h1_100 T : 390 < T < 450 -> 500 < h1R 100 T.
Proof. intros; reals; interval with (i_prec 60, i_bisect T, i_taylor T, i_degree 4). Qed.
Lemma region_500_15 : region_hs (Fin 500) (Fin 1.5) = Ok 1%Z.
Proof.
  unfold region_hs. decide_s. red1. rewrite xdiv_Fin by known. cbn [bind]. red1.
  decide_s. rewrite h4a_closed by lra. cbn [bind]. decide_s. pose proof H4_15.
  rewrite Rltb_false by lra. cbn [bind]. decide_s. change (D 100%dec) with 100.
  rewrite T1_ps_closed. cbn [bind]. pose proof T1_100_15. set (T := S2 tabT1s 0 0 100 (1.5 + 2)) in *. clearbody T.
  destruct (eos1 100 T ltac:(unfold dom1; lra)) as (_ & -> & _). cbn [bind ltb RNum cmp].
  pose proof (h1_100 T ltac:(lra)). now rewrite Rltb_true by lra.
Qed.
Lemma liquid_500_15 : exists p, p_hs BARE (Fin 500) (Fin 1.5) = Ok (Fin p) /\ region_ph (Fin p) (Fin 500) = Ok 1%Z.
Proof.
  eexists. split; [unfold p_hs; bare; rewrite region_500_15; cbn [bind Z.eqb Pos.eqb]; rewrite p1_hs_closed; cbn [bind]; reflexivity|].
  pose proof p1_500_15. set (p := S2 _ _ _ _ _ * 100) in *. clearbody p.
  rewrite (region_ph_low p ltac:(lra)). unfold regph.
  assert (A : h1R p 273.15 < 100) by (reals; interval with (i_prec 60, i_bisect p)).
  assert (B : 500 < hL p).
  { unfold hL. pose proof (T4_range p ltac:(lra)) as R. pose proof (p4_T4R p ltac:(lra)) as E.
    assert (T : 440 < T4R p < 623.15).
    { split; [|lra]. apply Rnot_le_lt; intros K. assert (P : p4R 440 < 0.8) by (unfold p4R, be, qA, qB, qC, th; interval with (i_prec 60)).
      destruct (Rle_lt_or_eq_dec _ _ K) as [K'|K']; [pose proof (p4_incr (T4R p) 440 ltac:(lra) K' ltac:(lra)); lra | rewrite K' in E; lra]. }
    apply Rlt_trans with (h1R p 440); [clear R E T; reals; interval with (i_prec 60, i_bisect p)|].
    apply rise1; [lra|]. apply path1_T; [|lra]. unfold zone1. rewrite E. lra. }
  rewrite Rltb_false, Rleb_true by lra. reflexivity.
Qed.
(** Region 3 at 25 MPa *)
Lemma b23_25 : 676.7 < T23 25 < 676.9.
Proof. unfold T23. split; interval with (i_prec 60). Qed.
Lemma h1_25 : 1610 < h1R 25 623.15 < 1630.
Proof. split; reals; interval with (i_prec 60). Qed.
Lemma h2_25 T : 676.7 < T < 676.9 -> 2600 < h2R 25 T < 2700.
Proof. intros; split; reals; interval with (i_prec 60, i_bisect T). Qed.
Lemma P3_25 h : 2000 <= h <= 2200 -> P3 h < 25.
Proof. intros. unfold P3. reals. interval with (i_prec 60, i_bisect h, i_taylor h). Qed.
Lemma region_25 h : 2000 <= h <= 2200 -> region_ph (Fin 25) (Fin h) = Ok 3%Z.
Proof.
  intros H. unfold region_ph. decide_s. cbn [add mul RNum lit lift2]. decide_s. cbn [bind].
  change (D 623.15%dec) with 623.15.
  destruct (eos1 25 623.15 ltac:(unfold dom1; lra)) as (_ & -> & _). cbn [bind]. pose proof h1_25. decide_s.
  rewrite B23T_closed by lra. cbn [bind]. pose proof b23_25.
  destruct (eos2 25 (T23 25) ltac:(unfold dom2; lra)) as (_ & -> & _). cbn [bind]. pose proof (h2_25 (T23 25) ltac:(lra)). decide_s.
  rewrite p3sat_closed. cbn [bind]. pose proof (P3_25 h H). decide_s. reflexivity.
Qed.
Lemma region_25_T T : 645 < T < 660 -> region_pT (Fin 25) (Fin T) = Ok 3%Z.
Proof.
  intros H. apply region_map. do 3 right; left. assert (p23 T < 25) by (unfold p23; interval with (i_prec 60, i_bisect T)).
  unfold in_range, at_saturation. repeat split; try lra.
  intros [H' A]. rewrite !psatR_eq in A by lra.
  assert (p4R 647.096 < 22.1) by (unfold p4R, be, qA, qB, qC, th; interval with (i_prec 60)).
  pose proof (p4_incr T 647.096 ltac:(lra) ltac:(lra) ltac:(lra)). revert A. rewrite Rabs_right by lra. lra.
Qed.
Definition h_mid := (h1R 25 623.15 + h2R 25 (T23 25)) / 2.
Definition T_mid := S2 tabT3bh 0 0 (25 / 100 + 0.298) (h_mid / 2800 - 0.72) * 860.
Lemma h_mid_range : 2100 < h_mid < 2170.
Proof. unfold h_mid. pose proof h1_25. pose proof (h2_25 _ b23_25). lra. Qed.
Lemma T_mid_range : 645 < T_mid < 660.
Proof.
  unfold T_mid. pose proof h_mid_range. set (h := h_mid) in *. clearbody h.
  split; reals; interval with (i_prec 60, i_bisect h, i_taylor h).
Qed.
Lemma T3_mid : T3_ph (Fin 25) (Fin h_mid) = Ok (Fin T_mid).
Proof. pose proof h_mid_range. apply T3b_ph_closed; [lra|]. unfold ab. lra. Qed.
Lemma h_pt_25 : (2 <= Z.of_nat fuel)%Z -> h_pt BARE (Fin 25) (Fin T_mid) = Ok (Fin h_mid).
Proof.
  intros Hf. pose proof T_mid_range. unfold h_pt. bare. rewrite region_25_T by lra. cbn [bind Z.eqb Pos.eqb].
  rewrite h3_pT_eq. decide_s. cbn [lit RNum]. change (D 623.15%dec) with 623.15.
  destruct (eos1 25 623.15 ltac:(unfold dom1; lra)) as (_ & -> & _). cbn [bind].
  rewrite B23T_closed by lra. cbn [bind]. pose proof b23_25.
  destruct (eos2 25 (T23 25) ltac:(unfold dom2; lra)) as (_ & -> & _). cbn [bind].
  destruct fuel as [|[|n]]; try (cbn in Hf; lia). clear Hf.
  rewrite (bis_up (N := RNum) _ _ _ _ _ _ _ _ (Fin h_mid) (Fin T_mid)); cycle 1.
  - cbn [ltb fabs sub add RNum cmp lift1 lift2]. apply Rltb_true.
    replace (T_mid - (T_mid + D 1%dec)) with (- (1)) by (undec; lra). rewrite Rabs_Ropp, Rabs_R1. undec. lra.
  - apply mid. reflexivity.
  - apply T3_mid.
  - cbn [eqb add RNum cmp lift2]. apply Reqb_false. undec. lra.
  - cbn [ltb RNum cmp]. apply Rltb_false. lra.
  - rewrite (bis_done (N := RNum)); [reflexivity|].
    cbn [ltb fabs sub RNum cmp lift1 lift2]. replace (T_mid - T_mid) with 0 by ring. rewrite Rabs_R0. apply Rltb_false. undec. lra.
Qed.
Lemma dense_25 : (2 <= Z.of_nat fuel)%Z -> exists T h, region_pT (Fin 25) (Fin T) = Ok 3%Z /\ h_pt BARE (Fin 25) (Fin T) = Ok (Fin h) /\ region_ph (Fin 25) (Fin h) = Ok 3%Z.
Proof.
  intros Hf. exists T_mid, h_mid. pose proof T_mid_range. pose proof h_mid_range. split; [apply region_25_T; lra|].
  split; [now apply h_pt_25 | apply region_25; lra].
Qed.
(** and in terms of entropy *)
Lemma P3s_25 : S2 tabP3s 0 0 (4 / 5.2 - 1.03) (4 / 5.2 - 0.699) * 22 < 25.
Proof. reals; interval with (i_prec 80). Qed.
Lemma p3sat_s_closed s : p3sat_s (Fin s) = Ok (Fin (S2 tabP3s 0 0 (s / 5.2 - 1.03) (s / 5.2 - 0.699) * 22)).
Proof.
  unfold p3sat_s. red1. rewrite (xdiv_Fin s) by known. red1.
  sumup tabP3s true true (s / 5.2 - 1.03) (s / 5.2 - 0.699) idtac idtac; [reflexivity|].
  change (D 5.2%dec) with 5.2. change (D 1.03%dec) with 1.03. change (D 0.699%dec) with 0.699. ring.
Qed.
Lemma s_25 : s1R 25 623.15 < 4 /\ 4 < s2R 25 1073.15 /\ 4 < s5R 25 2273.15 /\ (forall T, 676.7 < T < 676.9 -> 4 < s2R 25 T).
Proof. repeat split; try (reals; interval with (i_prec 60)). intros T HT. reals; interval with (i_prec 60, i_bisect T). Qed.
Lemma region_25_s : region_ps (Fin 25) (Fin 4) = Ok 3%Z.
Proof.
  destruct s_25 as (A & B & C & E). pose proof b23_25. specialize (E (T23 25) ltac:(lra)).
  unfold region_ps. cmps. unfold or_else, and_then. cbn [bind].
  change (lit 623.15%dec) with (Fin (D 623.15%dec)). change (lit 1073.15%dec) with (Fin (D 1073.15%dec)).
  change (lit 2273.15%dec) with (Fin (D 2273.15%dec)).
  change (D 623.15%dec) with 623.15. change (D 1073.15%dec) with 1073.15. change (D 2273.15%dec) with 2273.15.
  destruct (eos5 25 2273.15) as (_ & _ & _ & -> & _); [unfold dom5; lra|]. cbn [bind]. cmps. cbn [bind].
  destruct (eos2 25 1073.15) as (_ & _ & _ & -> & _); [unfold dom2; lra|]. cbn [bind]. cmps. cbn [bind].
  rewrite B23T_closed by lra. cbn [bind].
  destruct (eos2 25 (T23 25)) as (_ & _ & _ & -> & _); [unfold dom2; lra|]. cbn [bind]. cmps. cbn [bind].
  destruct (eos1 25 623.15) as (_ & _ & _ & -> & _); [unfold dom1; lra|]. cbn [bind]. cmps. cbn [bind].
  rewrite p3sat_s_closed. cbn [bind]. pose proof P3s_25. decide_s. reflexivity.
Qed.
Lemma agree_examples : (2 <=? Z.of_nat fuel)%Z = true ->
  (* water at 1 MPa and 500 kJ/kg, at 1 MPa and 1.5 kJ/(kg K), at 500 kJ/kg and 1.5 kJ/(kg K) *)
  (twin_ph F_Cp_ph = Some F_Cp_pt /\ exists T, region_ph (Fin 1) (Fin 500) = Ok 1%Z /\ t_ph BARE (Fin 1) (Fin 500) = Ok (Fin T) /\
     region_pT (Fin 1) (Fin T) = Ok 1%Z) /\
     (twin_ps F_h_ps = Some F_h_pt /\ exists T, region_ps (Fin 1) (Fin 1.5) = Ok 1%Z /\ t_ps BARE (Fin 1) (Fin 1.5) = Ok (Fin T) /\
     region_pT (Fin 1) (Fin T) = Ok 1%Z) /\
     (exists p, region_hs (Fin 500) (Fin 1.5) = Ok 1%Z /\ p_hs BARE (Fin 500) (Fin 1.5) = Ok (Fin p) /\
     region_ph (Fin p) (Fin 500) = Ok 1%Z) /\
     (* dense fluid at 25 MPa *)
  (SpecAgree.eos3 F_s_ph = Some ModRegion3.s3_rhoT /\ region_ph (Fin 25) (Fin 2000) = Ok 3%Z /\
     region_ps (Fin 25) (Fin 4) = Ok 3%Z /\ region_pT (Fin 25) (Fin 650) = Ok 3%Z) /\
     (exists T h, region_pT (Fin 25) (Fin T) = Ok 3%Z /\ h_pt BARE (Fin 25) (Fin T) = Ok (Fin h) /\
     region_ph (Fin 25) (Fin h) = Ok 3%Z) /\
     (* wet steam at 1 MPa *)
  (one_phase_only F_w_ps = true /\ region_ps (Fin 1) (Fin 4) = Ok 4%Z).
Proof.
  intros Hf. apply Z.leb_le in Hf.
  split; [split; [reflexivity|]; destruct liquid_1_500 as (T & A & B); exists T; repeat split; [apply region_1_500 | exact A | exact B]|].
  split; [split; [reflexivity|]; destruct liquid_1_s15 as (T & A & B); exists T; repeat split; [apply region_1_s15 | exact A | exact B]|].
  split; [destruct liquid_500_15 as (p & A & B); exists p; repeat split; [apply region_500_15 | exact A | exact B]|].
  split; [repeat split; [apply region_25; lra | apply region_25_s | apply region_25_T; lra]|].
  split; [now apply dense_25|].
  split; [reflexivity | apply region_1_s4].
Qed.
End Ex.
