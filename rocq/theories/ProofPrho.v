(** h_prho in region 5. *)
From Coq Require Import ZArith Reals Ranalysis5 Lra Lia List Bool.
From Coquelicot Require Import Coquelicot.
From Interval Require Import Tactic.
From Verif Require Import Py ExactReal ModState ModUnits ModBorders ModRegion1 ModRegion2 ModRegion3 ModRegion4 ModRegion5 ModSelect ModXSteam
  SpecUnits SpecApi SpecLoops ProofUnits ProofCovariance ProofGeneric RealSum ProofEos ProofThermo ProofSat ProofSatApi ProofThermoApi ProofMisc ProofMono
  ProofReg ProofBisect ProofLoops ProofLoopsApi.
Open Scope R_scope.

Ltac ret H :=
  repeat match type of H with
  | bind ?e _ = Ok _ => destruct e eqn:?; cbn [bind] in H; [|discriminate H]
  | (if ?c then _ else _) = Ok _ => destruct c eqn:?
  | Ok _ = Ok _ => injection H as H
  end.
Section Any.
Context {N : Num} {F : Fuel}.
Local Open Scope num_scope.
Lemma h_prho_met us p rho p' q v' rho' r : toSIunit_p us p = Ok p' -> div #1 rho = Ok q -> toSIunit_v us q = Ok v' ->
  div #1 v' = Ok rho' -> region_prho p' rho' = Ok 5%Z -> h_prho us p rho = Ok r ->
  exists T h, met (fun T => let* v := v2_pT p' T in div #1 v) rho' #(-1000) #0.000001 T /\
    h5_pT p' T = Ok h /\ fromSIunit_h us h = Ok r.
Proof.
  intros E1 E2 E3 E4 R. unfold h_prho. rewrite E1, E2. cbn [bind]. rewrite E3. cbn [bind]. rewrite E4. cbn [bind]. rewrite R.
  cbn [bind Z.eqb Pos.eqb]. destruct (T5_prho p' rho') as [T|] eqn:ET; [|discriminate]. cbn [bind].
  destruct (h5_pT p' T) as [h|] eqn:Eh; [|discriminate]. cbn [bind]. intros Er. exists T, h.
  split; [exact (prho5_met _ _ _ ET)|]. now split.
Qed.
Lemma bis_up n go f up x v hi lo m v' : go v = true -> div (lo + hi) #2 = Ok m -> f m = Ok v' -> (v =? v') = false -> up v' = false ->
  bis (S n) go f up (x, v, hi, lo) = bis n go f up (Some m, v', hi, m).
Proof. intros G E Ef Ne U. unfold bis at 1. cbn [while]. rewrite G. cbn [bind]. unfold bis_body at 1. rewrite E. cbn [bind]. rewrite Ef. cbn [bind]. now rewrite Ne, U. Qed.
Lemma bis_done n go f up x v hi lo : go v = false -> bis (S n) go f up (x, v, hi, lo) = Ok (x, v, hi, lo).
Proof. intros G. unfold bis. cbn [while]. now rewrite G. Qed.
Lemma region_prho_5v p rho : region_prho p rho = Ok 5%Z ->
  exists v w, div #1 rho = Ok v /\ v5_pT p #2073.15 = Ok w /\ (v <=? w) = true.
Proof.
  unfold region_prho. intros H; ret H; try discriminate H; subst.
  match goal with K : bind (v5_pT p #2073.15) _ = Ok true |- _ => revert K end.
  destruct (v5_pT p #2073.15) as [w|] eqn:E; [|discriminate]. cbn [bind]. intros K; injection K as K. eauto.
Qed.
End Any.

Lemma v5T_pos p T : 0.0006 <= p <= 10 -> 1073 <= T <= 2274 -> 0 < p * v5T p T.
Proof.
  intros Hp HT. unfold v5T. replace (p * (0.461526 / 1000 * (1 / p + g5 1 0 p T - 1000 / T * g5 1 1 p T)))
    with (0.461526 / 1000 * (1 + p * g5 1 0 p T - 1000 / T * (p * g5 1 1 p T))) by (field; lra).
  reals. interval with (i_bisect p, i_bisect T, i_depth 14).
Qed.
Lemma v5_rise p a b : 0.0006 <= p <= 10 -> 1073 <= a -> a < b -> b <= 2274 -> v5R p a < v5R p b.
Proof.
  intros Hp Ha O Hb. apply (rising (v5R p) (v5T p)); [exact O | |]; intros x Hx.
  - apply (thermo5 p x). unfold dom5. lra.
  - pose proof (v5T_pos p x Hp ltac:(lra)). apply Rmult_lt_reg_l with p; lra.
Qed.
Section Real.
Context {F : Fuel}.
Lemma rho_5 p T : 0.000611 < p < 50 -> 1073.15 < T < 2273.15 -> v5R p T <> 0 -> rho_pt BARE (Fin p) (Fin T) = Ok (Fin (1 / v5R p T)).
Proof.
  intros Hp HT N. assert (R : region_pT (Fin p) (Fin T) = Ok 5%Z) by (apply region5_intro; lra).
  unfold rho_pt. destruct (api_pT _ _ _ R) as (-> & _); [tauto|]. cbn [pick Z.eqb Pos.eqb].
  destruct (eos5 p T (dom_5 _ _ R)) as (-> & _). cbn [bind div lit RNum]. change (D 1%dec) with 1. now rewrite xdiv_Fin.
Qed.
Lemma above_2073 p T rho : p <= 10 -> 2073.15 < T -> region_pT (Fin p) (Fin T) = Ok 5%Z ->
  rho_pt BARE (Fin p) (Fin T) = Ok (Fin rho) -> region_prho (Fin p) (Fin rho) <> Ok 5%Z.
Proof.
  intros Hp HT R E R5. destruct (region5_R p T R) as [H1 H2].
  pose proof (v5_rise p 2073.15 T ltac:(lra) ltac:(lra) ltac:(lra) ltac:(lra)) as V.
  apply region_prho_5v in R5. destruct R5 as (v & w & E1 & E2 & L). cbn [lit RNum] in E1, E2.
  change (D 2073.15%dec) with 2073.15 in E2. change (D 1%dec) with 1 in E1.
  destruct (eos5 p 2073.15) as (E3 & _); [unfold dom5; lra|]. rewrite E3 in E2. injection E2 as <-.
  assert (P : 0 < v5R p 2073.15).
  { assert (0 < p * v5R p 2073.15); [|apply Rmult_lt_reg_l with p; lra].
    replace (p * v5R p 2073.15) with (0.461526 * 2073.15 * (1 + p * g5 1 0 p 2073.15) / 1000) by (unfold v5R; field; lra).
    assert (0.0006 <= p <= 10) by lra. clear - H. reals. interval with (i_bisect p, i_depth 14). }
  rewrite rho_5 in E by lra. injection E as <-.
  cbn [div RNum] in E1. rewrite xdiv_Fin in E1 by (apply Rgt_not_eq; apply Rdiv_lt_0_compat; lra). injection E1 as <-.
  cbn [leb RNum cmp] in L. destruct (Rleb_spec (1 / (1 / v5R p T)) (v5R p 2073.15)) as [L'|]; [|discriminate].
  replace (1 / (1 / v5R p T)) with (v5R p T) in L' by (field; lra). lra.
Qed.

(** A density at which the search ends in the third round, at 1948.15 K exactly. *)
Lemma b2_ne T : 1073 <= T <= 1079 \/ 1081 <= T <= 2274 -> 10 <> 0 /\ T <> 0 /\ 540 / T <> 0 /\ b2 T <> 0.
Proof.
  intros H. assert (0 < 540 / T) by (apply Rdiv_lt_0_compat; lra). repeat split; try lra. unfold b2. intros E.
  assert (K : 540 / T * T = 540) by (field; destruct H; lra). replace (540 / T) with 0.5 in K by lra. destruct H; lra.
Qed.
Lemma v2_hot T : 1073 <= T <= 1079 \/ 1081 <= T <= 2274 -> v2_pT (Fin 10) (Fin T) = Ok (Fin (v2R 10 T)).
Proof.
  intros H. destruct (b2_ne T H) as (A & B & C & E). rewrite v2_closed by assumption. do 2 f_equal. unfold v2R. change Rw with 0.461526. field.
Qed.
Definition rho3 := 1 / v2R 10 1948.15.
Lemma vals : 0.0726 < v2R 10 1573.15 < 0.0727 /\ 0.0843 < v2R 10 1823.15 < 0.0845 /\ 0.09022 < v2R 10 1948.15 < 0.090223 /\
  0.048 < v2R 10 1073.15 < 0.049 /\ 0.096 < v5R 10 2073.15 < 0.097 /\ 0 < v1R 10 273.15 < 0.0011.
Proof. unfold v2R, v5R, v1R. reals. repeat split; interval. Qed.
Lemma sat10 : 584 < T4R 10 < 585.
Proof. unfold T4R, Tb, de, qE, qF, qG. split; interval. Qed.
Lemma sat10v T : 584 <= T <= 585 -> v1R 10 T < 0.002 /\ v2R 10 T < 0.02.
Proof. intros H. unfold v1R, v2R. reals. split; interval with (i_bisect T). Qed.
Lemma rho3_inv : 1 / rho3 = v2R 10 1948.15.
Proof. destruct vals as (_ & _ & V & _). unfold rho3. field. lra. Qed.
Lemma rho3_pos : 0 < rho3.
Proof. destruct vals as (_ & _ & V & _). unfold rho3. apply Rdiv_lt_0_compat; lra. Qed.
Lemma region_rho3 : region_prho (Fin 10) (Fin rho3) = Ok 5%Z.
Proof.
  pose proof rho3_pos as P. pose proof sat10 as S. pose proof (sat10v (T4R 10) ltac:(lra)) as [S1 S2].
  destruct vals as (_ & _ & V3 & V4 & V5 & V6).
  unfold region_prho. cbn [div lit RNum]. change (D 1%dec) with 1. rewrite xdiv_Fin by lra. rewrite rho3_inv. cbn [bind].
  change (D 273.15%dec) with 273.15. change (D 1073.15%dec) with 1073.15. change (D 2073.15%dec) with 2073.15.
  destruct (p4_T4 10) as (-> & _); [lra|]. cbn [bind].
  destruct (eos1 10 273.15) as (-> & _); [unfold dom1; lra|]. destruct (eos1 10 (T4R 10)) as (-> & _); [unfold dom1; lra|].
  destruct (eos2 10 (T4R 10)) as (-> & _); [unfold dom2; lra|]. destruct (eos2 10 1073.15) as (-> & _); [unfold dom2; lra|].
  destruct (eos5 10 2073.15) as (-> & _); [unfold dom5; lra|]. cbn [bind ltb leb RNum cmp].
  repeat (first [rewrite Rltb_true by (undec; lra) | rewrite Rltb_false by (undec; lra)
  | rewrite Rleb_true by (undec; lra) | rewrite Rleb_false by (undec; lra)]; cbn [andb orb]). reflexivity.
Qed.
Lemma recip_hot T v : 1081 <= T <= 2274 -> v = v2R 10 T -> 0 < v -> recip (N := RNum) (v2_pT (Fin 10)) (Fin T) = Ok (Fin (1 / v)).
Proof.
  intros H -> P. unfold recip. rewrite v2_hot by lra. cbn [bind div lit RNum]. change (D 1%dec) with 1. apply xdiv_Fin. lra.
Qed.
Lemma mid a b m : (a + b) / 2 = m -> div (Num := RNum) (add (Num := RNum) (Fin a) (Fin b)) (lit 2%dec) = Ok (Fin m).
Proof. intros <-. cbn [add div lit RNum lift2]. change (D 2%dec) with 2. now rewrite xdiv_Fin by lra. Qed.
Lemma inv_lt a b : 0 < a -> a < b -> 1 / b < 1 / a.
Proof. intros. unfold Rdiv. rewrite !Rmult_1_l. apply Rinv_lt_contravar; [|easy]. apply Rmult_lt_0_compat; lra. Qed.
Lemma T5_rho3 : (4 <= Z.of_nat fuel)%Z -> T5_prho (Fin 10) (Fin rho3) = Ok (Fin 1948.15).
Proof.
  intros Hf. destruct vals as (V1 & V2 & V3 & _).
  assert (G1 : rho3 < 1 / v2R 10 1573.15) by (apply inv_lt; lra).
  assert (G2 : rho3 < 1 / v2R 10 1823.15) by (apply inv_lt; lra).
  assert (G3 : 1 / v2R 10 1823.15 < 1 / v2R 10 1573.15) by (apply inv_lt; lra).
  assert (G4 : 0.1 < 1 / v2R 10 1573.15 - rho3).
  { unfold rho3. assert (1 / v2R 10 1948.15 < 1 / 0.09022) by (apply inv_lt; lra). assert (1 / 0.0727 < 1 / v2R 10 1573.15) by (apply inv_lt; lra).
    assert (1 / 0.0727 - 1 / 0.09022 > 0.1) by interval. lra. }
  assert (G5 : 0.1 < 1 / v2R 10 1823.15 - rho3).
  { unfold rho3. assert (1 / v2R 10 1948.15 < 1 / 0.09022) by (apply inv_lt; lra). assert (1 / 0.0845 < 1 / v2R 10 1823.15) by (apply inv_lt; lra).
    assert (1 / 0.0845 - 1 / 0.09022 > 0.1) by interval. lra. }
  pose proof rho3_pos as P.
  rewrite T5_prho_eq. destruct fuel as [|[|[|[|n]]]]; try (cbn in Hf; lia). clear Hf.
  cbn [lit RNum]. change (D 2073.15%dec) with 2073.15. change (D 1073.15%dec) with 1073.15.
  assert (K : forall x, 0.000001 < Rabs (rho3 - x) -> ltb (Num := RNum) (Fin (D 0.000001%dec)) (fabs (Num := RNum) (sub (Num := RNum) (Fin rho3) (Fin x))) = true).
  { intros x Hx. cbn [ltb fabs sub RNum cmp lift1 lift2]. apply Rltb_true. undec. lra. }
  assert (U : forall x, rho3 <= x -> ltb (Num := RNum) (Fin x) (Fin rho3) = false).
  { intros x Hx. cbn [ltb RNum cmp]. apply Rltb_false. lra. }
  assert (Q : forall x y, x <> y -> eqb (Num := RNum) (Fin x) (Fin y) = false).
  { intros x y Hx. cbn [eqb RNum cmp]. now apply Reqb_false. }
  rewrite (bis_up (N := RNum) _ _ _ _ _ _ _ _ (Fin 1573.15) (Fin (1 / v2R 10 1573.15))); cycle 1.
  { apply K. replace (D (-1000)%dec) with (-1000) by (unfold D; cbn; lra). rewrite Rabs_pos_eq; lra. }
  { apply mid. lra. }
  { apply recip_hot; [lra|reflexivity|lra]. }
  { apply Q. replace (D (-1000)%dec) with (-1000) by (unfold D; cbn; lra). lra. }
  { apply U. lra. }
  rewrite (bis_up (N := RNum) _ _ _ _ _ _ _ _ (Fin 1823.15) (Fin (1 / v2R 10 1823.15))); cycle 1.
  { apply K. rewrite Rabs_minus_sym, Rabs_pos_eq; lra. }
  { apply mid. lra. }
  { apply recip_hot; [lra|reflexivity|lra]. }
  { apply Q. lra. }
  { apply U. lra. }
  rewrite (bis_up (N := RNum) _ _ _ _ _ _ _ _ (Fin 1948.15) (Fin rho3)); cycle 1.
  { apply K. rewrite Rabs_minus_sym, Rabs_pos_eq; lra. }
  { apply mid. lra. }
  { apply recip_hot; [lra|reflexivity|lra]. }
  { apply Q. lra. }
  { apply U. lra. }
  rewrite (bis_done (N := RNum)); [reflexivity|].
  cbn [ltb fabs sub RNum cmp lift1 lift2]. replace (rho3 - rho3) with 0 by ring. rewrite Rabs_R0. apply Rltb_false. undec. lra.
Qed.
Lemma ends5 : v5R 10 1947 < 0.09022 /\ 0.090223 < v5R 10 1947.7.
Proof. unfold v5R. reals. split; interval. Qed.
Lemma gap5 : 1 < h5R 10 1948.15 - h5R 10 1947.7.
Proof. unfold h5R. reals. interval. Qed.
Lemma prho5_refuted : (4 <= Z.of_nat fuel)%Z -> exists p T rho h h',
  region_pT (Fin p) (Fin T) = Ok 5%Z /\ rho_pt BARE (Fin p) (Fin T) = Ok (Fin rho) /\ h_pt BARE (Fin p) (Fin T) = Ok (Fin h) /\
  region_prho (Fin p) (Fin rho) = Ok 5%Z /\ h_prho BARE (Fin p) (Fin rho) = Ok (Fin h') /\ 1 < h' - h.
Proof.
  intros Hf. destruct vals as (_ & _ & V & _). destruct ends5 as [E1 E2]. pose proof gap5 as G.
  destruct (IVT_interv (fun T => v5R 10 T - v2R 10 1948.15) 1947 1947.7) as (T & HT & ET).
  - intros x Hx. apply continuity_pt_filterlim. apply (ex_derive_continuous (fun T => v5R 10 T - v2R 10 1948.15)).
    eexists. apply (is_derive_minus (V := R_NormedModule)); [apply (thermo5 10 x); unfold dom5; lra | apply is_derive_const].
  - lra.
  - lra.
  - lra.
  - cbn beta in ET. assert (ET' : v5R 10 T = v2R 10 1948.15) by lra.
    assert (R : region_pT (Fin 10) (Fin T) = Ok 5%Z) by (apply region5_intro; lra).
    exists 10, T, rho3, (h5R 10 T), (h5R 10 1948.15). split; [exact R|].
    split; [rewrite rho_5 by lra; now rewrite ET'|]. split; [exact (h_pt_5 _ _ R)|]. split; [exact region_rho3|]. split.
    + unfold h_prho. bare. cbn [div lit RNum]. change (D 1%dec) with 1. pose proof rho3_pos. rewrite xdiv_Fin by lra. bare.
      rewrite rho3_inv. rewrite xdiv_Fin by lra. bare. fold rho3. rewrite region_rho3. cbn [bind Z.eqb Pos.eqb].
      rewrite T5_rho3 by exact Hf. cbn [bind]. destruct (eos5 10 1948.15) as (_ & -> & _); [unfold dom5; lra|]. bare. reflexivity.
    + destruct (Req_dec T 1947.7) as [->|Ne]; [exact G|].
      assert (h5R 10 T < h5R 10 1947.7) by (apply rise5; [lra|]; intros; apply path5; lra). lra.
Qed.
End Real.
