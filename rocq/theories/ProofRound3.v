(** Region 3: the temperature and the volume t_ph and v_ph report. *)
From Coq Require Import ZArith Reals Lra Lia List Bool.
From Verif Require Import Py ModState ModUnits ModRegion1 ModRegion2 ModRegion3 ModRegion4 ModRegion5 ModBorders ModSelect ModXSteam ExactReal RealSum SpecUnits SpecApi SpecThermo
  ProofUnits ProofCovariance ProofEos ProofThermo ProofThermoApi ProofSat ProofSatApi ProofMono ProofMisc ProofWet ProofWetApi BoundPh ProofReg
  Bound2 ProofAgree ProofBack ProofBackS BoundR1 ProofRound Sat3 BoundX ProofIce ProofTph BoundR3.
Open Scope R_scope.

Section Regions.
Context {F : Fuel}.
Lemma ph_3 p h : region_ph (Fin p) (Fin h) = Ok 3%Z -> in3 p h.
Proof.
  intros H. destruct (ph_range p h) as [Hp Hh]; [rewrite H; congruence|].
  destruct (Rlt_or_le p 16.5292) as [L|L].
  - exfalso. revert H. unfold region_ph. rewrite D_1073, D_2273, D_273. cmps. cbn [add mul RNum lit lift2 cmp].
    destruct (T4_mid p) as (ET & RT & I); [lra|]. rewrite ET.
    replace (log (Num := RNum) (Fin p)) with (Ok (Fin (Rpower.ln p)) : res xr) by (symmetry; apply xlog_Fin; lra).
    change (D 16.5292%dec) with 16.5292. try rewrite (Rltb_true p) by lra. cbn [bind cmp add mul sub fabs RNum lit lift1 lift2].
    destruct (eos1 p (T4R p)) as (_ & Ea & _); [unfold dom1; lra|]. rewrite Ea.
    destruct (eos2 p (T4R p)) as (_ & E2 & _); [unfold dom2; lra|]. rewrite E2.
    destruct (eos1 p 273.15) as (_ & Eh & _); [unfold dom1; lra|]. rewrite Eh.
    destruct (eos2 p 1073.15) as (_ & Eh2 & _); [unfold dom2; lra|]. rewrite Eh2.
    destruct (eos5 p 2273.15) as (_ & Eh5 & _); [unfold dom5; lra|]. rewrite Eh5.
    cbn [bind cmp]. repeat (cases1; cbn [bind cmp]); discriminate.
  - revert H. unfold region_ph. rewrite D_273, D_1073, D_2273. destruct (eos1 p 273.15) as (_ & Eh & _); [unfold dom1; lra|]. rewrite Eh.
    cmps. cbn [add mul RNum lit lift2 cmp]. pose proof (edge_ok p ltac:(lra)) as [E _].
    replace (if Rltb h (D 0.963%dec * p + D 2.2%dec) then _ else _) with (Ok (Proceed tt) : res (outcome Z unit)).
    2: { cbn [bind]. undec. repeat cases1; try reflexivity; exfalso; lra. }
    cbn [bind]. change (D 16.5292%dec) with 16.5292. try rewrite (Rltb_false p) by lra.
    change (D 623.15%dec) with 623.15. destruct (eos1 p 623.15) as (_ & Eb & _); [unfold dom1; lra|]. rewrite Eb.
    cbn [bind cmp]. destruct (Rltb_spec h (h1R p 623.15)) as [L'|L']; [discriminate|].
    rewrite B23T_closed by lra. cbn [bind]. assert (B := T23_in p ltac:(lra)).
    destruct (eos2 p (T23 p)) as (_ & E2 & _); [unfold dom2; lra|]. rewrite E2. cbn [bind cmp].
    destruct (Rltb_spec h (h2R p (T23 p))) as [L2|L2].
    + rewrite p3sat_closed. cbn [bind cmp]. destruct (Rltb_spec (P3 h) p) as [L3|L3]; [|discriminate]. intros _. unfold in3. lra.
    + destruct (eos2 p 1073.15) as (_ & Eh2 & _); [unfold dom2; lra|]. rewrite Eh2. cbn [bind cmp].
      destruct (Rltb_spec h (h2R p 1073.15)); discriminate.
Qed.
Lemma call_v_ph us p h V : v_ph BARE (si us Qp (Fin p)) (si us Qh (Fin h)) = Ok (Fin V) ->
  exists v, v_ph us (Fin p) (Fin h) = Ok (Fin v) /\ to_si us Qv v = V.
Proof.
  intros H. pose proof (run2_units F_v_ph us (Fin p) (Fin h) ltac:(discriminate)) as U. cbn [run2 sig2 fst snd] in U.
  rewrite U, H. exists (to_user us Qv V). split; [reflexivity|].
  assert (K := si_user us Qv (Fin V)). cbn in K. now injection K.
Qed.
Lemma from_ph_3 us p h : region_ph (si us Qp (Fin p)) (si us Qh (Fin h)) = Ok 3%Z ->
  exists t v P H, t_ph us (Fin p) (Fin h) = Ok (Fin t) /\ v_ph us (Fin p) (Fin h) = Ok (Fin v) /\ 0 < to_si us Qv v /\
    p3_rhoT (Fin (1 / to_si us Qv v)) (si us QT (Fin t)) = Ok (Fin P) /\ Rabs (P - to_si us Qp p) <= 0.05 /\
    h3_rhoT (Fin (1 / to_si us Qv v)) (si us QT (Fin t)) = Ok (Fin H) /\ Rabs (H - to_si us Qh h) <= 0.25.
Proof.
  intros R. rewrite !Fin_si in R. destruct (back3 _ _ (ph_3 _ _ R)) as (T & V & ET & EV & PT & PV & A & B).
  assert (Et : t_ph BARE (Fin (to_si us Qp p)) (Fin (to_si us Qh h)) = Ok (Fin T)).
  { unfold t_ph. rewrite to_p, to_h. cbn [bind]. rewrite !si_BARE, R. cbn [bind Z.eqb Pos.eqb]. rewrite ET. cbn [bind]. now rewrite from_T, user_BARE. }
  assert (Ev : v_ph BARE (Fin (to_si us Qp p)) (Fin (to_si us Qh h)) = Ok (Fin V)).
  { unfold v_ph. rewrite to_p, to_h. cbn [bind]. rewrite !si_BARE, R. cbn [bind Z.eqb Pos.eqb]. rewrite EV. cbn [bind]. now rewrite from_v, user_BARE. }
  rewrite <- !Fin_si in Et, Ev.
  destruct (call_t_ph us p h _ Et) as (t & Ct & St). destruct (call_v_ph us p h _ Ev) as (v & Cv & Sv).
  exists t, v, (p3R (1 / V) T), (h3R (1 / V) T). rewrite Fin_si, St, Sv.
  assert (D : dom3 (1 / V) T) by (split; [apply Rdiv_lt_0_compat; lra | exact PT]).
  destruct (eos3 _ _ D) as (E1 & E2 & _). tauto.
Qed.
End Regions.
