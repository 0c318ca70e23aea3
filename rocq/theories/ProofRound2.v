(** Region 2: the temperature t_ph reports. *)
From Coq Require Import ZArith Reals Lra Lia List Bool.
From Coquelicot Require Import Coquelicot.
From Interval Require Import Tactic.
From Verif Require Import Py ModState ModUnits ModRegion1 ModRegion2 ModRegion3 ModRegion4 ModRegion5 ModBorders ModSelect ModXSteam ExactReal RealSum SpecUnits SpecApi SpecThermo
  ProofUnits ProofCovariance ProofEos ProofThermo ProofThermoApi ProofSat ProofSatApi ProofMono ProofMisc ProofWet ProofWetApi BoundPh ProofReg
  Bound2 ProofAgree ProofBack ProofBackS BoundR1 ProofRound Sat3 BoundX ProofIce ProofTph BoundR2.
Open Scope R_scope.

Lemma p23_low : 16.528 < p23R 623.14. Proof. unfold p23R. lra. Qed.
Lemma p4_62315 : p4R 623.15 < 16.5292. Proof. unfold p4R, be, qA, qB, qC, th. interval with (i_prec 80). Qed.
Lemma in2_sat p t : 0.000611657 <= p < 16.5292 -> T4R p <= t -> in2 p t.
Proof.
  intros Hp Ht. destruct (T4_mid p Hp) as (_ & R & I). split; intros L.
  - rewrite <- I at 1. apply p4_le; lra.
  - pose proof p23_low. pose proof (p23_le 623.14 t ltac:(lra) L). lra.
Qed.
Lemma q23_p23 t : q23 t = p23R t.
Proof. unfold q23, p23R, ProofIce.n1, ProofIce.n2, ProofIce.n3. cbn [pow]. rewrite Rmult_1_r. generalize (t * t) t. intros; lra. Qed.
Lemma T23_low p : 16.5292 <= p <= 100 -> 623.14 < T23 p.
Proof.
  intros Hp. assert (A := p23_of_T p ltac:(lra)). assert (B := T23_in p ltac:(lra)). rewrite q23_p23 in A. apply Rnot_le_lt. intros L.
  pose proof (p23_le (T23 p) 623.14 ltac:(lra) L). assert (p23R 623.14 < 16.5285) by (unfold p23R; lra).
  revert A. unfold Rabs. destruct (Rcase_abs _); lra.
Qed.
Lemma in2_b23 p t : 16.5292 <= p <= 100 -> T23 p <= t -> in2 p t.
Proof.
  intros Hp Ht. pose proof (T23_low p Hp). assert (A := p23_of_T p ltac:(lra)). rewrite q23_p23 in A. split; intros L; [lra|].
  pose proof (p23_le (T23 p) t ltac:(lra) Ht). revert A. unfold Rabs. destruct (Rcase_abs _); lra.
Qed.
Lemma in2_zone p T : region_pT (Fin p) (Fin T) = Ok 2%Z -> in2 p T.
Proof.
  intros H. apply region_zone2 in H. destruct H as (_ & [(A & B)|(A & B)]); split; intros L; try lra.
  pose proof p23_low. pose proof p4_62315. pose proof (p23_le 623.14 T ltac:(lra) L). pose proof (p4_le T 623.15 ltac:(lra) ltac:(lra) ltac:(lra)). lra.
Qed.

Section Regions.
Context {F : Fuel}.
Lemma ph_low_2 p h : 0.000611657 <= p < 16.5292 -> region_ph (Fin p) (Fin h) = Ok 2%Z -> h2R p (T4R p) <= h <= h2R p 1073.15.
Proof.
  intros Hp H. destruct (ph_range p h) as [_ Hh]; [rewrite H; congruence|]. revert H.
  unfold region_ph. rewrite D_273, D_1073, D_2273. destruct (eos1 p 273.15) as (_ & Eh & _); [unfold dom1; lra|]. rewrite Eh.
  cmps. cbn [add mul RNum lit lift2 cmp]. pose proof (edge_ok p ltac:(lra)) as [E _].
  replace (if Rltb h (D 0.963%dec * p + D 2.2%dec) then _ else _) with (Ok (Proceed tt) : res (outcome Z unit)).
  2: { cbn [bind]. undec. repeat cases1; try reflexivity; exfalso; lra. }
  cbn [bind]. change (D 16.5292%dec) with 16.5292. try rewrite (Rltb_true p) by lra.
  destruct (T4_mid p) as (ET & RT & I); [lra|]. rewrite ET. cbn [bind].
  pose proof (coarse_ok (T4R p) ltac:(lra)) as [_ C]. rewrite I in C.
  replace (log (Num := RNum) (Fin p)) with (Ok (Fin (Rpower.ln p)) : res xr) by (symmetry; apply xlog_Fin; lra).
  cbn [bind add mul sub fabs RNum lit lift1 lift2].
  replace (D 45.1768%dec * Rpower.ln p - D 20.158%dec * p + D 2804.4%dec) with (hV0 p) by (unfold hV0; undec; lra).
  destruct (eos1 p (T4R p)) as (_ & Ea & _); [unfold dom1; lra|]. rewrite Ea.
  destruct (eos2 p (T4R p)) as (_ & E2 & _); [unfold dom2; lra|]. rewrite E2.
  destruct (eos2 p 1073.15) as (_ & Eh2 & _); [unfold dom2; lra|]. rewrite Eh2.
  destruct (eos5 p 2273.15) as (_ & Eh5 & _); [unfold dom5; lra|]. rewrite Eh5.
  pose proof (hot_ok p ltac:(lra)) as X. unfold hot in X.
  cbn [bind cmp]. unfold Rabs. undec.
  repeat match goal with |- context [Rcase_abs ?x] => destruct (Rcase_abs x) end;
  repeat (cases1; cbn [bind cmp]); intros K; try discriminate K; lra.
Qed.
Lemma ph_2 p h : region_ph (Fin p) (Fin h) = Ok 2%Z ->
  exists T, 273.15 <= T <= 1073.15 /\ 0.000611657 <= p <= 100 /\ in2 p T /\ h2R p T = h.
Proof.
  intros H. destruct (ph_range p h) as [Hp _]; [now rewrite H|].
  assert (B : exists a, 273.15 <= a <= 1073.15 /\ (forall t, a <= t -> in2 p t) /\ h2R p a <= h <= h2R p 1073.15).
  { destruct (Rlt_or_le p 16.5292) as [L|L].
    - exists (T4R p). destruct (T4_mid p ltac:(lra)) as (_ & R & _). split; [lra|]. split; [|apply ph_low_2; [lra | exact H]].
      intros t. apply in2_sat. lra.
    - exists (T23 p). pose proof (T23_in p ltac:(lra)). split; [lra|]. split.
      + intros t. apply in2_b23. lra.
      + destruct (ph_high p h 2%Z ltac:(lra) H) as [(_ & K)|[(K & _)|(K & _)]]; [lia | lia | lra | discriminate | discriminate]. }
  destruct B as (a & Ha & I & Hh).
  destruct (reach (fun T => h2R p T) (fun T => Cp2R p T) a 1073.15 h) as (T & HT & E).
  - lra.
  - intros x Hx. apply thermo2. unfold dom2. lra.
  - exact Hh.
  - exists T. split; [lra|]. split; [exact Hp|]. split; [apply I; lra | exact E].
Qed.
Lemma t_ph_2 p h T : region_ph (Fin p) (Fin h) = Ok 2%Z -> T2_ph (Fin p) (Fin h) = Ok (Fin T) -> t_ph BARE (Fin p) (Fin h) = Ok (Fin T).
Proof.
  intros H E. unfold t_ph. rewrite to_p, to_h. cbn [bind]. rewrite !si_BARE, H. cbn [bind Z.eqb Pos.eqb].
  rewrite E. cbn [bind]. now rewrite from_T, user_BARE.
Qed.
Lemma eos2h p t : dom2 p t -> h2_pT (Fin p) (Fin t) = Ok (Fin (h2R p t)).
Proof. intros H. exact (proj1 (proj2 (eos2 p t H))). Qed.
Lemma from_ph_2 us p h : region_ph (si us Qp (Fin p)) (si us Qh (Fin h)) = Ok 2%Z ->
  exists t t', h2_pT (si us Qp (Fin p)) (si us QT (Fin t)) = Ok (si us Qh (Fin h)) /\ t_ph us (Fin p) (Fin h) = Ok (Fin t') /\
    273.15 <= to_si us QT t <= 1073.15 /\ Rabs (to_si us QT t' - to_si us QT t) <= 0.05.
Proof.
  rewrite !Fin_si. intros H. destruct (ph_2 _ _ H) as (T & HT & Hp & I & E).
  destruct (back2 _ T Hp HT I) as (T' & ET & B). rewrite E in ET.
  destruct (call_t_ph us p h _ (t_ph_2 _ _ _ H ET)) as (t' & Et' & S'). destruct (back_si us QT T) as (t & St).
  exists t, t'. rewrite Fin_si, St, S', <- E.
  split; [apply eos2h; unfold dom2; lra|]. split; [exact Et'|]. split; [lra | exact B].
Qed.
Lemma there_ph_2 us p t h : region_pT (si us Qp (Fin p)) (si us QT (Fin t)) = Ok 2%Z ->
  h_pt us (Fin p) (Fin t) = Ok (Fin h) ->
  0.000611657 <= to_si us Qp p < 16.529 \/ region_ph (si us Qp (Fin p)) (si us Qh (Fin h)) = Ok 2%Z ->
  exists t', t_ph us (Fin p) (Fin h) = Ok (Fin t') /\ Rabs (to_si us QT t' - to_si us QT t) <= 0.05.
Proof.
  rewrite !Fin_si. intros H E Hr. assert (Z := region_zone2 _ _ H).
  assert (Eh : h_pt BARE (Fin (to_si us Qp p)) (Fin (to_si us QT t)) = Ok (Fin (h2R (to_si us Qp p) (to_si us QT t)))).
  { destruct (api_pT _ _ _ H) as (_ & -> & _); [tauto|]. cbn [pick Z.eqb Pos.eqb]. apply eos2h. unfold dom2. lra. }
  pose proof (run2_units F_h_pt us (Fin p) (Fin t) ltac:(discriminate)) as U. cbn [run2 sig2 fst snd] in U. rewrite E in U. symmetry in U.
  apply map_inv in U. rewrite !Fin_si, Eh in U. injection U as U.
  assert (R : region_ph (Fin (to_si us Qp p)) (Fin (to_si us Qh h)) = Ok 2%Z).
  { destruct Hr as [Hp|R]; [|exact R].
    destruct (ProofReg.agree_ph _ _ 2%Z Hp (or_intror eq_refl) H) as (h' & Eh' & K). rewrite Eh in Eh'. injection Eh' as <-. now rewrite <- U. }
  destruct (ph_range _ _ ltac:(rewrite R; discriminate)) as [Hp _].
  destruct (back2 _ (to_si us QT t) Hp ltac:(lra) (in2_zone _ _ H)) as (T' & ET & B). rewrite U in ET.
  destruct (call_t_ph us p h _ (t_ph_2 _ _ _ R ET)) as (t' & Et & St). exists t'. split; [exact Et|]. now rewrite St.
Qed.
End Regions.
